(** Links without libraries and archives, for two sets of iteration orders. *)
From Verif Require Export SpecRepro ProofStatic ProofTables ProofOrder ProofDyn.

(** * Up to the end of input *)
Lemma undefined_length o o' w : (forall k, o_sym o k ≡ₚ k) -> (forall k, o_sym o' k ≡ₚ k) -> undefined_symbols o' w ≡ₚ undefined_symbols o w.
Proof. intros H H'. unfold undefined_symbols. by rewrite H, H'. Qed.
Lemma resolve_alone wd lo lo' l fuel : valid_orders lo -> valid_orders lo' -> opt_shared_libs (lk_options l) = [] -> lk_archives l = [] ->
  resolve wd lo' l fuel = resolve wd lo l fuel.
Proof.
  intros V V' HL HA. unfold resolve. destruct (writer_new _) as [w0| |]; [|reflexivity..]. cbn [mbind res_bind]. destruct (load_objects wd l w0) as [w1| |]; [|reflexivity..]. cbn [mbind res_bind].
  assert (G : forall o us, valid_orders o -> resolve_loop wd o l fuel 0 us w1 = match fuel with O => Panic PFuel | _ => Ok w1 end).
  { intros o us (_ & Uo & _). destruct fuel as [|f]; [reflexivity|]. cbn [resolve_loop]. unfold find_undefined_symbols_in_libs, process_archives_containing. rewrite HL, HA. cbn [foldM mbind res_bind].
    rewrite (Permutation_length (Uo _ _)), (Permutation_length (Uo _ _)), Nat.eqb_refl. reflexivity. }
  rewrite (G lo' _ V'), (G lo _ V). reflexivity.
Qed.

(** No symbol is bound to a library. *)
Definition undynamic (w : writer) : Prop := (forall n s, syt_symbols (w_symtab w) !! n = Some s -> s_dynamic s = None) /\ (forall n, is_Some (syt_symbols (w_dynsym w) !! n) -> n = 0).
Lemma undynamic_frame w w' : w_symtab w' = w_symtab w -> w_dynsym w' = w_dynsym w -> undynamic w -> undynamic w'.
Proof. unfold undynamic. by intros -> ->. Qed.
Lemma resolve_undynamic wd lo l fuel w : opt_shared_libs (lk_options l) = [] -> resolve wd lo l fuel = Ok w -> undynamic w.
Proof.
  intros HL. apply (resolve_inv wd l undynamic).
  - intros a e name sh data b r U _ _ H. apply (undynamic_frame a); [| |exact U]; revert H; unfold add_section; destruct (st_get_or_create _ _) as [names en]; (destruct (en_new en);
      [intros [= <- <-]; reflexivity|]); intros H; apply bind_Ok in H as (s & _ & H); (destruct data; [by injection H as <- <-|]); cbn in H; (destruct (sc_chunks s); [discriminate H|by injection H as <- <-]).
  - intros a e sym sr name ref b r [U1 U2] _ _ _ H. unfold add_symbol in H. apply bind_Ok in H as ([[[nm sy] secs] r0] & Hi & [= <- <-]). split; [|exact U2]. cbn.
    destruct (inner_table _ _ _ _ _ _ _ _ _ _ _ Hi) as (en & _ & Ha). apply add_sym_cases in Ha as [(_ & -> & _)|(_ & _ & _ & s2 & -> & Hs)]; [exact U1|].
    intros n s Hn. apply lookup_insert_Some in Hn as [[_ <-]|[_ Hn]]; [|exact (U1 _ _ Hn)]. destruct Hs as [[_ ->]|(old & Ho & Hm)]; [reflexivity|].
    apply U1 in Ho. unfold merge_symbol in Hm. destruct (_ && _); [discriminate Hm|]. destruct (negb _); [by injection Hm as <-|]. destruct (_ =? _); injection Hm as <-; exact Ho.
  - intros a rel r sr b U H. apply (undynamic_frame a); [| |exact U]; revert H; unfold add_relocation; (destruct (_ || _); [discriminate|]); intros H; by apply bind_Ok in H as (secs & _ & [= <-]).
  - intros a path e sym name so b r _ [Hl _]. rewrite HL in Hl. by apply elem_of_nil in Hl.
  - intros w0 H0. destruct (writer_new_ref _ _ H0) as (_ & _ & _ & _ & _ & E1 & E2). split; rewrite ?E1, ?E2; cbn.
    + intros n s Hs. apply lookup_singleton_Some in Hs as [_ <-]. reflexivity.
    + intros n [s Hs]. apply lookup_singleton_Some in Hs as [<- _]. reflexivity.
Qed.
Lemma ref_symtab : forall st s, s ∈ ref_sections st -> sc_synth s = Some KSym -> sc_id s = 8%nat.
Proof.
  intros st. assert (E : forallb (fun s => match sc_synth s with Some KSym => (sc_id s =? 8)%nat | _ => true end) (ref_sections st) = true) by (destruct st; vm_compute; reflexivity).
  intros s Hs Hk. apply elem_of_list_In in Hs. rewrite forallb_forall in E. specialize (E s Hs). rewrite Hk in E. by apply Nat.eqb_eq.
Qed.
(** Only one section holds the symbol table. *)
Definition one_symtab (l : list section) : Prop := forall s, s ∈ l -> sc_synth s = Some KSym -> sc_id s = id_sym.
Lemma resolve_symtab wd lo l fuel w : resolve wd lo l fuel = Ok w -> one_symtab (w_sections w).
Proof.
  intros H. destruct (resolve_winv _ _ _ _ _ H) as (w0 & H0 & I). intros s Hs Hk. apply elem_of_list_lookup in Hs as [i Hi].
  destruct (decide (length (w_sections w0) <= i)%nat) as [Hge|Hlt]; [destruct (wi_new _ _ _ I i s Hge Hi) as (E & _); congruence|].
  destruct (lookup_lt_is_Some_2 (w_sections w0) i) as [s0 Hs0]; [lia|]. destruct (wi_fixed _ _ _ I _ _ Hs0) as (s' & Hs' & (G & _)). assert (s' = s) as -> by congruence.
  destruct (writer_new_ref _ _ H0) as (E & _). apply (f_equal (fun l => l !! i)) in E. rewrite !list_lookup_fmap, Hs0 in E. destruct (ref_sections _ !! i) as [r|] eqn:Hr; [|discriminate E].
  cbn [fmap option_fmap option_map] in E. apply (inj Some) in E. change id_sym with 8%nat. rewrite (sec_sig_id _ _ G), (sec_sig_id _ _ E). eapply ref_symtab; [by eapply elem_of_list_lookup_2|].
  unfold sec_sig in G, E. congruence.
Qed.

(** * Layout *)
(** The symbol table may hold other bytes, as many as before. *)
Definition alike_chunk (c c' : chunk) : Prop :=
  c_address c' = c_address c /\ c_relocations c' = c_relocations c /\ c_symbols c' = c_symbols c /\ blen (c_data c') = blen (c_data c) /\ (c_data c' = c_data c \/ c_relocations c = []).
Definition alike_sec (s s' : section) : Prop :=
  (sc_id s' = sc_id s /\ sc_index s' = sc_index s /\ sc_link s' = sc_link s /\ sc_synth s' = sc_synth s /\ sc_sh s' = sc_sh s) /\
  Forall2 alike_chunk (sc_chunks s) (sc_chunks s') /\ (sc_id s <> id_sym -> sc_chunks s' = sc_chunks s) /\ (sc_synth s = Some KSym -> sc_id s = id_sym).
Definition alike (w w' : writer) : Prop := w' = w <| w_sections := w_sections w' |> /\ Forall2 alike_sec (w_sections w) (w_sections w').

Lemma alike_chunk_refl c : alike_chunk c c.
Proof. unfold alike_chunk. split_and!; try reflexivity. by left. Qed.
Lemma alike_chunks_refl cs : Forall2 alike_chunk cs cs.
Proof. induction cs; constructor; [apply alike_chunk_refl|assumption]. Qed.
Lemma alike_sec_refl s : (sc_synth s = Some KSym -> sc_id s = id_sym) -> alike_sec s s.
Proof. intros H. unfold alike_sec. split; [split_and!; reflexivity|]. split; [apply alike_chunks_refl|]. split; [reflexivity|exact H]. Qed.
Lemma alike_refl l : one_symtab l -> Forall2 alike_sec l l.
Proof.
  unfold one_symtab. intros H. induction l as [|s l IH]; constructor; [apply alike_sec_refl, H; left|]. apply IH. intros x Hx. apply H. by right.
Qed.
(** Steps that read a section's header and keep its contents, or change them alike. *)
Lemma alike_step (f g : section -> section) s s' : alike_sec s s' ->
  sc_id (f s) = sc_id s -> sc_synth (f s) = sc_synth s ->
  (sc_id (g s') = sc_id (f s) /\ sc_index (g s') = sc_index (f s) /\ sc_link (g s') = sc_link (f s) /\ sc_synth (g s') = sc_synth (f s) /\ sc_sh (g s') = sc_sh (f s)) ->
  Forall2 alike_chunk (sc_chunks (f s)) (sc_chunks (g s')) -> (sc_id s <> id_sym -> sc_chunks (g s') = sc_chunks (f s)) -> alike_sec (f s) (g s').
Proof. intros (_ & _ & _ & H) E1 E2 K1 K2 K3. split; [exact K1|]. split; [exact K2|]. rewrite E1, E2. split; [exact K3|exact H]. Qed.
Lemma alike_hdr f s s' : alike_sec s s' -> alike_sec (s <| sc_sh := f (sc_sh s) |>) (s' <| sc_sh := f (sc_sh s') |>).
Proof.
  intros H. pose proof H as ((H1 & H2 & H3 & H4 & H5) & H6 & H7 & H8). apply (alike_step (fun s => s <| sc_sh := f (sc_sh s) |>) (fun s => s <| sc_sh := f (sc_sh s) |>)); [exact H|reflexivity|reflexivity| |exact H6|exact H7].
  cbn. rewrite H5. split_and!; assumption || reflexivity.
Qed.
Lemma alike_size n s s' : alike_sec s s' -> alike_sec (ModelWriter.set_size n s) (ModelWriter.set_size n s').
Proof. exact (alike_hdr (fun h => h <| sh_size := n |>) s s'). Qed.
Lemma alike_add c s s' : alike_sec s s' -> alike_sec (sec_add_chunk c s) (sec_add_chunk c s').
Proof.
  intros H. pose proof H as ((H1 & H2 & H3 & H4 & H5) & H6 & H7 & H8). apply (alike_step (sec_add_chunk c) (sec_add_chunk c)); [exact H|reflexivity|reflexivity|split_and!; assumption| |].
  - cbn. apply Forall2_app; [exact H6|]. constructor; [apply alike_chunk_refl|constructor].
  - intros Hn. cbn. by rewrite (H7 Hn).
Qed.
Lemma alike_add_sym d d' s s' : blen d' = blen d -> sc_id s = id_sym -> alike_sec s s' -> alike_sec (sec_add_chunk (chunk_new d) s) (sec_add_chunk (chunk_new d') s').
Proof.
  intros Hd Hi H. pose proof H as ((H1 & H2 & H3 & H4 & H5) & H6 & H7 & H8). apply (alike_step (sec_add_chunk (chunk_new d)) (sec_add_chunk (chunk_new d'))); [exact H|reflexivity|reflexivity|split_and!; assumption| |].
  - cbn. apply Forall2_app; [exact H6|]. constructor; [|constructor]. unfold alike_chunk. cbn. split_and!; try reflexivity; [exact Hd|by right].
  - intros Hn. by destruct Hn.
Qed.
Lemma alike_addresses a cs cs' : Forall2 alike_chunk cs cs' -> Forall2 alike_chunk (set_chunk_addresses a cs) (set_chunk_addresses a cs').
Proof.
  intros H. revert a. induction H as [|c c' cs cs' (H1 & H2 & H3 & H4 & H5) _ IH]; intros a; cbn [set_chunk_addresses]; [constructor|]. constructor; [|rewrite H4; apply IH].
  unfold alike_chunk. cbn. split_and!; try assumption. reflexivity.
Qed.
Lemma alike_address a s s' : alike_sec s s' -> alike_sec (sec_set_address a s) (sec_set_address a s').
Proof.
  intros H. pose proof H as ((H1 & H2 & H3 & H4 & H5) & H6 & H7 & H8). apply (alike_step (sec_set_address a) (sec_set_address a)); [exact H|reflexivity|reflexivity| |exact (alike_addresses a _ _ H6)|].
  - cbn. rewrite H5. split_and!; assumption || reflexivity.
  - intros Hn. cbn. by rewrite (H7 Hn).
Qed.

Lemma alike_get id l l' : Forall2 alike_sec l l' -> match get_section id l, get_section id l' with Some s, Some s' => alike_sec s s' /\ sc_id s = id | None, None => True | _, _ => False end.
Proof.
  induction 1 as [|s s' l l' H _ IH]; [done|]. cbn [get_section]. pose proof H as ((H1 & _) & _). rewrite H1. destruct (Nat.eqb_spec (sc_id s) id); [by split|exact IH].
Qed.
Lemma alike_hdr_of id l l' : Forall2 alike_sec l l' -> hdr_of id l' = hdr_of id l.
Proof. intros H. pose proof (alike_get id _ _ H) as K. unfold hdr_of. destruct (get_section id l), (get_section id l'); try done. by destruct K as [((_ & _ & _ & _ & K) & _) _]. Qed.
Lemma alike_index id l l' : Forall2 alike_sec l l' -> match get_section id l' with Some s => sc_index s | None => 0 end = match get_section id l with Some s => sc_index s | None => 0 end.
Proof. intros H. pose proof (alike_get id _ _ H) as K. destruct (get_section id l), (get_section id l'); try done. by destruct K as [((_ & K & _) & _) _]. Qed.
Lemma alike_upd id f l l' : (forall s s', sc_id s = id -> alike_sec s s' -> alike_sec (f s) (f s')) -> Forall2 alike_sec l l' -> Forall2 alike_sec (upd_section id f l) (upd_section id f l').
Proof.
  intros Hf H. unfold upd_section. induction H as [|s s' l l' H _ IH]; [constructor|]. rewrite !fmap_cons. constructor; [|exact IH].
  pose proof H as ((H1 & _) & _). rewrite H1. destruct (Nat.eqb_spec (sc_id s) id); [by apply Hf|exact H].
Qed.
Lemma alike_lengths l l' : Forall2 alike_sec l l' -> blen l' = blen l.
Proof. intros H. unfold blen. by rewrite (Forall2_length _ _ _ H). Qed.
Lemma alike_headers l l' : Forall2 alike_sec l l' -> sc_sh <$> l' = sc_sh <$> l.
Proof. induction 1 as [|s s' l l' ((_ & _ & _ & _ & H) & _) _ IH]; [reflexivity|]. rewrite !fmap_cons, H, IH. reflexivity. Qed.
Lemma alike_disk s s' : alike_sec s s' -> size_on_disk s' = size_on_disk s.
Proof. intros ((_ & _ & _ & _ & H) & _). unfold size_on_disk. by rewrite H. Qed.
Lemma foldM_headers {S} (f : S -> Shdr -> res S) l l' t : sc_sh <$> l' = sc_sh <$> l -> foldM (fun t s => f t (sc_sh s)) l' t = foldM (fun t s => f t (sc_sh s)) l t.
Proof.
  revert l' t. induction l as [|s l IH]; intros [|s' l'] t E; try discriminate E; [reflexivity|]. rewrite !fmap_cons in E. injection E as E1 E2. cbn [foldM]. rewrite E1. destruct (f t (sc_sh s)) as [t1| |]; [|reflexivity..]. exact (IH _ _ E2).
Qed.
Lemma mapM_st_alike {S} (f g : S -> section -> res (S * section)) l l' t : Forall2 alike_sec l l' ->
  (forall t s s', alike_sec s s' -> like (fun x y => x.1 = y.1 /\ alike_sec x.2 y.2) (f t s) (g t s')) ->
  like (fun x y => x.1 = y.1 /\ Forall2 alike_sec x.2 y.2) (mapM_st f l t) (mapM_st g l' t).
Proof.
  intros H Hf. revert t. induction H as [|s s' l l' H _ IH]; intros t; cbn [mapM_st]; [cbn; split; [reflexivity|constructor]|].
  eapply like_bind; [exact (Hf t s s' H)|]. intros [t1 s1] [t2 s2] [E1 E2]. cbn in E1, E2. subst t2. eapply like_bind; [exact (IH t1)|]. intros [t3 k] [t4 k'] [E3 E4]. cbn in E3, E4. subst t4. cbn. split; [reflexivity|by constructor].
Qed.
Lemma alike_intro w k k' : Forall2 alike_sec k k' -> alike (w <| w_sections := k |>) (w <| w_sections := k' |>).
Proof. intros H. split; [reflexivity|exact H]. Qed.

(** Sizing *)
Lemma one_key_order (ord ord' : list N -> list N) (m : gmap N symbol) : (forall k, ord k ≡ₚ k) -> (forall k, ord' k ≡ₚ k) -> (forall n, is_Some (m !! n) -> n = 0) ->
  hm_values ord m = hm_values ord' m.
Proof.
  intros H H' Hm. unfold hm_values. assert (Hk : keys m = [] \/ keys m = [0]).
  { assert (HN : NoDup (keys m)) by (unfold keys; apply NoDup_elements). assert (HA : forall n, n ∈ keys m -> n = 0) by (unfold keys; intros n Hn; apply Hm; apply elem_of_elements, elem_of_dom in Hn; exact Hn).
    clear -HN HA. destruct (keys m) as [|a [|b k]]; [by left|right; f_equal; apply HA; left|]. exfalso. apply NoDup_cons in HN as [HN _]. apply HN. rewrite (HA a), (HA b) by (repeat constructor). left. }
  assert (E : forall o : list N -> list N, (forall k, o k ≡ₚ k) -> o (keys m) = keys m).
  { intros o Ho. destruct Hk as [E|E]; rewrite E; specialize (Ho (keys m)); rewrite E in Ho; [apply Permutation_nil; by symmetry|apply Permutation_length_1_inv; by symmetry]. }
  rewrite (E ord H), (E ord' H'). reflexivity.
Qed.
Lemma dyn_order ord ord' t : (forall k, ord k ≡ₚ k) -> (forall k, ord' k ≡ₚ k) -> (forall n, is_Some (syt_symbols t !! n) -> n = 0) -> syt_sorted ord' t = syt_sorted ord t.
Proof. intros H H' Hm. unfold syt_sorted. by rewrite (one_key_order ord' ord (syt_symbols t) H' H Hm). Qed.
Lemma dyn_data ord ord' t : (forall k, ord k ≡ₚ k) -> (forall k, ord' k ≡ₚ k) -> (forall n, is_Some (syt_symbols t !! n) -> n = 0) -> syt_chunk_data ord' t = syt_chunk_data ord t.
Proof. intros H H' Hm. unfold syt_chunk_data. by rewrite (dyn_order ord ord'). Qed.

Lemma alike_map (f g : section -> section) l l' : Forall2 alike_sec l l' -> (forall s s', alike_sec s s' -> alike_sec (f s) (g s')) -> Forall2 alike_sec (f <$> l) (g <$> l').
Proof. intros H Hf. induction H as [|s s' l l' H _ IH]; [constructor|]. rewrite !fmap_cons. constructor; [by apply Hf|exact IH]. Qed.
Section two.
  Context (o o' : oracle) (V : valid_oracle o) (V' : valid_oracle o').
  Lemma alike_expand w k s s' : (forall n, is_Some (syt_symbols (w_dynsym w) !! n) -> n = 0) -> alike_sec s s' -> alike_sec (sec_expand o w s) (sec_expand o' (w <| w_sections := k |>) s').
  Proof using V V'.
    intros Hm H. pose proof H as ((H1 & H2 & H3 & H4 & H5) & H6 & H7 & H8). unfold sec_expand. rewrite H4.
    cbn [w_shstrtab w_strtab w_dynstr w_symtab w_dynsym w_hash w_gnu_hash w_plt w_copyrel RecordSet.set].
    change (w_shstrtab (w <| w_sections := k |>)) with (w_shstrtab w). change (w_strtab (w <| w_sections := k |>)) with (w_strtab w). change (w_dynstr (w <| w_sections := k |>)) with (w_dynstr w).
    change (w_symtab (w <| w_sections := k |>)) with (w_symtab w). change (w_dynsym (w <| w_sections := k |>)) with (w_dynsym w). change (w_hash (w <| w_sections := k |>)) with (w_hash w).
    change (w_gnu_hash (w <| w_sections := k |>)) with (w_gnu_hash w). change (w_plt (w <| w_sections := k |>)) with (w_plt w). change (w_copyrel (w <| w_sections := k |>)) with (w_copyrel w).
    destruct (sc_synth s) as [[]|] eqn:Es; try (apply alike_size; exact H); try exact H; try (apply alike_add, alike_size; exact H).
    - apply alike_size. apply (alike_hdr (fun h => h <| sh_info := u32 (syt_num_locals (w_symtab w)) |>)). apply alike_add_sym; [|by apply H8|exact H].
      rewrite !chunk_data_len; [reflexivity|apply (vo_sym _ V)|apply (vo_sym _ V')].
    - rewrite (dyn_data (o_dyn o) (o_dyn o')); [|apply (vo_dyn _ V)|apply (vo_dyn _ V')|exact Hm]. apply alike_size. apply (alike_hdr (fun h => h <| sh_info := u32 (syt_num_locals (w_dynsym w)) |>)). by apply alike_add.
  Qed.
  Lemma no_dynrels ix ns st : (forall n s, dr_symbols st !! n = Some s -> s_dynamic s = None) -> foldM (dynrel_step ix) ns st = Ok st.
  Proof using.
    intros H. induction ns as [|n ns IH]; [reflexivity|]. cbn [foldM]. assert (E : dynrel_step ix st n = Ok st) by (unfold dynrel_step; destruct (dr_symbols st !! n) as [s|] eqn:E; [rewrite (H _ _ E)|]; reflexivity). rewrite E. exact IH.
  Qed.
  Lemma alike_hash sorted w k : Forall2 alike_sec (w_sections w) k ->
    like (fun x y => alike x y /\ w_symtab x = w_symtab w /\ w_dynsym x = w_dynsym w) (fill_hash_tables sorted w) (fill_hash_tables sorted (w <| w_sections := k |>)).
  Proof using.
    intros H. unfold fill_hash_tables. change (w_hash (w <| w_sections := k |>)) with (w_hash w).
    eapply (like_bind (fun x y => (alike x y /\ w_symtab x = w_symtab w /\ w_dynsym x = w_dynsym w))).
    - destruct (w_hash w); [|split; [by split|by split]]. eapply (like_bind eq); [apply like_eq|]. intros hh ? <-. split; [by split|by split].
    - intros x y [[E F] [G1 G2]]. set (k1 := w_sections y) in *. clearbody k1. subst y. change (w_gnu_hash (x <| w_sections := k1 |>)) with (w_gnu_hash x).
      destruct (w_gnu_hash x); [|split; [by split|by split]]. eapply (like_bind eq); [apply like_eq|]. intros hh ? <-. split; [by split|by split].
  Qed.
  Definition same_ids (s s' : section) : Prop := sc_id s' = sc_id s /\ sc_synth s' = sc_synth s.
  Lemma one_same l l' : Forall2 same_ids l l' -> one_symtab l -> one_symtab l'.
  Proof using.
    intros H Hl s' Hs'. apply elem_of_list_lookup in Hs' as [i Hi]. destruct (Forall2_lookup_r _ _ _ _ _ H Hi) as (s & Hs & E1 & E2). rewrite E1, E2. apply Hl. by eapply elem_of_list_lookup_2.
  Qed.
  Lemma upd_same id f l : (forall s, same_ids s (f s)) -> Forall2 same_ids l (upd_section id f l).
  Proof using. intros Hf. unfold upd_section. induction l as [|s l IH]; [constructor|]. rewrite fmap_cons. constructor; [|exact IH]. destruct (Nat.eqb _ _); [apply Hf|by split]. Qed.
  Lemma scan_same w w' : scan_relocations w = Ok w' -> Forall2 same_ids (w_sections w) (w_sections w') /\ w_dynsym w' = w_dynsym w.
  Proof using.
    unfold scan_relocations. intros H. apply bind_Ok in H as ([st secs] & Hs & [= <-]). cbn. split; [|reflexivity].
    apply (mapM_st_trace (fun k k' _ => Forall2 same_ids k k')) in Hs; [exact Hs|constructor|].
    intros pre pre' post t a t' a' _ HF Ha. apply Forall2_app; [exact HF|]. constructor; [|constructor]. unfold scan_section in Ha. apply bind_Ok in Ha as ([t1 cs] & _ & [= <- <-]). by split.
  Qed.
  Lemma alike_tail sorted x e1 e2 : (forall n s, syt_symbols (w_symtab x) !! n = Some s -> s_dynamic s = None) -> Forall2 alike_sec e1 e2 ->
    let tail o w := w ← build_dynrels o sorted w; size_dynamic (w <| w_sections := upd_section id_pltrel (ModelWriter.set_size (blen (w_plt_rels w) * RELA_SIZE)) (upd_section id_dynrel (ModelWriter.set_size (blen (w_dyn_rels w) * RELA_SIZE)) (w_sections w)) |>) in
    like alike (tail o (x <| w_sections := e1 |>)) (tail o' (x <| w_sections := e2 |>)).
  Proof using.
    intros U HE. cbv zeta. unfold build_dynrels. cbv zeta.
    change (w_symtab (x <| w_sections := e1 |>)) with (w_symtab x). change (w_symtab (x <| w_sections := e2 |>)) with (w_symtab x). rewrite !no_dynrels by exact U.
    cbn [mbind res_bind]. unfold size_dynamic.
    cbn [w_sections w_plt_rels w_dyn_rels dr_dyn_rels dr_plt_rels RecordSet.set].
    match goal with |- like _ (_ ← foldM _ ?a _; _) (_ ← foldM _ ?b _; _) => set (h1 := a); set (h2 := b) end.
    assert (HH : Forall2 alike_sec h1 h2). { subst h1 h2. apply alike_upd; [intros; by apply alike_size|]. apply alike_upd; [intros; by apply alike_size|]. exact HE. }
    match goal with |- like _ (_ ← ?a; _) (_ ← ?b; _) => assert (EQ : b = a) by exact (foldM_headers (fun n sh => k ← dyn_entries (w_shstrtab x) sh; Ok (n + k)) h1 h2 0 (alike_headers _ _ HH)); rewrite EQ end.
    eapply (like_bind eq); [apply like_eq|]. intros n ? <-. split; [reflexivity|]. refine (alike_upd _ _ h1 h2 _ HH). intros; by apply alike_size.
  Qed.
  Lemma alike_sizes w : undynamic w -> one_symtab (w_sections w) -> like alike (assign_sizes o w) (assign_sizes o' w).
  Proof using V V'.
    intros [U1 U2] H1. unfold assign_sizes. destruct (scan_relocations w) as [ws| |] eqn:Es; [|reflexivity..]. cbn [mbind res_bind].
    destruct (scan_same _ _ Es) as [S1 S2]. pose proof (keeps_scan sym_static _ _ Es) as KS.
    assert (U1s : forall n s, syt_symbols (w_symtab ws) !! n = Some s -> s_dynamic s = None).
    { intros n s Hn. destruct (keeps_lookup _ _ _ _ _ KS Hn) as (s0 & Hs0 & E). apply U1 in Hs0. unfold sym_static in E. congruence. }
    apply (one_same _ _ S1) in H1. rewrite <- S2 in U2. clear w U1 Es S1 S2 KS.
    set (wg := resize_got_plt_section (resize_got_section ws)).
    assert (Hg : one_symtab (w_sections wg)). { subst wg. cbn. do 2 (eapply one_same; [apply upd_same; intros s; by split|]). exact H1. }
    assert (G1 : w_symtab wg = w_symtab ws) by reflexivity. assert (G2 : w_dynsym wg = w_dynsym ws) by reflexivity. rewrite <- G1 in U1s. rewrite <- G2 in U2. clearbody wg. clear ws H1 G1 G2.
    assert (HF : Forall2 alike_sec (upd_section id_dynsym (sec_expand o wg) (w_sections wg)) (upd_section id_dynsym (sec_expand o' wg) (w_sections wg))).
    { unfold upd_section. pose proof (alike_refl _ Hg) as HR. clear Hg. revert HR. generalize (w_sections wg) at 2 4. generalize (w_sections wg) at 1 2. intros a b HR. induction HR as [|s s' l l' H _ IH]; [constructor|]. rewrite !fmap_cons. constructor; [|exact IH].
      pose proof H as ((-> & _) & _). destruct (Nat.eqb _ _); [|exact H]. pose proof (alike_expand wg (w_sections wg) s s' U2 H) as K. exact K. }
    change (syt_sorted (o_dyn o) (w_dynsym (wg <| w_sections := upd_section id_dynsym (sec_expand o wg) (w_sections wg) |>))) with (syt_sorted (o_dyn o) (w_dynsym wg)).
    change (syt_sorted (o_dyn o') (w_dynsym (wg <| w_sections := upd_section id_dynsym (sec_expand o' wg) (w_sections wg) |>))) with (syt_sorted (o_dyn o') (w_dynsym wg)).
    rewrite (dyn_order (o_dyn o) (o_dyn o') _ (vo_dyn _ V) (vo_dyn _ V') U2). set (sorted := syt_sorted (o_dyn o) (w_dynsym wg)). clearbody sorted.
    eapply like_bind; [exact (alike_hash sorted (wg <| w_sections := upd_section id_dynsym (sec_expand o wg) (w_sections wg) |>) _ HF)|].
    intros x y [[E F] [X1 X2]]. cbn in X1, X2. set (k1 := w_sections y) in *. clearbody k1. subst y. rewrite <- X1 in U1s. rewrite <- X2 in U2. clear wg Hg HF X1 X2.
    set (e1 := (fun s => if sh_type (sc_sh s) =? SHT_DYNSYM then s else sec_expand o x s) <$> w_sections x).
    set (e2 := (fun s => if sh_type (sc_sh s) =? SHT_DYNSYM then s else sec_expand o' (x <| w_sections := k1 |>) s) <$> w_sections (x <| w_sections := k1 |>)).
    assert (HE : Forall2 alike_sec e1 e2).
    { subst e1 e2. change (w_sections (x <| w_sections := k1 |>)) with k1. apply (alike_map _ _ _ _ F). intros s s' H. pose proof H as ((_ & _ & _ & _ & E5) & _).
      pose proof (alike_expand x k1 s s' U2 H) as K. rewrite E5. destruct (_ =? _); [exact H|exact K]. }
    exact (alike_tail sorted x e1 e2 U1s HE).
  Qed.
End two.

(** Sorting, headers, PLT *)
Lemma alike_indices l l' : Forall2 alike_sec l l' -> Forall2 alike_sec (set_indices l) (set_indices l').
Proof.
  intros H. unfold set_indices. apply Forall2_same_length_lookup_2; [by rewrite !imap_length, (Forall2_length _ _ _ H)|].
  intros i s s' Hs Hs'. rewrite list_lookup_imap in Hs, Hs'. destruct (l !! i) as [a|] eqn:Ea; [|discriminate Hs]. destruct (l' !! i) as [b|] eqn:Eb; [|discriminate Hs']. injection Hs as <-. injection Hs' as <-.
  pose proof (Forall2_lookup_lr _ _ _ _ _ _ H Ea Eb) as K. pose proof K as ((H1 & H2 & H3 & H4 & H5) & H6 & H7 & H8).
  apply (alike_step (fun s => s <| sc_index := N.of_nat i |>) (fun s => s <| sc_index := N.of_nat i |>)); [exact K|reflexivity|reflexivity| |exact H6|exact H7]. cbn. split_and!; assumption || reflexivity.
Qed.
Lemma alike_sort o o' l l' : o_sort o' = o_sort o -> by_headers (o_sort o) -> Forall2 alike_sec l l' -> like (Forall2 alike_sec) (sort_sections o l) (sort_sections o' l').
Proof.
  intros Eo Hb H. destruct H as [|n n' l l' Hn Hl]; [reflexivity|]. cbn [sort_sections like]. rewrite Eo. apply alike_indices. constructor; [exact Hn|].
  destruct (Hb l l' (alike_headers _ _ Hl)) as (p & P1 & P2). apply Forall2_same_length_lookup_2; [by rewrite <- (Forall2_length _ _ _ P1), <- (Forall2_length _ _ _ P2)|].
  intros i s s' Hs Hs'. destruct (Forall2_lookup_r _ _ _ _ _ P1 Hs) as (j & Hj & E). destruct (Forall2_lookup_r _ _ _ _ _ P2 Hs') as (j' & Hj' & E'). assert (j' = j) as -> by congruence.
  exact (Forall2_lookup_lr _ _ _ _ _ _ Hl E E').
Qed.
Lemma alike_count l l' : Forall2 alike_sec l l' -> count_program_headers l' = count_program_headers l.
Proof.
  intros H. unfold count_program_headers. f_equal. apply (Forall2_drop _ _ _ 1) in H. generalize 0. induction H as [|s s' k k' ((_ & _ & _ & _ & Hs) & _) _ IH]; intros fl; [reflexivity|]. cbn [count_load_headers]. rewrite Hs. destruct (_ =? _); [apply IH|]. by rewrite IH.
Qed.
Lemma alike_place st s s' : alike_sec s s' -> (layout_place st s).1 = (layout_place st s').1 /\ alike_sec (layout_place st s).2 (layout_place st s').2.
Proof.
  intros H. pose proof H as ((_ & _ & _ & _ & E) & _). unfold layout_place, get_load_program_header. cbv zeta. rewrite E. destruct (negb _).
  - destruct (has_flag (sh_flags (sc_sh s)) SHF_ALLOC).
    + assert (K : forall a f, alike_sec (sec_set_address a s <| sc_sh := f (sc_sh (sec_set_address a s)) |>) (sec_set_address a s' <| sc_sh := f (sc_sh (sec_set_address a s')) |>)).
      { intros a f. apply alike_hdr, alike_address. exact H. }
      set (a := round_to (ly_p_vaddr st) PAGE_ALIGNMENT + default 0 (ly_first st)). 
      assert (E2 : sc_sh (sec_set_address a s') = sc_sh (sec_set_address a s)) by (cbn; by rewrite E).
      assert (E3 : size_on_disk (sec_set_address a s') = size_on_disk (sec_set_address a s)) by (unfold size_on_disk; by rewrite E2). rewrite E3.
      split; [|apply (K a (fun h => h <| sh_offset := _ |>))]. cbn [fst]. unfold RecordSet.set. cbn [sc_sh sh_size sh_addr sec_set_address]. unfold RecordSet.set. cbn. rewrite E. reflexivity.
    + cbn [fst snd]. split; [by rewrite (alike_disk _ _ H)|]. apply (alike_hdr (fun h => h <| sh_offset := ly_file_offset st |>)). exact H.
  - assert (K : alike_sec (s <| sc_sh := sc_sh s <| sh_offset := ly_file_offset st |> |>) (s' <| sc_sh := sc_sh s' <| sh_offset := ly_file_offset st |> |>)) by (apply (alike_hdr (fun h => h <| sh_offset := ly_file_offset st |>)); exact H).
    rewrite E in K. pose proof (alike_disk _ _ K) as ED. set (t := s <| sc_sh := sc_sh s <| sh_offset := ly_file_offset st |> |>) in *. set (t' := s' <| sc_sh := sc_sh s <| sh_offset := ly_file_offset st |> |>) in *.
    assert (ET : sc_sh t' = sc_sh t) by reflexivity. clearbody t t'. rewrite ED, ET.
    destruct (ly_cur (st <| ly_file_offset := ly_file_offset st + size_on_disk t |>)); cbn [fst snd]; (split; [reflexivity|]); [by apply alike_address|exact K].
Qed.
Lemma alike_layout names st s s' : alike_sec s s' -> like (fun x y => x.1 = y.1 /\ alike_sec x.2 y.2) (layout_step names st s) (layout_step names st s').
Proof.
  intros H. unfold layout_step. pose proof (alike_place st _ _ H) as [E1 E2]. destruct (layout_place st s) as [a b], (layout_place st s') as [a' b']. cbn in E1, E2. subst a'. pose proof E2 as ((_ & _ & _ & _ & E) & _). rewrite E, (alike_disk _ _ E2).
  eapply (like_bind eq); [apply like_eq|]. intros ty ? <-. destruct ty; cbn; by split.
Qed.
Lemma alike_program w w' : alike w w' -> like alike (generate_program_headers w) (generate_program_headers w').
Proof.
  intros [E H]. set (k := w_sections w') in *. clearbody k. subst w'. unfold generate_program_headers. change (w_sections (w <| w_sections := k |>)) with k. rewrite (alike_count _ _ H). cbv zeta.
  destruct (w_sections w) as [|n l] eqn:Ew, k as [|n' l']; [split; [reflexivity|cbn; rewrite Ew; exact H]|by inversion H|by inversion H|]. apply Forall2_cons in H as [Hn Hl]. eapply like_bind; [apply mapM_st_alike; [exact Hl|intros t s s' Hs; exact (alike_layout _ _ _ _ Hs)]|].
  intros [t x] [t' y] [E1 E2]. cbn in E1, E2. subst t'. split; [reflexivity|]. constructor; [exact Hn|exact E2].
Qed.
Lemma alike_dynamic w w' : alike w w' -> like alike (add_dyn_entries w) (add_dyn_entries w').
Proof.
  intros [E H]. set (k := w_sections w') in *. clearbody k. subst w'. unfold add_dyn_entries.
  match goal with |- like _ (_ ← ?a; _) (_ ← ?b; _) => assert (EQ : b = a) by exact (foldM_headers (fun es sh => new ← section_dyn_entries (w_shstrtab w) sh; Ok (es ++ new)) _ _ _ (alike_headers _ _ H)); rewrite EQ end.
  eapply (like_bind eq); [apply like_eq|]. intros n ? <-. split; [reflexivity|exact H].
Qed.
Lemma alike_patched i d s s' : sc_id s <> id_sym -> alike_sec s s' -> alike_sec (set_chunk_data i d s) (set_chunk_data i d s').
Proof.
  intros Hi H. pose proof H as ((H1 & H2 & H3 & H4 & H5) & H6 & H7 & H8). apply (alike_step (set_chunk_data i d) (set_chunk_data i d)); [exact H|reflexivity|reflexivity|split_and!; assumption| |].
  - cbn -[alter]. rewrite (H7 Hi). apply alike_chunks_refl.
  - intros _. cbn -[alter]. by rewrite (H7 Hi).
Qed.
Lemma alike_plt w w' : alike w w' -> like alike (patch_plt_and_got_plt w) (patch_plt_and_got_plt w').
Proof.
  intros [E H]. set (k := w_sections w') in *. clearbody k. subst w'. unfold patch_plt_and_got_plt, patch_plt_and_got_plt_in. change (w_sections (w <| w_sections := k |>)) with k. change (w_got_plt (w <| w_sections := k |>)) with (w_got_plt w).
  pose proof (alike_get id_plt _ _ H) as Kp. pose proof (alike_get id_got_plt _ _ H) as Kg.
  destruct (get_section id_plt (w_sections w)) as [p|], (get_section id_plt k) as [p'|]; try done. destruct Kp as [((_ & _ & _ & _ & P1) & _ & P2 & _) P3].
  destruct (get_section id_got_plt (w_sections w)) as [g|], (get_section id_got_plt k) as [g'|]; try done. destruct Kg as [((_ & _ & _ & _ & G1) & _ & G2 & _) G3].
  cbn [unwrap mbind res_bind]. rewrite P1, G1, P2, G2 by (rewrite ?P3, ?G3; discriminate).
  eapply (like_bind eq); [apply like_eq|]. intros c ? <-. eapply (like_bind eq); [apply like_eq|]. intros d ? <-.
  assert (Hp : forall d, Forall2 alike_sec (upd_section id_plt (set_chunk_data 0 d) (w_sections w)) (upd_section id_plt (set_chunk_data 0 d) k)).
  { intros d0. apply alike_upd; [|exact H]. intros s s' Hs. apply alike_patched. rewrite Hs. discriminate. }
  destruct (w_got_plt w) as [|x xs]; [split; [reflexivity|apply Hp]|]. eapply (like_bind eq); [apply like_eq|]. intros c2 ? <-. change (w_symtab (w <| w_sections := k |>)) with (w_symtab w).
  eapply (like_bind eq); [apply like_eq|]. intros [d1 d2] ? <-. split; [reflexivity|]. refine (alike_upd _ _ _ _ _ (Hp d1)). intros s s' Hs. apply alike_patched. rewrite Hs. discriminate.
Qed.
Lemma alike_addressed o o' w : valid_oracle o -> valid_oracle o' -> o_sort o' = o_sort o -> by_headers (o_sort o) -> undynamic w -> one_symtab (w_sections w) ->
  like alike (assign_section_addresses o w) (assign_section_addresses o' w).
Proof.
  intros V V' Eo Hb U H1. unfold assign_section_addresses. eapply like_bind; [exact (alike_sizes o o' V V' w U H1)|]. intros x y [E F]. unfold assign_layout. eapply like_bind; [exact (alike_sort _ _ _ _ Eo Hb F)|]. intros k k' Hk.
  eapply like_bind; [apply alike_program; rewrite E; split; [reflexivity|exact Hk]|]. intros a b Hab. eapply like_bind; [exact (alike_dynamic _ _ Hab)|]. intros c d Hcd. exact (alike_plt _ _ Hcd).
Qed.

(** * After layout *)
Lemma alike_add_symbol r c c' : alike_chunk c c' -> alike_chunk (chunk_add_symbol r c) (chunk_add_symbol r c').
Proof.
  intros (H1 & H2 & H3 & H4 & H5). unfold chunk_add_symbol. rewrite H3. destruct (decide _); unfold alike_chunk; cbn; split_and!; assumption || reflexivity.
Qed.
Lemma alike_symbol r i s s' : alike_sec s s' -> alike_sec (s <| sc_chunks := alter (chunk_add_symbol r) i (sc_chunks s) |>) (s' <| sc_chunks := alter (chunk_add_symbol r) i (sc_chunks s') |>).
Proof.
  intros H. pose proof H as ((H1 & H2 & H3 & H4 & H5) & H6 & H7 & H8).
  apply (alike_step (fun s => s <| sc_chunks := alter (chunk_add_symbol r) i (sc_chunks s) |>) (fun s => s <| sc_chunks := alter (chunk_add_symbol r) i (sc_chunks s) |>)); [exact H|reflexivity|reflexivity|split_and!; assumption| |].
  - cbn -[alter]. apply Forall2_alter; [exact H6|]. intros c c' _ _. apply alike_add_symbol.
  - intros Hn. cbn -[alter]. by rewrite (H7 Hn).
Qed.
Lemma alike_bounds n a b t s s' : alike_sec s s' -> like (fun x y => x.1 = y.1 /\ alike_sec x.2 y.2) (bound_symbols n a b t s) (bound_symbols n a b t s').
Proof.
  intros H. unfold bound_symbols. eapply (like_bind alike_sec).
  - destruct (st_get n a) as [e|]; [|exact H]. pose proof H as (_ & H6 & _). apply (like_bind alike_chunk).
    + unfold index. destruct H6 as [|c c' cs cs' Hc Hcs]; [reflexivity|exact Hc].
    + intros c c' _. cbn -[alter]. apply alike_symbol. exact H.
  - intros x y Hxy. destruct (st_get n b) as [e|]; [|by split]. apply (like_bind eq); [apply like_eq|]. intros ? ? _. rewrite (alike_disk _ _ Hxy).
    pose proof (alike_symbol (RNamed (u32 (en_offset e))) (length (sc_chunks x) - 1) _ _ Hxy) as K. pose proof Hxy as (_ & H6 & _).
    pose proof (Forall2_length _ _ _ H6) as Hl. destruct (sc_chunks x) as [|c cs] eqn:Ex; destruct (sc_chunks y) as [|c' cs'] eqn:Ey; [reflexivity|by inversion H6|by inversion H6|].
    rewrite <- Hl. cbv beta iota. split; [reflexivity|]. exact K.
Qed.
Lemma alike_special_step a b c t s s' : alike_sec s s' -> like (fun x y => x.1 = y.1 /\ alike_sec x.2 y.2) (special_step a b c t s) (special_step a b c t s').
Proof.
  intros H. pose proof H as ((_ & _ & _ & _ & H5) & _). unfold special_step. rewrite H5. destruct (bool_decide _); [by split|]. destruct (bool_decide _); [by apply alike_bounds|]. destruct (bool_decide _); [by apply alike_bounds|]. by split.
Qed.
Lemma alike_special w w' : alike w w' -> like alike (handle_special_symbols w) (handle_special_symbols w').
Proof.
  intros [E H]. set (k := w_sections w') in *. clearbody k. subst w'. unfold handle_special_symbols.
  assert (G : set_got_symbol (w <| w_sections := k |>) = set_got_symbol w <| w_sections := k |>).
  { unfold set_got_symbol. cbn. destruct (st_get _ _); [|reflexivity]. pose proof (alike_get id_got_plt _ _ H) as K. rewrite (alike_hdr_of id_got_plt _ _ H). destruct (get_section id_got_plt (w_sections w)), (get_section id_got_plt k); try done. destruct K as [((_ & -> & _) & _) _]. reflexivity. }
  assert (G' : w_sections (set_got_symbol w) = w_sections w) by (unfold set_got_symbol; by destruct (st_get _ _)).
  rewrite G. set (v := set_got_symbol w) in *. clearbody v. clear G. rewrite <- G' in H. clear G' w. cbn. rewrite !(alike_hdr_of _ _ _ H).
  eapply like_bind; [apply mapM_st_alike; [exact H|]|].
  - intros t s s' Hs. exact (alike_special_step _ _ _ t s s' Hs).
  - intros [t l1] [t' l2] [E1 E2]. cbn in E1, E2. subst t'. cbn. rewrite (alike_hdr_of id_copyrel _ _ E2), (alike_index id_copyrel _ _ E2). split; [reflexivity|exact E2].
Qed.
Lemma alike_patch s s' t : alike_sec s s' -> patch_symbol_values s' t = patch_symbol_values s t.
Proof.
  intros ((_ & H2 & _ & _ & H5) & H6 & _). unfold patch_symbol_values. rewrite H2, H5. generalize (sh_addr (sc_sh s)). revert t. induction H6 as [|c c' cs cs' (K1 & K2 & K3 & K4 & _) _ IH]; intros t b; [reflexivity|].
  cbn [patch_chunks]. rewrite K3, K4. apply IH.
Qed.
Lemma mapM_res_alike (f g : section -> res section) l l' : Forall2 alike_sec l l' ->
  (forall s s', alike_sec s s' -> like alike_sec (f s) (g s')) -> like (Forall2 alike_sec) (mapM_res f l) (mapM_res g l').
Proof.
  intros H Hf. induction H as [|s s' l l' H _ IH]; cbn [mapM_res]; [constructor|]. eapply like_bind; [exact (Hf _ _ H)|]. intros x y Hxy. eapply like_bind; [exact IH|]. intros k k' Hk. cbn. by constructor.
Qed.
Lemma alike_apply a b t d cs cs' : Forall2 alike_chunk cs cs' -> like (Forall2 alike_chunk) (mapM_res (chunk_apply_relocations a b t d) cs) (mapM_res (chunk_apply_relocations a b t d) cs').
Proof.
  induction 1 as [|c c' cs cs' H _ IH]; cbn [mapM_res]; [constructor|]. eapply (like_bind alike_chunk).
  - pose proof H as (H1 & H2 & H3 & H4 & H5). unfold chunk_apply_relocations. rewrite H1, H2. destruct H5 as [H5|H5].
    + rewrite H5. eapply (like_bind eq); [apply like_eq|]. intros x y ->. cbn. unfold alike_chunk. cbn. split_and!; try assumption || reflexivity. by left.
    + rewrite H5. cbn. unfold alike_chunk. cbn. split_and!; try assumption. by right.
  - intros x y Hxy. eapply like_bind; [exact IH|]. intros k k' Hk. cbn. by constructor.
Qed.
Lemma alike_relocated w w' : alike w w' -> like alike (handle_relocations w) (handle_relocations w').
Proof.
  intros [E H]. set (k := w_sections w') in *. clearbody k. subst w'. unfold handle_relocations. cbn -[hdr_of relocatable].
  rewrite !(alike_hdr_of _ _ _ H).
  assert (Hrel : forall s s', alike_sec s s' -> relocatable (w <| w_sections := k |>) s' = relocatable w s).
  { intros s s' Hs. unfold relocatable. cbn -[hdr_of]. rewrite !(alike_hdr_of _ _ _ H). destruct Hs as ((_ & _ & _ & _ & ->) & _). reflexivity. }
  assert (Hd : Forall2 alike_sec (drop 1 (w_sections w)) (drop 1 k)) by (by apply Forall2_drop).
  assert (Ht : forall l l' t, Forall2 alike_sec l l' -> fold_left (fun t s => if relocatable (w <| w_sections := k |>) s then patch_symbol_values s t else t) l' t = fold_left (fun t s => if relocatable w s then patch_symbol_values s t else t) l t).
  { intros l l' t Hl. revert t. induction Hl as [|s s' l l' Hs _ IH]; intros t; [reflexivity|]. cbn [fold_left]. rewrite (Hrel _ _ Hs), (alike_patch _ _ _ Hs). apply IH. }
  rewrite (Ht _ _ _ Hd). set (t := fold_left _ _ _). eapply like_bind; [apply mapM_res_alike; [exact Hd|]|].
  - intros s s' Hs. assert (K : relocatable (w <| w_sections := k |> <| w_symtab := t |>) s' = relocatable (w <| w_symtab := t |>) s) by exact (Hrel s s' Hs). rewrite K.
    destruct (relocatable _ s); [|exact Hs]. pose proof Hs as ((H1 & H2 & H3 & H4 & H5) & H6 & H7 & H8).
    pose proof (alike_apply (sh_addr (hdr_of id_got (w_sections w))) (sh_addr (hdr_of id_plt (w_sections w))) t (w_dynsym w) _ _ H6) as KA.
    destruct (decide (sc_id s = id_sym)) as [Hi|Hi].
    + eapply like_bind; [exact KA|]. intros x y Hxy. cbn. unfold alike_sec. cbn. split; [split_and!; assumption|]. split; [exact Hxy|]. split; [intros Hn; by destruct Hn|exact H8].
    + rewrite (H7 Hi). eapply (like_bind eq); [apply like_eq|]. intros x ? <-. cbn. unfold alike_sec. cbn. split; [split_and!; assumption|]. split; [apply alike_chunks_refl|]. split; [reflexivity|exact H8].
  - intros l1 l2 Hl. split; [reflexivity|]. cbn. apply Forall2_app; [by apply Forall2_take|exact Hl].
Qed.
Lemma alike_tables w w' : alike w w' -> alike (compute_tables w) (compute_tables w').
Proof.
  intros [E H]. set (k := w_sections w') in *. clearbody k. subst w'. unfold compute_tables. cbn -[hdr_of upd_section]. rewrite !(alike_hdr_of _ _ _ H). split; [reflexivity|]. cbn -[hdr_of upd_section].
  repeat (apply alike_upd; [intros s s' _; apply alike_add|]). exact H.
Qed.
Lemma alike_finish w w' : alike w w' -> like alike (finish_header w) (finish_header w').
Proof.
  intros [E H]. set (k := w_sections w') in *. clearbody k. subst w'. unfold finish_header. cbn -[get_section]. eapply (like_bind eq); [apply like_eq|]. intros e ? <-.
  rewrite (alike_lengths _ _ H). pose proof (alike_get id_shstr _ _ H) as K.
  assert (Ei : match get_section id_shstr k with Some s => u16 (sc_index s) | None => 0 end = match get_section id_shstr (w_sections w) with Some s => u16 (sc_index s) | None => 0 end).
  { destruct (get_section id_shstr (w_sections w)), (get_section id_shstr k); try done. by destruct K as [((_ & -> & _) & _) _]. }
  rewrite Ei. destruct (w_program_headers w) as [|ph phs]; [reflexivity|]. destruct (_ <=? _); [reflexivity|]. split; [reflexivity|exact H].
Qed.
Lemma alike_computed o o' w : valid_oracle o -> valid_oracle o' -> o_sort o' = o_sort o -> by_headers (o_sort o) -> undynamic w -> one_symtab (w_sections w) -> like alike (compute_sections o w) (compute_sections o' w).
Proof.
  intros V V' Eo Hb U H1. unfold compute_sections. eapply like_bind; [exact (alike_addressed o o' w V V' Eo Hb U H1)|]. intros a b Hab. eapply like_bind; [exact (alike_special _ _ Hab)|]. intros c d Hcd.
  eapply like_bind; [exact (alike_relocated _ _ Hcd)|]. intros e f Hef. exact (alike_finish _ _ (alike_tables _ _ Hef)).
Qed.

(** * The file *)
Definition alike_out (s s' : section) : Prop := sc_id s' = sc_id s /\ sc_sh s' = sc_sh s /\ (sc_id s <> id_sym -> sc_chunks s' = sc_chunks s).
Lemma alike_final o o' w k s s' : (forall n, is_Some (syt_symbols (w_dynsym w) !! n) -> n = 0) -> valid_oracle o -> valid_oracle o' -> Forall2 alike_sec (w_sections w) k -> alike_sec s s' ->
  like alike_out (sec_finalize o w s) (sec_finalize o' (w <| w_sections := k |>) s').
Proof.
  intros U V V' H Hs. pose proof Hs as ((H1 & H2 & H3 & H4 & H5) & H6 & H7 & H8). unfold sec_finalize. rewrite H4. eapply (like_bind (fun x y => alike_out x y /\ sc_link y = sc_link x)).
  - change (w_symtab (w <| w_sections := k |>)) with (w_symtab w). change (w_dynsym (w <| w_sections := k |>)) with (w_dynsym w). change (w_copyrel (w <| w_sections := k |>)) with (w_copyrel w).
    assert (K0 : alike_out s s' /\ sc_link s' = sc_link s) by (split; [split; [exact H1|split; [exact H5|exact H7]]|exact H3]).
    rewrite (dyn_data (o_dyn o) (o_dyn o') _ (vo_dyn _ V) (vo_dyn _ V') U).
    assert (K : forall c c', (sc_id s <> id_sym -> c' = c) -> like (fun x y => alike_out x y /\ sc_link y = sc_link x) (_ ← index (sc_chunks s) 0; Ok (s <| sc_chunks := <[0%nat := c]> (sc_chunks s) |>)) (_ ← index (sc_chunks s') 0; Ok (s' <| sc_chunks := <[0%nat := c']> (sc_chunks s') |>))).
    { intros c c' Hc. apply (like_bind (fun _ _ => True)).
      - unfold index. destruct H6 as [|x x' xs xs' Hx Hxs]; [reflexivity|exact I].
      - intros _ _ _. split; [|exact H3]. split; [exact H1|]. split; [exact H5|]. intros Hn. cbn -[insert]. change (sc_id s <> id_sym) in Hn. by rewrite (Hc Hn), (H7 Hn). }
    destruct (sc_synth s) as [[]|] eqn:Es; try exact K0; try (apply K; reflexivity).
    + apply K. intros Hn. exfalso. by apply Hn, H8.
    + split; [|exact H3]. split; [exact H1|]. split; [cbn; by rewrite H5|exact H7].
  - intros x y [(K1 & K2 & K3) K4]. rewrite K4. destruct (sc_link x) as [id|]; [|split_and!; assumption]. cbn -[get_section]. pose proof (alike_get id _ _ H) as K.
    destruct (get_section id (w_sections w)) as [z|], (get_section id k) as [z'|]; try done. cbn [unwrap mbind res_bind like]. destruct K as [((_ & -> & _) & _) _]. split; [exact K1|]. split; [cbn; by rewrite K2|exact K3].
Qed.
Lemma alike_finals o o' w k : (forall n, is_Some (syt_symbols (w_dynsym w) !! n) -> n = 0) -> valid_oracle o -> valid_oracle o' -> Forall2 alike_sec (w_sections w) k ->
  like (Forall2 alike_out) (mapM_res (sec_finalize o w) (w_sections w)) (mapM_res (sec_finalize o' (w <| w_sections := k |>)) k).
Proof.
  intros U V V' H. pose proof (fun s s' => alike_final o o' w k s s' U V V' H) as HF. revert HF. generalize (sec_finalize o w) (sec_finalize o' (w <| w_sections := k |>)). intros f g HF.
  induction H as [|s s' l l' H _ IH]; cbn [mapM_res]; [constructor|]. eapply like_bind; [exact (HF _ _ H)|]. intros x y Hxy. eapply like_bind; [exact IH|]. intros a b Hab. cbn. by constructor.
Qed.

Definition same_out (s s' : section) : Prop := sc_sh s' = sc_sh s /\ sc_chunks s' = sc_chunks s.
Lemma write_same l l' out off : Forall2 same_out l l' -> write_sections l' out off = write_sections l out off.
Proof.
  intros H. revert out off. induction H as [|s s' l l' [H1 H2] _ IH]; intros out off; [reflexivity|]. cbn [write_sections]. unfold size_on_disk. rewrite H1, H2. destruct (_ <? _); apply IH.
Qed.
Lemma write_app l k out off : write_sections (l ++ k) out off = write_sections k (write_sections l out off).1 (write_sections l out off).2.
Proof. revert out off. induction l as [|s l IH]; intros out off; [reflexivity|]. cbn [write_sections app]. destruct (_ <? _); apply IH. Qed.
Lemma write_tail l off : exists tl off', forall out, write_sections l out off = (out ++ tl, off').
Proof.
  revert off. induction l as [|s l IH]; intros off; [exists [], off; intros out; by rewrite app_nil_r|]. cbn [write_sections]. destruct (_ <? _).
  - destruct (IH (sh_offset (sc_sh s) + size_on_disk s)) as (tl & off' & H). exists (zeros (sh_offset (sc_sh s) - off) ++ (sc_chunks s ≫= c_data) ++ tl), off'. intros out. rewrite H. f_equal. by rewrite <- !app_assoc.
  - destruct (IH (off + size_on_disk s)) as (tl & off' & H). exists ((sc_chunks s ≫= c_data) ++ tl), off'. intros out. rewrite H. f_equal. by rewrite <- !app_assoc.
Qed.
Lemma write_one A b B A' b' B' out off : Forall2 same_out A A' -> sc_sh b' = sc_sh b -> Forall2 same_out B B' -> exists pre post,
  (write_sections (A ++ b :: B) out off).1 = pre ++ contents b ++ post /\ (write_sections (A' ++ b' :: B') out off).1 = pre ++ contents b' ++ post.
Proof.
  intros HA Hb HB. rewrite !write_app, (write_same _ _ _ _ HA). destruct (write_sections A out off) as [o1 f1]. cbn [fst snd write_sections]. unfold size_on_disk. rewrite Hb. fold (size_on_disk b). fold (contents b). fold (contents b').
  destruct (_ <? _); cbv beta iota; rewrite !(write_same _ _ _ _ HB).
  - destruct (write_tail B (sh_offset (sc_sh b) + size_on_disk b)) as (tl & off' & H). exists (o1 ++ zeros (sh_offset (sc_sh b) - f1)), tl. unfold size_on_disk in H. rewrite !H. cbn [fst]. by rewrite <- !app_assoc.
  - destruct (write_tail B (f1 + size_on_disk b)) as (tl & off' & H). exists o1, tl. unfold size_on_disk in H. rewrite !H. cbn [fst]. by rewrite <- !app_assoc.
Qed.
Lemma undefined_none o o' w w' : valid_oracle o -> valid_oracle o' -> w_symtab w' = w_symtab w -> check_undefined o w = Ok tt -> check_undefined o' w' = Ok tt.
Proof.
  intros V V' E H. unfold check_undefined in *. assert (P : undefined_symbols o' w' ≡ₚ undefined_symbols o w).
  { unfold undefined_symbols. by rewrite E, (vo_sym _ V), (vo_sym _ V'). }
  destruct (undefined_symbols o w) as [|r rs]; [|apply bind_Ok in H as (x & _ & H); discriminate H]. symmetry in P. apply Permutation_nil in P. by rewrite P.
Qed.
Lemma repeated wd lo lo' l fuel w secs : valid_orders lo -> valid_orders lo' -> o_sort (lo_writer lo') = o_sort (lo_writer lo) -> by_headers (o_sort (lo_writer lo)) ->
  opt_shared_libs (lk_options l) = [] -> lk_archives l = [] -> links wd lo l fuel w secs ->
  exists w' secs', links wd lo' l fuel w' secs' /\ w' = w <| w_sections := w_sections w' |> /\ Forall2 alike_out secs secs'.
Proof.
  intros W W' Eo Hb HL HA L. pose proof (proj1 W) as V. pose proof (proj1 W') as V'.
  destruct (links_outcome _ _ _ _ _ _ L) as (w0&wr&ws&w1&extra&null&rest&rest'&st&w3&w4&w5&w6&w7&null'&out&O). pose proof (oc_resolve O) as HR.
  pose proof (resolve_undynamic _ _ _ _ _ HL HR) as U. pose proof (resolve_symtab _ _ _ _ _ HR) as H1.
  destruct L as [L F]. unfold link_writer in L. rewrite HR in L. cbn [mbind res_bind] in L. apply bind_Ok in L as (x & HC & L). apply bind_Ok in L as ([] & HU & [= ->]).
  pose proof (alike_computed _ _ _ V V' Eo Hb U H1) as K. rewrite HC in K. destruct (compute_sections (lo_writer lo') wr) as [w'| |] eqn:HC'; try done. destruct K as [E KF].
  assert (UD : forall n, is_Some (syt_symbols (w_dynsym w) !! n) -> n = 0).
  { destruct (keeps_all O sym_static) as [_ KA]. intros n [s Hs]. destruct (keeps_lookup _ _ _ _ _ KA Hs) as (s0 & Hs0 & _). apply (proj2 U). by exists s0. }
  pose proof (alike_finals _ _ w (w_sections w') UD V V' KF) as KS. rewrite F, <- E in KS. destruct (mapM_res (sec_finalize (lo_writer lo') w') (w_sections w')) as [secs'| |] eqn:F'; try done.
  exists w', secs'. split; [|split; [exact E|exact KS]]. split; [|exact F']. unfold link_writer. rewrite (resolve_alone wd lo lo' l fuel W W' HL HA), HR. cbn [mbind res_bind]. rewrite HC'. cbn [mbind res_bind].
  rewrite (undefined_none (lo_writer lo) (lo_writer lo') w w' V V'); [reflexivity| |exact HU]. rewrite E. reflexivity.
Qed.
(** The one section that may differ. *)
Lemma symtab_there wd lo l fuel w secs : valid_oracle (lo_writer lo) -> links wd lo l fuel w secs -> plain_inputs wd l -> exists i b, secs !! i = Some b /\ sc_id b = id_sym /\
  contents b = syt_chunk_data (o_sym (lo_writer lo)) (w_symtab w) /\ (stt_total_len (w_shstrtab w) < 2^32 -> sec_name w b = Some ".symtab") /\ forall j c, secs !! j = Some c -> sc_id c = id_sym -> j = i.
Proof.
  intros V L P. destruct (links_outcome _ _ _ _ _ _ L) as (w0&wr&ws&w1&extra&null&rest&rest'&st&w3&w4&w5&w6&w7&null'&out&O). pose proof (n0_ge O) as Hge.
  destruct (own_sections O (proj2 L) V P) as (pd & gd & _ & Hown). destruct (Hown 8%nat) as (b & Hb & Hid & Hc & _); [lia|]. apply elem_of_list_lookup in Hb as [i Hi]. exists (S i), b. rewrite (oc_secs O).
  split; [exact Hi|]. split; [exact Hid|]. split; [exact Hc|]. split.
  - intros Ht. destruct (secs_class O (proj2 L) V P b Ht) as (nb & Hnb & [(eb & Hrow)|(_ & _ & H)]); [rewrite (oc_secs O); right; by eapply elem_of_list_lookup_2| |exfalso; lia].
    rewrite Hid in Hrow. rewrite Hnb. f_equal. destruct (opt_hash_style (lk_options l)); cbn in Hrow; injection Hrow as <- _ _ _; reflexivity.
  - intros [|j] c Hj Hcid.
    + exfalso. cbn in Hj. injection Hj as <-. destruct (null_facts O) as (N0 & _). change id_sym with 8%nat in Hcid. lia.
    + f_equal. change (out !! j = Some c) in Hj. eapply (out_nodup O V); [exact Hj|exact Hi|rewrite Hid; exact Hcid].
Qed.

(** * Order of equals *)
Lemma sorted_same {A} (le : A -> A -> bool) (l l' : list A) : StronglySorted (le_rel le) l -> StronglySorted (le_rel le) l' -> l ≡ₚ l' ->
  (forall a b, a ∈ l -> b ∈ l -> le a b = true -> le b a = true -> a = b) -> l = l'.
Proof.
  intros H. revert l'. induction H as [|x l _ IH HF]; intros l' H' P HA; [by apply Permutation_nil in P|]. destruct H' as [|y l' H' HF']; [symmetry in P; by apply Permutation_nil in P|].
  assert (Hx : x ∈ y :: l') by (rewrite <- P; left). assert (Hy : y ∈ x :: l) by (rewrite P; left). rewrite List.Forall_forall in HF, HF'.
  assert (x = y) as <-.
  { apply elem_of_cons in Hx as [Hx|Hx]; [exact Hx|]. apply elem_of_cons in Hy as [Hy|Hy]; [symmetry; exact Hy|]. apply HA; [left|by right|apply HF; by apply elem_of_list_In|apply HF'; by apply elem_of_list_In]. }
  f_equal. apply IH; [exact H'|by apply Permutation_cons_inv in P|]. intros a b Ha Hb. apply HA; by right.
Qed.
(** Every entry carries the hash of a name read, the null entry none. *)
Definition hashed (wd : world) (l : linker) (w : writer) : Prop := (forall n s, syt_symbols (w_symtab w) !! n = Some s -> n <> 0 ->
    exists name i o, symbol_input wd l name /\ (name, (i, o)) ∈ stt_names (w_strtab w) /\ n = u32 o /\ s_gnu_hash s = elf_gnu_hash name) /\
  exists s, syt_symbols (w_symtab w) !! 0 = Some s /\ s_gnu_hash s = 0.
Lemma hashed_frame wd l w w' : w_symtab w' = w_symtab w -> w_strtab w' = w_strtab w -> hashed wd l w -> hashed wd l w'.
Proof. unfold hashed. by intros -> ->. Qed.
Lemma resolve_hashed wd lo l fuel w : opt_shared_libs (lk_options l) = [] -> resolve wd lo l fuel = Ok w -> hashed wd l w.
Proof.
  intros HL. apply (resolve_inv wd l (hashed wd l)).
  - intros a e name sh data b r U _ _ H. apply (hashed_frame _ _ a); [| |exact U]; revert H; unfold add_section; destruct (st_get_or_create _ _) as [names en]; (destruct (en_new en);
      [intros [= <- <-]; reflexivity|]); intros H; apply bind_Ok in H as (s & _ & H); (destruct data; [by injection H as <- <-|]); cbn in H; (destruct (sc_chunks s); [discriminate H|by injection H as <- <-]).
  - intros a e sym sr name ref b r [U1 U2] Hin Hsy Hnm H. unfold add_symbol in H. apply bind_Ok in H as ([[[nm sy] secs] r0] & Hi & [= <- <-]). 
    destruct (inner_table _ _ _ _ _ _ _ _ _ _ _ Hi) as (en & Hg & Ha). destruct (goc_keys _ _ _ _ Hg) as (Hx & _ & _ & i1 & Hi1).
    assert (Hold : forall n s, syt_symbols (w_symtab a) !! n = Some s -> n <> 0 -> exists name i o, symbol_input wd l name /\ (name, (i, o)) ∈ stt_names nm /\ n = u32 o /\ s_gnu_hash s = elf_gnu_hash name).
    { intros n s Hn Hz. destruct (U1 n s Hn Hz) as (nn & i & o & K1 & K2 & K3). exists nn, i, o. split; [exact K1|]. split; [exact (extends_elem _ _ _ Hx K2)|exact K3]. }
    unfold hashed. cbn. apply add_sym_cases in Ha as [(_ & -> & _)|(_ & _ & _ & s2 & -> & Hs)]; [exact (conj Hold U2)|]. split.
    + intros n s Hn Hz. apply lookup_insert_Some in Hn as [[<- <-]|[_ Hn]]; [|exact (Hold _ _ Hn Hz)]. destruct Hs as [[_ ->]|(old & Ho & Hm)].
      * exists name, i1, (en_offset en). split; [exists e, sym; exact (conj Hin (conj Hsy Hnm))|]. split; [exact Hi1|]. split; reflexivity.
      * apply merge_keeps in Hm as (_ & _ & M3 & _). rewrite M3. exact (Hold _ _ Ho Hz).
    + destruct U2 as (s0 & Hs0 & Hz). destruct (decide (st_name (sym <| st_name := u32 (en_offset en) |>) = 0)) as [E0|Hne]; [|exists s0; split; [by rewrite lookup_insert_ne|exact Hz]].
      rewrite E0 in *. exists s2. split; [apply lookup_insert|]. destruct Hs as [[Hs _]|(old & Ho & Hm)]; [rewrite Hs0 in Hs; discriminate Hs|].
      apply merge_keeps in Hm as (_ & _ & M3 & _). rewrite Hs0 in Ho. injection Ho as <-. by rewrite M3.
  - intros a rel r sr b U H. apply (hashed_frame _ _ a); [| |exact U]; revert H; unfold add_relocation; (destruct (_ || _); [discriminate|]); intros H; by apply bind_Ok in H as (secs & _ & [= <-]).
  - intros a path e sym name so b r _ [Hl _]. rewrite HL in Hl. by apply elem_of_nil in Hl.
  - intros w0 H0. destruct (writer_new_ref _ _ H0) as (_ & _ & _ & _ & _ & E1 & E2). unfold hashed. rewrite ?E1; cbn. split.
    + intros n s Hs Hz. apply lookup_singleton_Some in Hs as [E _]. congruence.
    + eexists. split; [apply lookup_singleton|reflexivity].
Qed.
Lemma hashes_apart wd l w n n' s s' : st_ok (w_strtab w) -> hashed wd l w -> distinct_hashes wd l -> syt_symbols (w_symtab w) !! n = Some s -> syt_symbols (w_symtab w) !! n' = Some s' ->
  s_gnu_hash s = s_gnu_hash s' -> n = n'.
Proof.
  intros Hok [H1 (z & Hz & Ez)] [D1 D2] Hn Hn' E. destruct (decide (n = 0)) as [->|Nz]; destruct (decide (n' = 0)) as [->|Nz']; [reflexivity| | |].
  - exfalso. assert (s = z) as -> by congruence. destruct (H1 _ _ Hn' Nz') as (b & _ & _ & K1 & _ & _ & K3). apply (D2 _ K1). congruence.
  - exfalso. assert (s' = z) as -> by congruence. destruct (H1 _ _ Hn Nz) as (b & _ & _ & K1 & _ & _ & K3). apply (D2 _ K1). congruence.
  - destruct (H1 _ _ Hn Nz) as (a & i & o & K1 & K2 & -> & K3). destruct (H1 _ _ Hn' Nz') as (b & j & p & L1 & L2 & -> & L3).
    assert (a = b) as <- by (apply D1; [exact K1|exact L1|congruence]). by destruct (key_inj _ _ _ _ _ _ Hok K2 L2) as [_ ->].
Qed.
(** With the hashes apart there is one order. *)
Lemma sorted_once wd lo lo' l fuel w secs : valid_orders lo -> valid_orders lo' -> opt_shared_libs (lk_options l) = [] -> distinct_hashes wd l -> links wd lo l fuel w secs ->
  syt_sorted (o_sym (lo_writer lo')) (w_symtab w) = syt_sorted (o_sym (lo_writer lo)) (w_symtab w).
Proof.
  intros W W' HL D L. destruct (links_outcome _ _ _ _ _ _ L) as (w0&wr&ws&w1&extra&null&rest&rest'&st&w3&w4&w5&w6&w7&null'&out&O). pose proof (oc_resolve O) as HR.
  pose proof (resolve_hashed _ _ _ _ _ HL HR) as H. destruct (resolve_reach _ _ _ _ _ HR) as [R _]. apply st_reach_ok in R. destruct (keeps_all O sym_static) as [KA _].
  apply (sorted_same sort_symbols_le); [apply sorted_sorted|apply sorted_sorted|by rewrite (sorted_perm _ _ (vo_sym _ (proj1 W))), (sorted_perm _ _ (vo_sym _ (proj1 W')))|].
  intros a b Ha Hb E1 E2. apply (elem_of_sorted _ _ _ (vo_sym _ (proj1 W'))) in Ha as [n Ha]. apply (elem_of_sorted _ _ _ (vo_sym _ (proj1 W'))) in Hb as [m Hb].
  assert (Eh : s_gnu_hash a = s_gnu_hash b).
  { unfold sort_symbols_le in E1, E2. destruct (is_local a), (is_local b); cbn in E1, E2; try discriminate; apply N.leb_le in E1, E2; lia. }
  destruct (keeps_lookup _ _ _ _ _ KA Ha) as (a0 & Ha0 & Sa). destruct (keeps_lookup _ _ _ _ _ KA Hb) as (b0 & Hb0 & Sb).
  assert (n = m) as <-; [|congruence]. apply (hashes_apart wd l wr n m a0 b0 R H D Ha0 Hb0). unfold sym_static in Sa, Sb. congruence.
Qed.
Lemma repeated_bytes wd lo lo' l fuel w secs data : valid_orders lo -> valid_orders lo' -> o_sort (lo_writer lo') = o_sort (lo_writer lo) -> by_headers (o_sort (lo_writer lo)) ->
  opt_shared_libs (lk_options l) = [] -> lk_archives l = [] -> plain_inputs wd l -> links wd lo l fuel w secs -> link_bytes wd lo l fuel = Ok data ->
  exists b pre post, let syms o := s_sym <$> syt_sorted (o_sym (lo_writer o)) (w_symtab w) in
    b ∈ secs /\ (stt_total_len (w_shstrtab w) < 2^32 -> sec_name w b = Some ".symtab") /\ contents b = syms lo ≫= sym_record /\
    data = pre ++ (syms lo ≫= sym_record) ++ post /\ link_bytes wd lo' l fuel = Ok (pre ++ (syms lo' ≫= sym_record) ++ post).
Proof.
  intros W W' Eo Hb HL HA P L HD.
  destruct (repeated _ _ _ _ _ _ _ W W' Eo Hb HL HA L) as (w' & secs' & L' & E & F).
  destruct (symtab_there _ _ _ _ _ _ (proj1 W) L P) as (i & b & Hi & Hid & Hc & Hn & Hu). destruct (symtab_there _ _ _ _ _ _ (proj1 W') L' P) as (i' & b' & Hi' & Hid' & Hc' & _ & Hu').
  destruct (Forall2_lookup_l _ _ _ _ _ F Hi) as (b2 & Hb2 & B1 & B2 & _). assert (i = i') as <- by (eapply Hu'; [exact Hb2|by rewrite B1]). assert (b2 = b') as -> by congruence.
  pose proof (take_drop_middle _ _ _ Hi) as S1. pose proof (take_drop_middle _ _ _ Hi') as S2.
  assert (HS : forall A A' : list section, Forall2 alike_out A A' -> (forall j c, A !! j = Some c -> sc_id c = id_sym -> False) -> Forall2 same_out A A').
  { intros A A' HF HN. apply Forall2_same_length_lookup_2; [by apply (Forall2_length _ _ _ HF)|]. intros j x y Hx Hy. destruct (Forall2_lookup_lr _ _ _ _ _ _ HF Hx Hy) as (_ & K2 & K3). split; [exact K2|]. apply K3. intros K. exact (HN _ _ Hx K). }
  assert (FA : Forall2 same_out (take i secs) (take i secs')).
  { apply HS; [by apply Forall2_take|]. intros j c Hj K. apply lookup_take_Some in Hj as [Hj Hlt]. pose proof (Hu _ _ Hj K). lia. }
  assert (FB : Forall2 same_out (drop (S i) secs) (drop (S i) secs')).
  { apply HS; [by apply Forall2_drop|]. intros j c Hj K. rewrite lookup_drop in Hj. pose proof (Hu _ _ Hj K). lia. }
  unfold link_bytes in *. rewrite (proj1 L) in HD. rewrite (proj1 L'). cbn [mbind res_bind] in *. unfold write_to_disk in *. rewrite (proj2 L) in HD. rewrite (proj2 L'). cbn [mbind res_bind] in *. 
  assert (E1 : w_eh w' = w_eh w) by (rewrite E; reflexivity). assert (E2 : w_program_headers w' = w_program_headers w) by (rewrite E; reflexivity). assert (E3 : w_symtab w' = w_symtab w) by (rewrite E; reflexivity). rewrite E1, E2.
  assert (E4 : secs' ≫= (fun s => ser_shdr (sc_sh s)) = secs ≫= (fun s => ser_shdr (sc_sh s))).
  { clear -F. induction F as [|s s' k k' (_ & H & _) _ IH]; [reflexivity|]. by rewrite !bind_cons, H, IH. }
  rewrite E4. destruct (write_one _ _ _ _ _ _ (ser_ehdr (w_eh w) ++ (w_program_headers w ≫= ser_phdr)) (EHDR_SIZE + blen (w_program_headers w) * PHDR_SIZE) FA B2 FB) as (pre & post & K1 & K2). rewrite S1 in K1. rewrite S2 in K2.
  destruct (write_sections secs _ _) as [o1 x1]. destruct (write_sections secs' _ _) as [o2 x2]. cbn [fst] in K1, K2. subst o1 o2. injection HD as <-.
  assert (R1 : contents b = (s_sym <$> syt_sorted (o_sym (lo_writer lo)) (w_symtab w)) ≫= sym_record) by (rewrite Hc, chunk_data_eq; reflexivity).
  assert (R2 : contents b' = (s_sym <$> syt_sorted (o_sym (lo_writer lo')) (w_symtab w)) ≫= sym_record) by (rewrite Hc', chunk_data_eq, E3; reflexivity).
  exists b, pre, (post ++ (secs ≫= (fun s => ser_shdr (sc_sh s)))). split; [by eapply elem_of_list_lookup_2|]. split; [exact Hn|]. split; [exact R1|].
  split; [rewrite <- R1, <- !app_assoc; reflexivity|]. rewrite <- R2, <- !app_assoc. reflexivity.
Qed.
