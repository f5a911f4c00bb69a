(** The final check reports every missing name. *)
From Verif Require Export SpecMissing ProofMissing ProofArrays.
From Verif Require Import ProofBase.

(** * The output sections can always be completed *)
(** The linker's tables know their kind, and a link is to one of the sections
    the linker starts with. *)
Definition declared (s : section) : Prop :=
  (sc_synth s = Some KSym -> sh_type (sc_sh s) <> SHT_DYNSYM) /\ (sc_synth s = Some KDynsym -> sc_id s = id_dynsym) /\ (forall i, sc_link s = Some i -> (i < 14)%nat).
Definition declared_b (x : nat * option nat * option synth * N) : bool :=
  match x with (i, l, y, t) =>
    (match y with Some KSym => negb (t =? SHT_DYNSYM) | Some KDynsym => Nat.eqb i id_dynsym | _ => true end) && (match l with Some j => Nat.ltb j 14 | None => true end) end.
Definition row_of (s : section) := (sc_id s, sc_link s, sc_synth s, sh_type (sc_sh s)).
Lemma ref_declared hs : forallb declared_b (row_of <$> ref_sections hs) = true.
Proof. destruct hs; vm_compute; reflexivity. Qed.
Lemma declared_row s : declared_b (row_of s) = true -> declared s.
Proof.
  unfold declared_b, row_of. rewrite andb_true_iff. intros [H1 H2]. split; [|split].
  - intros E. rewrite E in H1. apply negb_true_iff, N.eqb_neq in H1. exact H1.
  - intros E. rewrite E in H1. by apply Nat.eqb_eq in H1.
  - intros i E. rewrite E in H2. by apply Nat.ltb_lt in H2.
Qed.
Definition carry (a b : section) : Prop := sc_id b = sc_id a /\ sc_synth b = sc_synth a /\ sc_link b = sc_link a /\ (sc_chunks a <> [] -> sc_chunks b <> []).
Lemma carry_refl a : carry a a.
Proof. done. Qed.
Lemma carry_trans a b c : carry a b -> carry b c -> carry a c.
Proof. intros (A1 & A2 & A3 & A4) (B1 & B2 & B3 & B4). split; [congruence|]. split; [congruence|]. split; [congruence|]. auto. Qed.
Lemma F2_carry_trans (a b c : list section) : Forall2 carry a b -> Forall2 carry b c -> Forall2 carry a c.
Proof. apply F2_trans. apply carry_trans. Qed.
Lemma F2_nonempty {A} (P : A -> A -> Prop) (a b : list A) : Forall2 P a b -> a <> [] -> b <> [].
Proof. intros [|]; done. Qed.
Lemma carry_kept a b : kept a b -> (sc_chunks a <> [] -> sc_chunks b <> []) -> carry a b.
Proof. intros K H. split; [by rewrite K|]. split; [by rewrite K|]. split; [by rewrite K|]. exact H. Qed.
Lemma carry_add c s : carry s (sec_add_chunk c s).
Proof. split; [done|]. split; [done|]. split; [done|]. intros _. unfold sec_add_chunk. destruct s as [? ? ? ? ? cs]. cbn. by destruct cs. Qed.
Lemma carry_size n s : carry s (ModelWriter.set_size n s).
Proof. done. Qed.
Lemma carry_zeros n s : carry s (add_zeros n s).
Proof. unfold add_zeros. refine (carry_trans _ _ _ _ (carry_add _ _)). done. Qed.
Lemma carry_expand o w s : carry s (sec_expand o w s).
Proof.
  unfold sec_expand. destruct (sc_synth s) as [[]|]; cbv zeta; split; try done; split; try done; split; try done.
  all: unfold sec_add_chunk, ModelWriter.set_size; cbn; by destruct (sc_chunks s).
Qed.
Lemma expand_chunks o w s : sc_synth s = Some KSym \/ sc_synth s = Some KDynsym -> sc_chunks (sec_expand o w s) <> [].
Proof. unfold sec_expand. intros [-> | ->]; unfold sec_add_chunk; cbn; by destruct (sc_chunks s). Qed.
Lemma carry_on i f s : (forall s, carry s (f s)) -> carry s (on i f s).
Proof. intros H. unfold on. destruct (Nat.eqb _ _); [apply H|apply carry_refl]. Qed.
Lemma carry_tables w s : carry s (tables_fn w s).
Proof.
  unfold tables_fn. repeat (eapply carry_trans; [|apply carry_on; intros ?; apply carry_add]). apply carry_refl.
Qed.
Lemma carry_data i d s : carry s (set_chunk_data i d s).
Proof. split; [done|]. split; [done|]. split; [done|]. unfold set_chunk_data. cbn. intros H E. apply H. by rewrite <- length_zero_iff_nil, <- (alter_length (fun c => c <| c_data := d |>) (sc_chunks s) i), E. Qed.
Lemma carry_patched w pd gd s : carry s (patched_plt w pd gd s).
Proof.
  unfold patched_plt. destruct (w_got_plt w); [apply carry_on; intros ?; apply carry_data|].
  eapply carry_trans; apply carry_on; intros ?; apply carry_data.
Qed.

Definition ready (s : section) : Prop := (sc_synth s = Some KSym \/ sc_synth s = Some KDynsym -> sc_chunks s <> []) /\ (forall i, sc_link s = Some i -> (i < 14)%nat).
Lemma ready_carry a b : carry a b -> ready a -> ready b.
Proof. intros (E1 & E2 & E3 & E4) [H1 H2]. split; [rewrite E2; auto|]. intros i. rewrite E3. apply H2. Qed.

Section ready.
  Context {o : oracle} {wr ws w1 : writer} {extra : N} {null : section} {rest rest' : list section} {st : layout} {w3 w4 w5 w6 w7 w : writer}.
  Context (R : run o wr ws w1 extra null rest rest' st w3 w4 w5 w6 w7 w) (V : valid_oracle o).
  Context {opts : options} {w0 : writer} (H0 : writer_new opts = Ok w0) (HI : winv (length (w_sections w0)) w0 wr).

  Lemma wr_declared s : s ∈ w_sections wr -> declared s.
  Proof using H0 HI.
    intros Hs. apply elem_of_list_lookup in Hs as [i Hi]. destruct (decide (i < length (w_sections w0))%nat) as [Hlt|Hge].
    - apply declared_row. destruct (writer_new_ref _ _ H0) as (Es & _). apply lookup_lt_is_Some_2 in Hlt as [s0 E2]. destruct (wi_fixed _ _ _ HI _ _ E2) as (s1 & Hs1 & Esig & _). assert (s1 = s) as -> by congruence.
      assert (E1 : (sec_sig <$> ref_sections (opt_hash_style opts)) !! i = Some (sec_sig s0)) by (rewrite <- Es, list_lookup_fmap, E2; reflexivity).
      rewrite list_lookup_fmap in E1. destruct (ref_sections (opt_hash_style opts) !! i) as [sr|] eqn:Er; [|discriminate E1]. cbn [fmap option_fmap option_map] in E1. apply (inj Some) in E1.
      assert (E : row_of s = row_of sr) by (unfold row_of, sec_sig in *; congruence). rewrite E. pose proof (ref_declared (opt_hash_style opts)) as K. rewrite forallb_forall in K. apply K.
      apply elem_of_list_In, elem_of_list_fmap. exists sr. split; [done|]. by eapply elem_of_list_lookup_2.
    - destruct (wi_new _ _ _ HI i s ltac:(lia) Hi) as (H1 & H2 & _). split; [congruence|]. split; [congruence|]. congruence.
  Qed.
  Lemma size_ready h g nd np x s : declared s -> ready (size_fn o ws h g nd np x s).
  Proof using.
    intros (D1 & D2 & D3). unfold size_fn, pre_dynamic.
    set (s2 := on id_got_plt _ (on id_got _ s)). assert (C2 : carry s s2) by (eapply carry_trans; apply carry_on; intros ?; apply carry_zeros).
    assert (S2 : same_decl s s2). { apply sized_decl. eapply sized_trans; apply sized_on; intros s1; by destruct s1 as [? ? ? ? [] ?]. }
    set (s3 := on id_dynsym (sec_expand o ws) s2). assert (C3 : carry s s3) by (eapply carry_trans; [exact C2|]; apply carry_on; intros ?; apply carry_expand).
    assert (S3 : same_decl s s3). { unfold same_decl. rewrite <- S2. apply sized_decl. apply sized_on. intros; apply sized_expand. }
    set (w9 := set _ _ (set _ _ ws)). set (s4 := (fun s => if sh_type (sc_sh s) =? SHT_DYNSYM then s else sec_expand o w9 s) s3).
    assert (C4 : carry s s4) by (eapply carry_trans; [exact C3|]; unfold s4; destruct (_ =? _); [apply carry_refl|apply carry_expand]).
    assert (N4 : sc_synth s = Some KSym \/ sc_synth s = Some KDynsym -> sc_chunks s4 <> []).
    { intros [E|E].
      - specialize (D1 E). assert (Et : sh_type (sc_sh s3) <> SHT_DYNSYM) by (rewrite (decl_type _ _ S3); exact D1). apply N.eqb_neq in Et. unfold s4. rewrite Et. apply expand_chunks. left. rewrite (decl_synth _ _ S3). exact E.
      - assert (N3 : sc_chunks s3 <> []). { unfold s3, on. assert (Ei : sc_id s2 = id_dynsym) by (rewrite (decl_id _ _ S2); exact (D2 E)). apply Nat.eqb_eq in Ei. rewrite Ei. apply expand_chunks. right. rewrite (decl_synth _ _ S2). exact E. }
        unfold s4. destruct (_ =? _); [exact N3|]. destruct (carry_expand o w9 s3) as (_ & _ & _ & K). exact (K N3). }
    assert (R4 : ready s4). { destruct C4 as (_ & E2 & E3 & _). split; [rewrite E2; exact N4|]. intros i. rewrite E3. apply D3. }
    refine (ready_carry _ _ _ R4). repeat (eapply carry_trans; [|apply carry_on; intros ?; apply carry_size]). apply carry_refl.
  Qed.
  Lemma w1_ready s : s ∈ w_sections w1 -> ready s.
  Proof using R H0 HI.
    rewrite (sz_secs _ _ _ _ _ (rn_sizing R)). intros Hs. apply elem_of_list_fmap in Hs as (a & -> & Ha). apply size_ready.
    apply elem_of_list_lookup in Ha as [i Hi]. destruct (Forall2_lookup_r _ _ _ _ _ (proj2 (scan_relocations_scanned _ _ (sz_scan _ _ _ _ _ (rn_sizing R)))) Hi) as (a0 & Ha0 & K & _).
    pose proof (wr_declared a0 (elem_of_list_lookup_2 _ _ _ Ha0)) as D. rewrite K. exact D.
  Qed.
  Lemma carry_stages : Forall2 carry (null :: o_sort o rest) (w_sections w).
  Proof using R.
    assert (C3 : Forall2 carry (null :: o_sort o rest) (w_sections w3)).
    { rewrite (run_w3_secs R). constructor; [done|]. pose proof (layout_only _ _ _ _ _ (rn_layout R)) as F. revert F. unfold indexed. generalize (o_sort o rest). intros k.
      assert (G : forall (k : list section) (g : nat -> N) r, Forall2 only_placed (imap (fun i s => s <| sc_index := g i |>) k) r -> Forall2 carry k r).
      { clear. intros k. induction k as [|a k IH]; intros g r F; cbn in F; inversion F as [|? b ? r' [E Hc] F']; subst; constructor; [|by apply (IH (g ∘ S))].
        split; [by rewrite E|]. split; [by rewrite E|]. split; [by rewrite E|]. intros Hn. exact (F2_nonempty _ _ _ Hc Hn). }
      apply G. }
    destruct (run_w4 R) as (es & E4 & _). assert (Es4 : w_sections w4 = w_sections w3) by (rewrite E4; reflexivity).
    destruct (patch_plt_fine _ _ (rn_plt R)) as (ps & gs & pc & pd0 & pd & gd & _ & _ & _ & _ & _ & E5).
    assert (C5 : Forall2 carry (w_sections w4) (w_sections w5)).
    { rewrite E5. clear. induction (w_sections w4) as [|a k IH]; [constructor|]. rewrite fmap_cons. constructor; [|exact IH]. exact (carry_patched w4 pd gd a). }
    assert (C6 : Forall2 carry (w_sections w5) (w_sections w6)).
    { eapply Forall2_impl; [exact (special_syms _ _ (rn_special R))|]. intros a b [K F]. apply carry_kept; [exact K|]. exact (F2_nonempty _ _ _ F). }
    assert (C7 : Forall2 carry (w_sections w6) (w_sections w7)).
    { destruct (w_sections w6) as [|n6 r6] eqn:E6; [exfalso; pose proof (Forall2_length _ _ _ C3) as L3; pose proof (Forall2_length _ _ _ C5) as L5; pose proof (Forall2_length _ _ _ C6) as L6; rewrite Es4 in L5; cbn [length] in L3, L6; lia|].
      destruct (handle_relocs_spec _ _ _ _ E6 (rn_rel R)) as (t & r7 & E7 & _ & F7). rewrite E7. constructor; [done|]. eapply Forall2_impl; [exact F7|]. intros a b [K F]. apply carry_kept; [exact K|].
      destruct (relocatable w6 a); [|by rewrite F]. pose proof (mapM_res_F2 (fun _ _ => True) _ _ _ (fun _ _ _ => I) F) as F'. intros Hn E. apply Hn. apply Forall2_length in F'. rewrite E in F'. by apply length_zero_iff_nil in F'. }
    assert (C8 : Forall2 carry (w_sections w7) (w_sections w)).
    { destruct (run_fields R) as (_ & _ & _ & _ & _ & _ & _ & _ & _ & _ & _ & _ & _ & _ & _ & _ & _ & _ & _ & _ & E & _). rewrite E, compute_tables_spec. clear. generalize (w_sections w7). intros k. induction k as [|a k IH]; [constructor|]. rewrite fmap_cons. constructor; [|exact IH]. exact (carry_tables w7 a). }
    rewrite Es4 in C5. eapply F2_carry_trans; [exact C3|]. eapply F2_carry_trans; [exact C5|]. eapply F2_carry_trans; [exact C6|]. eapply F2_carry_trans; [exact C7|exact C8].
  Qed.
  Lemma all_ready s : s ∈ w_sections w -> ready s.
  Proof using R V H0 HI.
    intros Hs. apply elem_of_list_lookup in Hs as [i Hi]. destruct (Forall2_lookup_r _ _ _ _ _ carry_stages Hi) as (a & Ha & C). apply (ready_carry a); [exact C|]. apply w1_ready. rewrite (rn_secs1 R).
    apply elem_of_list_lookup_2 in Ha. apply elem_of_cons in Ha as [->|Ha]; [left|]. right. by rewrite <- (proj1 (vo_sort _ V rest)).
  Qed.
  Lemma ids_there i : (i < 14)%nat -> is_Some (get_section i (w_sections w)).
  Proof using R V H0 HI.
    intros Hi. assert (Hin : i ∈ sc_id <$> w_sections w).
    { assert (E : sc_id <$> w_sections w = sc_id <$> null :: o_sort o rest). { pose proof carry_stages as F. clear -F. induction F as [|a b la lb (E & _) F IH]; [reflexivity|]. rewrite !fmap_cons, IH. by rewrite E. }
      rewrite E. assert (P : sc_id <$> null :: o_sort o rest ≡ₚ sc_id <$> null :: rest) by (apply fmap_Permutation; constructor; apply (vo_sort _ V)). rewrite P, <- (rn_secs1 R).
      rewrite (sz_secs _ _ _ _ _ (rn_sizing R)). rewrite <- list_fmap_compose.
      assert (Hl : (i < length (w_sections wr))%nat).
      { pose proof (wi_n0 _ _ _ HI). destruct (writer_new_ref _ _ H0) as (Es & _). apply (f_equal length) in Es. rewrite !fmap_length in Es. assert (L : (14 <= length (ref_sections (opt_hash_style opts)))%nat) by (destruct (opt_hash_style opts); vm_compute; repeat constructor).
        assert (Hlt : (i < length (w_sections w0))%nat) by lia. apply lookup_lt_is_Some_2 in Hlt as [s0 E2]. destruct (wi_fixed _ _ _ HI _ _ E2) as (s1 & Hs1 & _). by eapply lookup_lt_Some. }
      apply lookup_lt_is_Some_2 in Hl as [s Hs]. destruct (Forall2_lookup_l _ _ _ _ _ (proj2 (scan_relocations_scanned _ _ (sz_scan _ _ _ _ _ (rn_sizing R)))) Hs) as (s' & Hs' & K & _).
      apply elem_of_list_fmap. exists s'. split; [|by eapply elem_of_list_lookup_2]. cbn. rewrite (decl_id _ _ (sized_decl _ _ (sized_fn _ _ _ _ _ _ _ s'))), K. cbn. by rewrite (wi_ids _ _ _ HI _ _ Hs). }
    revert Hin. generalize (w_sections w). clear. intros k. induction k as [|a k IH]; [by intros ?%elem_of_nil|]. rewrite fmap_cons. intros [E|Hin]%elem_of_cons; cbn [get_section]; destruct (Nat.eqb_spec (sc_id a) i) as [Ea|Ea]; eauto. by symmetry in E.
  Qed.
  Lemma finalize_all : exists secs, mapM_res (sec_finalize o w) (w_sections w) = Ok secs.
  Proof using R V H0 HI.
    assert (G : forall s, s ∈ w_sections w -> exists s', sec_finalize o w s = Ok s').
    { intros s Hs. destruct (all_ready s Hs) as [H1 H2]. unfold sec_finalize.
      assert (K : forall c s1, sc_link s1 = sc_link s -> exists s', (match sc_link s1 with Some id => l ← unwrap (get_section id (w_sections w)); Ok (c l) | None => Ok s1 end) = Ok s').
      { intros c s1 E. rewrite E. destruct (sc_link s) as [i|]; [|eauto]. destruct (ids_there i (H2 i eq_refl)) as [t ->]. cbn. eauto. }
      destruct (sc_synth s) as [[]|]; try (cbn [mbind res_bind]; refine (K (fun l => _) _ _); reflexivity).
      - destruct (sc_chunks s) as [|c cs] eqn:Ec; [exfalso; apply H1; [by left|reflexivity]|]. cbn [index lookup list_lookup mbind res_bind]. refine (K (fun l => _) _ _); reflexivity.
      - destruct (sc_chunks s) as [|c cs] eqn:Ec; [exfalso; apply H1; [by right|reflexivity]|]. cbn [index lookup list_lookup mbind res_bind]. refine (K (fun l => _) _ _); reflexivity. }
    revert G. generalize (w_sections w). intros k. induction k as [|a k IH]; intros G; [exists []; reflexivity|]. destruct (G a) as [a' Ea]; [left|]. destruct IH as [k' Ek]; [intros s Hs; apply G; by right|].
    exists (a' :: k'). cbn [mapM_res]. rewrite Ea. cbn [mbind res_bind]. rewrite Ek. reflexivity.
  Qed.
End ready.

(** * Every name *)
Lemma names_to w us ns r n : symbol_names_of w us = Ok ns -> r ∈ us -> symbol_name w r = Ok (Some n) -> n ∈ ns.
Proof.
  revert ns. induction us as [|u us IH]; intros ns H Hr Hn; [by apply elem_of_nil in Hr|]. cbn [symbol_names_of] in H.
  apply bind_Ok in H as (m & Hm & H). apply bind_Ok in H as (ns' & Hns & H). apply elem_of_cons in Hr as [->|Hr].
  - rewrite Hm in Hn. injection Hn as ->. injection H as <-. by left.
  - pose proof (IH _ Hns Hr Hn) as K. destruct m; injection H as <-; [by right|exact K].
Qed.
Lemma named_once w us ns : st_ok (w_strtab w) -> symbol_names_of w us = Ok ns -> NoDup us -> NoDup ns.
Proof.
  intros HR. revert ns. induction us as [|u us IH]; intros ns H Hd; cbn [symbol_names_of] in H; [injection H as <-; constructor|].
  apply bind_Ok in H as (m & Hm & H). apply bind_Ok in H as (ns' & Hns & H). apply NoDup_cons in Hd as [Hu Hd]. specialize (IH _ Hns Hd). destruct m as [m|]; injection H as <-; [|exact IH]. constructor; [|exact IH].
  intros Hin. destruct (names_from _ _ _ _ Hns Hin) as (r & Hr & Er). apply Hu. enough (u = r) as -> by exact Hr.
  unfold symbol_name in Hm, Er. destruct u as [k|]; [|discriminate Hm]. destruct r as [k'|]; [|discriminate Er].
  apply bind_Ok in Hm as (x & Hx & [= ->]). apply bind_Ok in Er as (x' & Hx' & [= ->]). apply unwrap_Ok in Hx, Hx'. f_equal.
  unfold st_name_at in Hx, Hx'. apply name_in_Some_elem in Hx as [i Hi], Hx' as [i' Hi'].
  pose proof (assoc_elem_Some _ _ _ (ok_nodup _ HR) Hi) as A. rewrite (assoc_elem_Some _ _ _ (ok_nodup _ HR) Hi') in A. congruence.
Qed.
(** A name with a definition in a section ends up with that section's number,
    or another section's. *)
Section homed.
  Context {wd : world} {lo : lib_oracle} {l : linker} {fuel : nat} {w : writer} {secs : list section}
    {w0 wr ws w1 : writer} {extra : N} {null : section} {rest rest' : list section} {st : layout} {w3 w4 w5 w6 w7 : writer}
    {null' : section} {out : list section}.
  Context (O : outcome wd lo l fuel w secs w0 wr ws w1 extra null rest rest' st w3 w4 w5 w6 w7 null' out).
  Context (Fin : mapM_res (sec_finalize (lo_writer lo) w) (w_sections w) = Ok secs).
  Context (V : valid_oracle (lo_writer lo)) (P : plain_inputs wd l) (NF : names_fit w).
  Context {es : list (string * elf_obj)} {evs : list event} (R : reads wd l es evs wr).
  Context (Few : N.of_nat (length secs) <= 2 ^ 16).
  Let sn := w_strtab wr.
  Lemma index_some k b : out !! k = Some b -> u16 (sc_index b) <> 0.
  Proof using O Few.
    intros Hk. rewrite (out_index O _ _ Hk). apply lookup_lt_Some in Hk. rewrite (oc_secs O) in Few. cbn [length] in Few. unfold u16. rewrite N.mod_small by lia. lia.
  Qed.
  Lemma index_six null6 r6 i s : w_sections w6 = null6 :: r6 -> length r6 = length out -> r6 !! i = Some s -> u16 (sc_index s) <> 0.
  Proof using O Fin V Few.
    intros E6 El Hi. destruct (lookup_lt_is_Some_2 out i) as [b Hb]; [rewrite <- El; by eapply lookup_lt_Some|].
    destruct (history O Fin V) as (pd & gd & _ & Hh). destruct (Hh i b Hb) as (z0 & z1 & z3 & z6 & z7 & HZ). pose proof (h_w6 HZ) as Z6. rewrite E6 in Z6. simpl in Z6. rewrite Hi in Z6. injection Z6 as <-.
    enough (E : sc_index s = sc_index b) by (rewrite E; by eapply index_some). destruct (h_special HZ) as [K _]. rewrite K. cbn [sc_index]. 
    assert (E : sc_index (patched_plt w4 pd gd z3) = sc_index z3) by (unfold patched_plt, on; destruct (w_got_plt w4); repeat destruct (Nat.eqb _ _); reflexivity).
    change (sc_index (patched_plt w4 pd gd z3) = sc_index b). rewrite E. symmetry. exact (proj1 (proj2 (h_written HZ))).
  Qed.
  Lemma homed n x y s : y ∈ named n (all_syms es) -> x ∈ all_secs es -> si_name x <> "" -> lies_in x y -> syt_symbols (w_symtab w7) !! off_of sn n = Some s -> st_shndx (s_sym s) <> 0.
  Proof using O Fin V P NF R Few.
    intros Hy Hx Hxn Hin Hs. pose proof (elem_of_list_filter (fun y => typ (yi_sym y) <> 3 /\ yi_name y = n) (all_syms es) y) as [F _]. destruct (F Hy) as [[Ht0 E0] Hy0'].
    destruct (where_defined R _ _ Hx Hy0' Hin) as (r & sr & Hev & Hsr & Hdef). pose proof (sym_ref R _ _ _ Hev Ht0) as Er. rewrite E0 in Er. subst r. fold sn in Hev, Hdef.
    destruct (chunk_at O Fin V P NF R x sr Hx Hxn Hsr) as (k & ofs & pd & gd & a0 & a1 & a3 & a6 & a7 & b & c0 & U & Esr & Hc0 & Hoff). pose proof (us_hist _ _ _ _ _ _ _ _ _ _ _ U) as HH.
    assert (Hreg : RNamed (off_of sn n) ∈ c_symbols c0).
    { destruct (sv_chunk _ _ _ _ (wr_sinv O R) _ _ _ _ (h_wr HH) Hc0) as (_ & _ & _ & Hd). apply Hd. exists (EvSym y (Some sr) (RNamed (off_of sn n))). split; [done|]. by rewrite <- Esr. }
    destruct (rest6 O) as (null6 & r6 & E6 & El & E7).
    destruct (user_chunk O Fin V P NF R _ _ _ _ _ _ _ _ _ _ _ _ _ U Hc0) as (c6 & c7 & Hc6 & _ & CF). pose proof (cf_syms _ _ _ _ _ CF) as (tl & Ec6 & _ & _).
    pose proof (h_w6 HH) as H6. rewrite E6 in H6. simpl in H6.
    assert (Hst : exists q, q ∈ steps_at (RNamed (off_of sn n)) (rest_steps w6 r6)).
    { exists (u16 (sc_index a6), sh_addr (sc_sh a6) + ntotal (blen <$> take (sr_chunk sr) (c_data <$> sc_chunks a6)), RNamed (off_of sn n)). apply elem_of_list_filter. split; [reflexivity|]. unfold rest_steps. apply elem_of_concat.
      exists (sec_steps a6). split; [|apply elem_of_list_fmap; exists a6; split; [by rewrite (user_relocatable O Fin V P NF _ _ _ _ _ _ _ _ _ _ _ U)|by eapply elem_of_list_lookup_2]].
      unfold sec_steps. apply elem_chunks_steps. exists (sr_chunk sr), c6. split; [exact Hc6|]. split; [|reflexivity]. cbn [snd]. rewrite Ec6. cbn. apply elem_of_app. by left. }
    change (syt_get (w_symtab w7) (RNamed (off_of sn n)) = Some s) in Hs. rewrite E7, steps_get in Hs. destruct (syt_get (w_symtab w6) (RNamed (off_of sn n))) as [s6|]; [|discriminate Hs]. cbn [fmap option_fmap option_map] in Hs. apply (inj Some) in Hs.
    assert (Q : Forall (fun x : step => x.1.1 <> 0) (steps_at (RNamed (off_of sn n)) (rest_steps w6 r6))).
    { apply Forall_forall. intros q Hq. apply elem_of_list_filter in Hq as [_ Hq]. apply elem_of_concat in Hq as (ql & Hq & Hql). apply elem_of_list_fmap in Hql as (z & -> & Hz). destruct (relocatable w6 z); [|by apply elem_of_nil in Hq].
      unfold sec_steps in Hq. apply elem_chunks_steps in Hq as (j & c & _ & _ & E). rewrite E. cbn [fst]. apply elem_of_list_lookup in Hz as [i Hi]. exact (index_six _ _ _ _ E6 El Hi). }
    revert Hst Q Hs. generalize (steps_at (RNamed (off_of sn n)) (rest_steps w6 r6)). clear. intros q [z Hz] Q Hs. subst s. assert (Hq : q <> []) by (intros ->; by apply elem_of_nil in Hz). clear Hz.
    destruct (exists_last Hq) as (q' & x & ->). rewrite fold_left_app. cbn [fold_left]. apply Forall_app in Q as [_ Q]. apply Forall_cons in Q as [Q _]. unfold step_fn at 1, patch_symbol. exact Q.
  Qed.
  Lemma own_homed n s : n <> "" -> only_referenced es n -> all_standard n (all_syms es) -> linker_defines es n -> syt_symbols (w_symtab w7) !! off_of sn n = Some s -> st_shndx (s_sym s) <> 0.
  Proof using O Fin V P NF R Few.
    intros Hn Hu Hst Hld Hs.
    assert (K : exists k b s', out !! k = Some b /\ syt_symbols (w_symtab w7) !! off_of sn n = Some s' /\ st_shndx (s_sym s') = u16 (sc_index b)).
    { destruct (table_wr O NF R n Hn (proj1 Hu) Hst) as (s0 & y & _ & Hw & _). destruct Hld as [->|(a & m & e & Hm & Hin & Hc)].
      - destruct (got_symbol O Fin V P NF R Hu Hst) as (k & b & s' & H1 & _ & H2 & H3 & _). eauto 6.
      - unfold array_marks in Hm. rewrite !elem_of_cons, elem_of_nil in Hm. rewrite !elem_of_cons, elem_of_nil in Hin.
        destruct Hm as [[= -> -> ->]|[[= -> -> ->]|[]]]; destruct Hin as [->|[->|[]]].
        + destruct (array_start O Fin V P NF R true y Hc Hu Hst Hw) as (k & b & s' & H1 & _ & H2 & H3 & _). eauto 6.
        + destruct (array_end O Fin V P NF R true Hc Hu Hst) as (k & b & s' & H1 & _ & H2 & H3 & _). eauto 6.
        + destruct (array_start O Fin V P NF R false y Hc Hu Hst Hw) as (k & b & s' & H1 & _ & H2 & H3 & _). eauto 6.
        + destruct (array_end O Fin V P NF R false Hc Hu Hst) as (k & b & s' & H1 & _ & H2 & H3 & _). eauto 6. }
    destruct K as (k & b & s' & H1 & H2 & H3). rewrite Hs in H2. injection H2 as <-. rewrite H3. by eapply index_some.
  Qed.
End homed.
Section complete.
  Context (wd : world) (lo : lib_oracle) (l : linker) (fuel : nat) (ns : list string) (es : list (string * elf_obj)) (evs : list event).
  Context (V : valid_oracle (lo_writer lo)) (P : plain_inputs wd l) (NF : short_names wd lo l fuel).
  Context (E : link_writer wd lo l fuel = Err (EUndefined ns)) (L : loading wd lo l fuel es evs).
  Lemma at_check : exists wr w secs, resolve wd lo l fuel = Ok wr /\ reads wd l es evs wr /\ compute_sections (lo_writer lo) wr = Ok w /\ mapM_res (sec_finalize (lo_writer lo) w) (w_sections w) = Ok secs /\
    symbol_names_of w (undefined_symbols (lo_writer lo) w) = Ok ns.
  Proof using V E L.
    unfold link_writer in E. destruct (resolve wd lo l fuel) as [wr|e|p] eqn:Er; [| |discriminate E]; cbn [mbind res_bind] in E; [|exfalso; eapply (calm_resolve wd lo l fuel); rewrite Er; exact E].
    destruct (compute_sections (lo_writer lo) wr) as [w|e|p] eqn:Ec; [| |discriminate E]; cbn [mbind res_bind] in E; [|exfalso; eapply (calm_compute (lo_writer lo) wr); rewrite Ec; exact E].
    destruct L as (wr' & Er' & R). rewrite Er in Er'. injection Er' as <-. unfold check_undefined in E.
    destruct (resolve_winv _ _ _ _ _ Er) as (w0 & Hw0 & HI). destruct (compute_run _ _ _ Ec) as (ws & w1 & extra & null & rest & rest' & st & w3 & w4 & w5 & w6 & w7 & RR).
    destruct (finalize_all RR V Hw0 HI) as [secs Fin]. exists wr, w, secs. split; [reflexivity|]. split; [exact R|]. split; [exact Ec|]. split; [exact Fin|].
    destruct (undefined_symbols (lo_writer lo) w) as [|u us]; [discriminate E|]. pose proof (calm_names w (u :: us) ns) as Hcalm. destruct (symbol_names_of w (u :: us)) as [ns'|e|p]; cbn [mbind res_bind] in E; [by injection E as ->| |discriminate E].
    exfalso. apply Hcalm. injection E as ->. reflexivity.
  Qed.
  Lemma complete n y : n <> "" -> y ∈ named n (all_syms es) -> all_standard n (all_syms es) -> binding (yi_sym y) <> 0 -> provided wd l es n \/ n ∈ ns.
  Proof using V P NF E L.
    intros Hn Hy Hst Hb. destruct at_check as (wr & w & secs & Er & R & Ec & Fin & Hns). destruct (made_outcome _ _ _ _ _ _ _ Er Ec Fin) as (w0 & ws & w1 & extra & null & rest & rest' & st & w3 & w4 & w5 & w6 & w7 & null' & out & O).
    destruct (run_fields (oc_run O)) as (F1 & F2 & F3 & _).
    assert (NF' : names_fit w) by (pose proof (NF _ Er) as Q; unfold names_fit in *; rewrite F1, F2, F3; exact Q).
    destruct (object_dec es n) as [|Hod]; [by left; left|]. destruct (linker_dec es n) as [|Hld]; [by left; right; left|].
    assert (Hne : named n (all_syms es) <> []) by (intros Q; rewrite Q in Hy; by apply elem_of_nil in Hy). pose proof (named_known R n Hne) as Hk.
    destruct (left_over O Fin V P NF' R n y Hn Hy Hst Hb Hod Hld) as (s & Hs & Hsh & [Hd|Hin]).
    { intros b kd Hbs Hbn. apply (only_inputs O Fin V P NF' R b); [done|done|by destruct kd|]. destruct kd; apply (bool_decide_unpack _); vm_compute; exact I. }
    - left. right. right. exact (dynamic_listed O NF' R n s Hk Hs Hd).
    - right. refine (names_to _ _ _ _ _ Hns Hin _). unfold symbol_name. rewrite F2. destruct Hk as [e He].
      assert (Q : st_name_at (w_strtab wr) (off_of (w_strtab wr) n) = Some n).
      { unfold off_of. rewrite He. apply get_entry in He as [i Hi]. apply elem_of_list_lookup in Hi as [j Hj]. exact (entry_name _ _ _ _ _ (proj1 (resolve_reach _ _ _ _ _ Er)) (proj1 (proj2 (NF _ Er))) Hj). }
      rewrite Q. reflexivity.
  Qed.
  Lemma exact_only n y0 : y0 ∈ named n (all_syms es) -> (forall w, resolve wd lo l fuel = Ok w -> N.of_nat (length (w_sections w)) <= 2 ^ 16) -> n <> "" -> n ∈ ns -> all_standard n (all_syms es) ->
    ~ linker_defines es n /\ forall x y, x ∈ all_secs es -> si_name x <> "" -> y ∈ named n (all_syms es) -> ~ lies_in x y.
  Proof using V P NF E L.
    intros Hy0 Few Hn Hin Hst. destruct at_check as (wr & w & secs & Er & R & Ec & Fin & Hns). destruct (made_outcome _ _ _ _ _ _ _ Er Ec Fin) as (w0 & ws & w1 & extra & null & rest & rest' & st & w3 & w4 & w5 & w6 & w7 & null' & out & O).
    destruct (run_fields (oc_run O)) as (F1 & F2 & F3 & _ & _ & _ & F7 & _).
    assert (NF' : names_fit w) by (pose proof (NF _ Er) as Q; unfold names_fit in *; rewrite F1, F2, F3; exact Q).
    assert (Few' : N.of_nat (length secs) <= 2 ^ 16).
    { pose proof (Few _ Er) as Q. pose proof (Forall2_length _ _ _ (oc_decls O)) as L1. pose proof (Forall2_length _ _ _ (oc_out O)) as L2. pose proof (Forall2_length _ _ _ (placed_all O)) as L3. unfold indexed in L3. rewrite imap_length, (Permutation_length (proj1 (vo_sort _ V rest))) in L3.
      rewrite (oc_secs O). cbn [length] in *. lia. }
    destruct (names_from _ _ _ _ Hns Hin) as (r & Hr & Hnm). unfold undefined_symbols in Hr. apply elem_of_list_fmap in Hr as (k & -> & Hk). apply elem_of_list_filter in Hk as [Hk _].
    destruct (syt_symbols (w_symtab w) !! k) as [s|] eqn:Es; [|done]. cbn [fmap option_fmap option_map default from_option id] in Hk. unfold is_unresolved in Hk. rewrite !andb_true_iff in Hk. destruct Hk as [[S1 _] _]. apply N.eqb_eq in S1.
    assert (Ek : k = off_of (w_strtab wr) n).
    { unfold symbol_name in Hnm. rewrite F2 in Hnm. apply bind_Ok in Hnm as (x & Hx & [= ->]). apply unwrap_Ok in Hx. unfold st_name_at in Hx. apply name_in_Some_elem in Hx as [i Hi].
      pose proof (entry_off_lt _ _ _ _ (sn_ok O) Hi) as Hlt. pose proof (sn_small O NF') as Hsm. unfold off_of, st_get. rewrite (assoc_elem_Some _ _ _ (ok_nodup _ (sn_ok O)) Hi). cbn [en_offset]. unfold u32. rewrite N.mod_small by lia. reflexivity. }
    rewrite Ek, F7 in Es.
    assert (Hr : forall x y, x ∈ all_secs es -> si_name x <> "" -> y ∈ named n (all_syms es) -> ~ lies_in x y).
    { intros x y Hx Hxn Hy Hl. exact (homed O Fin V P NF' R Few' n x y s Hy Hx Hxn Hl Es S1). }
    split; [|exact Hr]. intros Hld. refine (own_homed O Fin V P NF' R Few' n s Hn _ Hst Hld Es S1). split; [|exact Hr].
    intros Q. rewrite Q in Hy0. by apply elem_of_nil in Hy0.
  Qed.
  Lemma once : NoDup ns.
  Proof using V E L.
    destruct at_check as (wr & w & secs & Er & R & Ec & Fin & Hns). destruct (made_outcome _ _ _ _ _ _ _ Er Ec Fin) as (w0 & ws & w1 & extra & null & rest & rest' & st & w3 & w4 & w5 & w6 & w7 & null' & out & O).
    destruct (run_fields (oc_run O)) as (_ & F2 & _). refine (named_once _ _ _ _ Hns _); [rewrite F2; exact (sn_ok O)|].
    unfold undefined_symbols. apply NoDup_fmap_2; [intros a b [= ->]; reflexivity|]. apply NoDup_filter. rewrite (vo_sym _ V). unfold keys. apply NoDup_elements.
  Qed.
End complete.
