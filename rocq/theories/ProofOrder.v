From Verif Require Import ProofBase SpecOrder ProofScan.

(** * Patching *)
Lemma modify_apart t r f r' g : r <> r' -> syt_modify (syt_modify t r f) r' g = syt_modify (syt_modify t r' g) r f.
Proof.
  intros H. destruct t as [syms secs loc], r as [n|a b], r' as [n'|a' b']; cbn [syt_modify]; unfold RecordSet.set; cbn; f_equal.
  - apply alter_commute. congruence.
  - destruct (decide (a = a')) as [<-|Ha]; [|by apply alter_commute]. rewrite <- !alter_compose. apply alter_ext. intros m _. cbn. apply list_alter_commute. congruence.
Qed.
Lemma patch_swap i b t r r' : syt_modify (syt_modify t r (patch_symbol i b r)) r' (patch_symbol i b r') = syt_modify (syt_modify t r' (patch_symbol i b r')) r (patch_symbol i b r).
Proof.
  destruct (decide (r = r')) as [<-|H]; [reflexivity|]. by apply modify_apart.
Qed.
Lemma patch_chunk_perm i b rs rs' t : rs' ≡ₚ rs ->
  fold_left (fun t r => syt_modify t r (patch_symbol i b r)) rs' t = fold_left (fun t r => syt_modify t r (patch_symbol i b r)) rs t.
Proof.
  intros H. revert t. induction H as [|r rs rs' _ IH|r r' rs|? ? ? _ IH1 _ IH2]; intros t; cbn [fold_left]; [done|apply IH| |by rewrite IH1]. by rewrite patch_swap.
Qed.
Lemma patch_chunks_relisted i b cs cs' t : Forall2 relisted_chunk cs cs' -> patch_chunks i b cs' t = patch_chunks i b cs t.
Proof.
  intros H. revert b t. induction H as [|c c' cs cs' (H1 & H2 & H3 & H4) _ IH]; intros b t; [done|]. cbn [patch_chunks]. rewrite H2, (patch_chunk_perm _ _ _ _ _ H4). apply IH.
Qed.
Lemma patch_relisted s s' t : relisted_sec s s' -> patch_symbol_values s' t = patch_symbol_values s t.
Proof. intros (H1 & H2 & H3 & H4 & H5 & H6). unfold patch_symbol_values. rewrite H2, H5. by apply patch_chunks_relisted. Qed.

(** * The rest of the link *)
Definition like {A} (R : A -> A -> Prop) (a b : res A) : Prop :=
  match a, b with Ok x, Ok y => R x y | Err e, Err e' => e = e' | Panic p, Panic p' => p = p' | _, _ => False end.
Lemma like_bind {A B} (R : A -> A -> Prop) (S : B -> B -> Prop) a b f g : like R a b -> (forall x y, R x y -> like S (f x) (g y)) -> like S (a ≫= f) (b ≫= g).
Proof. destruct a, b; cbn; try done. intros H K. by apply K. Qed.
Lemma like_eq {A} (a : res A) : like eq a a.
Proof. by destruct a. Qed.

Lemma get_relisted id l l' : Forall2 relisted_sec l l' ->
  match get_section id l, get_section id l' with Some s, Some s' => relisted_sec s s' | None, None => True | _, _ => False end.
Proof.
  induction 1 as [|s s' l l' H _ IH]; [done|]. cbn [get_section]. pose proof H as (H1 & _). rewrite H1. by destruct (Nat.eqb (sc_id s) id).
Qed.
Lemma hdr_relisted id l l' : Forall2 relisted_sec l l' -> hdr_of id l' = hdr_of id l.
Proof. intros H. pose proof (get_relisted id _ _ H) as K. unfold hdr_of. destruct (get_section id l), (get_section id l'); try done. apply K. Qed.
Lemma upd_relisted id f l l' : (forall s s', relisted_sec s s' -> relisted_sec (f s) (f s')) -> Forall2 relisted_sec l l' -> Forall2 relisted_sec (upd_section id f l) (upd_section id f l').
Proof.
  intros Hf H. unfold upd_section. induction H as [|s s' l l' H _ IH]; [constructor|]. rewrite !fmap_cons. constructor; [|exact IH].
  pose proof H as (H1 & _). rewrite H1. destruct (Nat.eqb (sc_id s) id); [by apply Hf|exact H].
Qed.
Lemma chunk_refl c : relisted_chunk c c.
Proof. done. Qed.
Lemma add_chunk_relisted c s s' : relisted_sec s s' -> relisted_sec (sec_add_chunk c s) (sec_add_chunk c s').
Proof. intros (H1 & H2 & H3 & H4 & H5 & H6). unfold relisted_sec. cbn. split_and!; try done. apply Forall2_app; [done|]. by constructor. Qed.
Lemma add_symbol_relisted r c c' : relisted_chunk c c' -> relisted_chunk (chunk_add_symbol r c) (chunk_add_symbol r c').
Proof.
  intros (H1 & H2 & H3 & H4). unfold chunk_add_symbol. destruct (decide (r ∈ c_symbols c)) as [Hr|Hr]; destruct (decide (r ∈ c_symbols c')) as [Hr'|Hr'].
  - done.
  - rewrite H4 in Hr'. by destruct Hr'.
  - rewrite H4 in Hr'. by destruct Hr.
  - unfold relisted_chunk. cbn. split_and!; try done. by rewrite H4.
Qed.
Lemma alter_relisted r i cs cs' : Forall2 relisted_chunk cs cs' -> Forall2 relisted_chunk (alter (chunk_add_symbol r) i cs) (alter (chunk_add_symbol r) i cs').
Proof.
  intros H. apply Forall2_alter; [exact H|]. intros c c' _ _. apply add_symbol_relisted.
Qed.

Lemma mapM_st_relisted {S} (f g : S -> section -> res (S * section)) l l' t : Forall2 relisted_sec l l' ->
  (forall t s s', relisted_sec s s' -> like (fun x y => x.1 = y.1 /\ relisted_sec x.2 y.2) (f t s) (g t s')) ->
  like (fun x y => x.1 = y.1 /\ Forall2 relisted_sec x.2 y.2) (mapM_st f l t) (mapM_st g l' t).
Proof.
  intros H Hf. revert t. induction H as [|s s' l l' H _ IH]; intros t; cbn [mapM_st]; [cbn; by split|].
  eapply like_bind; [exact (Hf t s s' H)|]. intros [t1 s1] [t2 s2] [E1 E2]. cbn in E1, E2. subst t2. eapply like_bind; [exact (IH t1)|]. intros [t3 k] [t4 k'] [E3 E4]. cbn in E3, E4. subst t4. cbn. split; [done|by constructor].
Qed.

Lemma size_on_disk_relisted s s' : relisted_sec s s' -> size_on_disk s' = size_on_disk s.
Proof. intros (_ & _ & _ & _ & H & _). unfold size_on_disk. by rewrite H. Qed.
Lemma bounds_relisted n a b t s s' : relisted_sec s s' -> like (fun x y => x.1 = y.1 /\ relisted_sec x.2 y.2) (bound_symbols n a b t s) (bound_symbols n a b t s').
Proof.
  intros H. unfold bound_symbols. eapply (like_bind relisted_sec).
  - destruct (st_get n a) as [e|]; [|exact H]. pose proof H as (H1 & H2 & H3 & H4 & H5 & H6). apply (like_bind relisted_chunk).
    + unfold index. destruct H6 as [|c c' cs cs' Hc Hcs]; cbn; done.
    + intros c c' _. cbn. unfold relisted_sec. cbn. split_and!; try done. by apply alter_relisted.
  - intros x y Hxy. destruct (st_get n b) as [e|]; [|by cbn]. apply (like_bind eq); [apply like_eq|]. intros ? ? _. rewrite (size_on_disk_relisted _ _ Hxy).
    pose proof Hxy as (H1 & H2 & H3 & H4 & H5 & H6). destruct (sc_chunks x) as [|c cs] eqn:Ex; destruct (sc_chunks y) as [|c' cs'] eqn:Ey; try by inversion H6.
    pose proof (Forall2_length _ _ _ H6) as Hl. rewrite <- Hl. set (k := (length (c :: cs) - 1)%nat). cbv beta iota. unfold like. split; [reflexivity|].
    unfold relisted_sec. cbn -[alter]. split_and!; try done. by apply alter_relisted.
Qed.
Lemma special_relisted a b c t s s' : relisted_sec s s' -> like (fun x y => x.1 = y.1 /\ relisted_sec x.2 y.2) (special_step a b c t s) (special_step a b c t s').
Proof.
  intros H. pose proof H as (H1 & H2 & H3 & H4 & H5 & H6). unfold special_step. rewrite H5. destruct (bool_decide _); [by cbn|]. destruct (bool_decide _); [by apply bounds_relisted|]. destruct (bool_decide _); [by apply bounds_relisted|]. by cbn.
Qed.

Lemma relisted_intro w w' k k' : w' = w -> Forall2 relisted_sec k k' -> relisted (w <| w_sections := k |>) (w' <| w_sections := k' |>).
Proof. intros -> H. by split. Qed.

Lemma handle_special_relisted w w' : relisted w w' -> like relisted (handle_special_symbols w) (handle_special_symbols w').
Proof.
  intros [E H]. set (k := w_sections w') in *. clearbody k. subst w'. unfold handle_special_symbols.
  assert (G : set_got_symbol (w <| w_sections := k |>) = set_got_symbol w <| w_sections := k |>).
  { unfold set_got_symbol. cbn. destruct (st_get _ _); [|done]. pose proof (get_relisted id_got_plt _ _ H) as K. rewrite (hdr_relisted id_got_plt _ _ H). destruct (get_section id_got_plt (w_sections w)), (get_section id_got_plt k); try done. destruct K as (_ & -> & _). done. }
  assert (G' : w_sections (set_got_symbol w) = w_sections w) by (unfold set_got_symbol; by destruct (st_get _ _)).
  rewrite G. set (v := set_got_symbol w) in *. clearbody v. clear G. rewrite <- G' in H. clear G' w. cbn. rewrite !(hdr_relisted _ _ _ H).
  eapply like_bind; [apply mapM_st_relisted; [exact H|]|].
  - intros t s s' Hs. exact (special_relisted _ _ _ t s s' Hs).
  - intros [t l1] [t' l2] [E1 E2]. cbn in E1, E2. subst t'. cbn. rewrite (hdr_relisted id_copyrel _ _ E2). pose proof (get_relisted id_copyrel _ _ E2) as K.
    assert (Ei : match get_section id_copyrel l2 with Some s => sc_index s | None => 0 end = match get_section id_copyrel l1 with Some s => sc_index s | None => 0 end).
    { destruct (get_section id_copyrel l1), (get_section id_copyrel l2); try done. apply K. }
    rewrite Ei. split; [reflexivity|exact E2].
Qed.

Lemma mapM_res_relisted (f g : section -> res section) l l' : Forall2 relisted_sec l l' ->
  (forall s s', relisted_sec s s' -> like relisted_sec (f s) (g s')) -> like (Forall2 relisted_sec) (mapM_res f l) (mapM_res g l').
Proof.
  intros H Hf. induction H as [|s s' l l' H _ IH]; cbn [mapM_res]; [constructor|]. eapply like_bind; [exact (Hf _ _ H)|]. intros x y Hxy. eapply like_bind; [exact IH|]. intros k k' Hk. cbn. by constructor.
Qed.
Lemma apply_relisted a b t d cs cs' : Forall2 relisted_chunk cs cs' -> like (Forall2 relisted_chunk) (mapM_res (chunk_apply_relocations a b t d) cs) (mapM_res (chunk_apply_relocations a b t d) cs').
Proof.
  induction 1 as [|c c' cs cs' H _ IH]; cbn [mapM_res]; [constructor|]. eapply (like_bind relisted_chunk).
  - destruct H as (H1 & H2 & H3 & H4). unfold chunk_apply_relocations. rewrite H1, H2, H3. eapply (like_bind eq); [apply like_eq|]. intros x y ->. cbn. by split_and!.
  - intros x y Hxy. eapply like_bind; [exact IH|]. intros k k' Hk. cbn. by constructor.
Qed.
Lemma handle_relocations_relisted w w' : relisted w w' -> like (fun x y => w_symtab y = w_symtab x /\ relisted x y) (handle_relocations w) (handle_relocations w').
Proof.
  intros [E H]. set (k := w_sections w') in *. clearbody k. subst w'. unfold handle_relocations. cbn -[hdr_of relocatable].
  rewrite !(hdr_relisted _ _ _ H).
  assert (Hrel : forall s s', relisted_sec s s' -> relocatable (w <| w_sections := k |>) s' = relocatable w s).
  { intros s s' Hs. unfold relocatable. cbn -[hdr_of]. rewrite !(hdr_relisted _ _ _ H). destruct Hs as (_ & _ & _ & _ & -> & _). reflexivity. }
  assert (Hd : Forall2 relisted_sec (drop 1 (w_sections w)) (drop 1 k)) by by apply Forall2_drop.
  assert (Ht : forall l l' t, Forall2 relisted_sec l l' -> fold_left (fun t s => if relocatable (w <| w_sections := k |>) s then patch_symbol_values s t else t) l' t = fold_left (fun t s => if relocatable w s then patch_symbol_values s t else t) l t).
  { intros l l' t Hl. revert t. induction Hl as [|s s' l l' Hs _ IH]; intros t; [done|]. cbn [fold_left]. rewrite (Hrel _ _ Hs), (patch_relisted _ _ _ Hs). apply IH. }
  rewrite (Ht _ _ _ Hd). set (t := fold_left _ _ _). eapply like_bind; [apply mapM_res_relisted; [exact Hd|]|].
  - intros s s' Hs. assert (K : relocatable (w <| w_sections := k |> <| w_symtab := t |>) s' = relocatable (w <| w_symtab := t |>) s) by exact (Hrel s s' Hs). rewrite K.
    destruct (relocatable _ s); [|exact Hs]. destruct Hs as (H1 & H2 & H3 & H4 & H5 & H6). eapply like_bind; [apply apply_relisted; exact H6|]. intros x y Hxy. cbn. unfold relisted_sec. cbn. by split_and!.
  - intros l1 l2 Hl. cbn. split; [reflexivity|]. split; [reflexivity|]. cbn. apply Forall2_app; [by apply Forall2_take|exact Hl].
Qed.

Lemma compute_tables_relisted w w' : relisted w w' -> relisted (compute_tables w) (compute_tables w').
Proof.
  intros [E H]. set (k := w_sections w') in *. clearbody k. subst w'. unfold compute_tables. cbn -[hdr_of upd_section]. rewrite !(hdr_relisted _ _ _ H). split; [reflexivity|]. cbn -[hdr_of upd_section].
  repeat (apply upd_relisted; [intros s s'; apply add_chunk_relisted|]). exact H.
Qed.
Lemma finish_header_relisted w w' : relisted w w' -> like relisted (finish_header w) (finish_header w').
Proof.
  intros [E H]. set (k := w_sections w') in *. clearbody k. subst w'. unfold finish_header. cbn -[get_section]. eapply (like_bind eq); [apply like_eq|]. intros e ? <-.
  pose proof (get_relisted id_shstr _ _ H) as K. pose proof (Forall2_length _ _ _ H) as Hl. unfold blen. rewrite <- Hl.
  assert (Ei : match get_section id_shstr k with Some s => u16 (sc_index s) | None => 0 end = match get_section id_shstr (w_sections w) with Some s => u16 (sc_index s) | None => 0 end).
  { destruct (get_section id_shstr (w_sections w)), (get_section id_shstr k); try done. by destruct K as (_ & -> & _). }
  rewrite Ei. destruct (w_program_headers w) as [|ph phs]; [done|]. destruct (_ <=? _); [done|]. cbn. split; [reflexivity|exact H].
Qed.

Lemma data_relisted cs cs' : Forall2 relisted_chunk cs cs' -> cs' ≫= c_data = cs ≫= c_data.
Proof. induction 1 as [|c c' cs cs' (_ & H & _) _ IH]; [done|]. by rewrite !bind_cons, H, IH. Qed.
Lemma write_sections_relisted l l' out off : Forall2 relisted_sec l l' -> write_sections l' out off = write_sections l out off.
Proof.
  intros H. revert out off. induction H as [|s s' l l' H _ IH]; intros out off; [done|]. cbn [write_sections]. rewrite (size_on_disk_relisted _ _ H). destruct H as (_ & _ & _ & _ & H5 & H6). rewrite H5, (data_relisted _ _ H6).
  destruct (_ <? _); apply IH.
Qed.
Lemma shdrs_relisted l l' : Forall2 relisted_sec l l' -> l' ≫= (fun s => ser_shdr (sc_sh s)) = l ≫= (fun s => ser_shdr (sc_sh s)).
Proof. induction 1 as [|s s' l l' (_ & _ & _ & _ & H & _) _ IH]; [done|]. by rewrite !bind_cons, H, IH. Qed.
Lemma finalize_relisted o w k s s' : Forall2 relisted_sec (w_sections w) k -> relisted_sec s s' -> like relisted_sec (sec_finalize o w s) (sec_finalize o (w <| w_sections := k |>) s').
Proof.
  intros H Hs. pose proof Hs as (H1 & H2 & H3 & H4 & H5 & H6). unfold sec_finalize. rewrite H4. eapply (like_bind relisted_sec).
  - assert (K : forall c, like relisted_sec (_ ← index (sc_chunks s) 0; Ok (s <| sc_chunks := <[0%nat := c]> (sc_chunks s) |>)) (_ ← index (sc_chunks s') 0; Ok (s' <| sc_chunks := <[0%nat := c]> (sc_chunks s') |>))).
    { intros c. destruct H6 as [|x x' xs xs' Hx Hxs]; [done|]. cbn. unfold relisted_sec. cbn. split_and!; try done. by constructor. }
    pose proof Hs as (_ & _ & _ & H4' & _).
    destruct (sc_synth s) as [[]|] eqn:Es; try exact Hs; try apply K. unfold like, relisted_sec, ModelWriter.set_size. split_and!; [exact H1|exact H2|exact H3| |by cbn; rewrite H5|exact H6]. cbn. by rewrite Es.
  - intros x y Hxy. pose proof Hxy as (K1 & K2 & K3 & K4 & K5 & K6). rewrite K3. destruct (sc_link x) as [id|] eqn:El; [|exact Hxy]. cbn -[get_section]. pose proof (get_relisted id _ _ H) as K.
    destruct (get_section id (w_sections w)) as [z|], (get_section id k) as [z'|]; try done. cbn. destruct K as (_ & -> & _). unfold relisted_sec. cbn. split_and!; [exact K1|exact K2|by rewrite El|exact K4|by rewrite K5|exact K6].
Qed.
Lemma write_relisted o w w' : relisted w w' -> write_to_disk o w' = write_to_disk o w.
Proof.
  intros [E H]. set (k := w_sections w') in *. clearbody k. subst w'. unfold write_to_disk. cbn [w_sections w_eh w_program_headers RecordSet.set].
  assert (K : like (Forall2 relisted_sec) (mapM_res (sec_finalize o w) (w_sections w)) (mapM_res (sec_finalize o (w <| w_sections := k |>)) k)).
  { apply mapM_res_relisted; [exact H|]. intros s s' Hs. by apply finalize_relisted. }
  change (w_sections (w <| w_sections := k |>)) with k. change (w_eh (w <| w_sections := k |>)) with (w_eh w). change (w_program_headers (w <| w_sections := k |>)) with (w_program_headers w).
  destruct (mapM_res (sec_finalize o w) (w_sections w)) as [a|a|a], (mapM_res (sec_finalize o (w <| w_sections := k |>)) k) as [b|b|b]; cbn in K; try done; [|by subst..].
  cbn [mbind res_bind]. rewrite (write_sections_relisted _ _ _ _ K), (shdrs_relisted _ _ K). reflexivity.
Qed.
Lemma after_relisted o w w' : relisted w w' -> after_layout o w' = after_layout o w.
Proof.
  intros H. assert (K : like eq (after_layout o w) (after_layout o w')).
  { unfold after_layout. eapply like_bind; [exact (handle_special_relisted _ _ H)|]. intros a b Hab. eapply like_bind; [exact (handle_relocations_relisted _ _ Hab)|]. intros c d [_ Hcd].
    eapply like_bind; [exact (finish_header_relisted _ _ (compute_tables_relisted _ _ Hcd))|]. intros e f Hef. rewrite (write_relisted _ _ _ Hef). apply like_eq. }
  destruct (after_layout o w), (after_layout o w'); cbn in K; try done; by subst.
Qed.
