(** A stub does as well as the library. *)
From Verif Require Import ProofBase.
From Verif Require Export SpecStub.

Lemma inner_alike s t o name ref names tab secs : st_info s = st_info t -> st_other s = st_other t -> st_size s = st_size t -> st_shndx s = st_shndx t -> st_value s = st_value t ->
  add_symbol_inner s o name ref names tab secs = add_symbol_inner t o name ref names tab secs.
Proof.
  destruct s, t. cbn. intros -> -> -> -> ->. reflexivity.
Qed.
Lemma dyn_alike w s t o name ref : st_info s = st_info t -> st_other s = st_other t -> st_size s = st_size t -> add_dyn_symbol w s o name ref = add_dyn_symbol w t o name ref.
Proof.
  intros E1 E2 E3. unfold add_dyn_symbol. cbv zeta. rewrite (inner_alike (s <| st_shndx := SHN_UNDEF |> <| st_value := 0 |>) (t <| st_shndx := SHN_UNDEF |> <| st_value := 0 |>)); [reflexivity|destruct s, t; cbn in *; congruence..].
Qed.
Lemma dynsyms_stub a b path name ss ts found w : Forall2 (alike_sym a b) ss ts -> match_dynsyms a path name ss found w = match_dynsyms b path name ts found w.
Proof.
  intros H. revert found w. induction H as [|s t ss ts (En & E1 & E2 & E3) _ IH]; intros found w; cbn [match_dynsyms]; [reflexivity|]. rewrite En. destruct (eo_dynstr b (st_name t)) as [n|]; [|reflexivity]. destruct (decide (name = n)); [|apply IH].
  rewrite (dyn_alike w s t _ _ _ E1 E2 E3). destruct (add_dyn_symbol w t _ _ _) as [[w1 r]| |]; cbn [mbind res_bind]; [|reflexivity..]. destruct (unwrap (file_name path)); cbn [mbind res_bind]; [apply IH|reflexivity..].
Qed.
Lemma undefines_stub a b path us w : stub_of a b -> match_undefines a path us w = match_undefines b path us w.
Proof.
  intros H. revert w. induction us as [|r us IH]; intros w; cbn [match_undefines]; [reflexivity|]. destruct (symbol_name w r) as [[name|]| |]; cbn [mbind res_bind]; [| |reflexivity..].
  - rewrite (dynsyms_stub a b path name _ _ false w H). destruct (match_dynsyms b path name _ false w) as [[w1 f]| |]; cbn [mbind res_bind]; [|reflexivity..]. rewrite IH. reflexivity.
  - rewrite IH. reflexivity.
Qed.
Lemma foldM_ext {A S} (f g : S -> A -> res S) k st : (forall a st, a ∈ k -> f st a = g st a) -> foldM f k st = foldM g k st.
Proof.
  revert st. induction k as [|a k IH]; intros st H; cbn [foldM]; [reflexivity|]. rewrite (H a st ltac:(left)). destruct (g st a); cbn [mbind res_bind]; [|reflexivity..]. apply IH. intros b st' Hb. apply H. by right.
Qed.
Section stub.
  Context (wd wd' : world) (l : linker) (H : stubbed wd wd' l).
  Lemma stub_libs us w : find_undefined_symbols_in_libs wd' l us w = find_undefined_symbols_in_libs wd l us w.
  Proof using H.
    unfold find_undefined_symbols_in_libs. apply foldM_ext. intros lib [w0 us0] Hl. unfold search_lib. destruct (sb_libs _ _ _ H lib.1) as [->|(a & b & -> & -> & Hs)]; [apply elem_of_list_fmap; eauto|reflexivity|]. symmetry. exact (undefines_stub _ _ _ _ _ Hs).
  Qed.
  Lemma stub_archives lo round us w : process_archives_containing wd' lo round l us w = process_archives_containing wd lo round l us w.
  Proof using H.
    unfold process_archives_containing. apply foldM_ext. intros p [w0 us0] Hp. unfold search_archive. rewrite (sb_archives _ _ _ H p Hp). reflexivity.
  Qed.
  Lemma stub_loop lo fuel round us w : resolve_loop wd' lo l fuel round us w = resolve_loop wd lo l fuel round us w.
  Proof using H.
    revert round us w. induction fuel as [|fuel IH]; intros round us w; cbn [resolve_loop]; [reflexivity|]. rewrite stub_libs.
    destruct (find_undefined_symbols_in_libs wd l _ w) as [[w1 us1]| |]; cbn [mbind res_bind]; [|reflexivity..]. rewrite stub_archives.
    destruct (process_archives_containing wd lo round l _ w1) as [[w2 us2]| |]; cbn [mbind res_bind]; [|reflexivity..]. destruct (_ =? _)%nat; [reflexivity|]. apply IH.
  Qed.
  Lemma stub_read k : (forall p, p ∈ k -> wd_elf wd' p = wd_elf wd p) -> mapM_res (read_object wd') k = mapM_res (read_object wd) k.
  Proof using.
    induction k as [|p k IH]; intros Hk; cbn [mapM_res]; [reflexivity|]. assert (E : read_object wd' p = read_object wd p) by (unfold read_object; rewrite (Hk p ltac:(left)); reflexivity). rewrite E, IH; [reflexivity|]. intros q Hq. apply Hk. by right.
  Qed.
  Lemma stub_link lo fuel : link wd' lo l fuel = link wd lo l fuel.
  Proof using H.
    assert (E : resolve wd' lo l fuel = resolve wd lo l fuel).
    { unfold resolve. destruct (writer_new (lk_options l)) as [w0| |]; cbn [mbind res_bind]; [|reflexivity..]. unfold load_objects. rewrite (stub_read _ (sb_objects _ _ _ H)).
      destruct (mapM_res (read_object wd) (lk_objects l)) as [ins| |]; cbn [mbind res_bind]; [|reflexivity..]. destruct (foldM add_object_sections ins (w0, [])) as [[w1 elfs]| |]; cbn [mbind res_bind]; [|reflexivity..].
      destruct (foldM add_object_symbols elfs w1) as [w2| |]; cbn [mbind res_bind]; [|reflexivity..]. apply stub_loop. }
    unfold link, link_bytes, link_writer. rewrite E, (sb_create _ _ _ H). reflexivity.
  Qed.
End stub.
