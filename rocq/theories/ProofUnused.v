(** A library that lists no name of the inputs changes nothing. *)
From Verif Require Export SpecUnused ProofTotal.
From Verif Require Import ProofResolve ProofWriter ProofInput ProofErrors ProofTables ProofRun ProofGood ProofBase.

Definition local0 (w : writer) : Prop := forall s, syt_symbols (w_symtab w) !! 0 = Some s -> is_local s = true.
Lemma local0_same w w' : w_symtab w' = w_symtab w -> local0 w -> local0 w'.
Proof. intros E H s. rewrite E. apply H. Qed.
Lemma dynsyms_apart e path name syms w : (forall s, s ∈ syms -> exists n, eo_dynstr e (st_name s) = Some n /\ n <> name) -> match_dynsyms e path name syms false w = Ok (w, false).
Proof.
  induction syms as [|s syms IH]; intros H; cbn [match_dynsyms]; [reflexivity|]. destruct (H s) as (n & -> & Hne); [left|]. destruct (decide (name = n)) as [->|_]; [contradiction|]. apply IH. intros s' Hs'. apply H. by right.
Qed.

Section unused.
  Context (wd : world) (l : linker) (U : list string) (w0 : writer).
  Context (HS : sound_inputs wd l) (HU : names_within wd l U) (Hroom : room U <= 2 ^ 32) (Hw0 : writer_new (lk_options l) = Ok w0) (HL : unnamed_local wd l).
  Context (pre post : list (string * bool)) (x : string * bool) (e : elf_obj) (Hlibs : opt_shared_libs (lk_options l) = pre ++ post).
  Context (Hx : wd_elf wd x.1 = Some (Some e)) (Hn : forall s, s ∈ eo_dynsyms e -> exists n, eo_dynstr e (st_name s) = Some n /\ (n = "" \/ n ∉ U)).
  Collection hy := wd l U w0 HS HU Hroom Hw0 HL pre post x e Hlibs Hx Hn.
  Notation sane := (sane U w0).
  Notation valid := ProofTotal.valid.
  Notation any := ProofTotal.any.
  Definition P (w : writer) : Prop := sane w /\ local0 w.
  Lemma p_valid_mono e' i w w' sr : P w -> P w' -> grows w w' -> valid e' i w sr -> valid e' i w' sr.
  Proof using hy. intros [H1 _] [H2 _]. exact (valid_mono wd l U w0 HS HU Hroom Hw0 e' i w w' sr H1 H2). Qed.
  Lemma p_any_mono e' sym w w' r : P w -> P w' -> grows w w' -> any e' sym w r -> any e' sym w' r.
  Proof using hy. intros [H1 _] [H2 _]. exact (any_mono wd l U w0 HS HU Hroom Hw0 e' sym w w' r H1 H2). Qed.
  Lemma p_sec w e' (i : nat) name sh data w' sr : P w -> input_section wd l e' name sh -> eo_shdrs e' !! i = Some sh ->
    section_data (eo_data e') sh = Ok data -> add_section w name sh data = Ok (w', sr) -> P w' /\ grows w w' /\ valid e' i w' sr.
  Proof using hy.
    intros [S L] H1 H2 H3 H. destruct (t_sec wd l U w0 HS HU Hroom Hw0 _ _ _ _ _ _ _ _ S H1 H2 H3 H) as (A & B & C). split; [|by split]. split; [exact A|]. revert L. apply local0_same.
    unfold add_section in H. destruct (st_get_or_create _ _) as [nm en]. cbv zeta in H. destruct (en_new en); [by injection H as <- _|]. apply bind_Ok in H as (s & _ & H). destruct data; [by injection H as <- _|]. destruct (sc_chunks _); [discriminate H|by injection H as <- _].
  Qed.
  Lemma p_rel w e' idx (rels : list greloc) rel sym sym' r sr w' : P w -> is_input wd l e' -> (idx, rels) ∈ eo_relocs e' -> rel ∈ rels ->
    gr_sym rel <> 0 -> eo_syms e' !! N.to_nat (gr_sym rel) = Some sym -> idx <> 0 -> valid e' (N.to_nat (idx - 1)) w sr ->
    sym' ∈ eo_syms e' -> sym_key sym' = sym_key sym -> any e' sym' w r ->
    add_relocation w (mkRela (gr_offset rel) (u64 (gr_sym rel * 2^32) + gr_type rel) (default 0%Z (gr_addend rel))) r sr = Ok w' -> P w' /\ grows w w'.
  Proof using hy.
    intros [S L] H1 H2 H3 H4 H5 H6 H7 H8 H9 H10 H. destruct (t_rel wd l U w0 HS HU Hroom Hw0 _ _ _ _ _ _ _ _ _ _ S H1 H2 H3 H4 H5 H6 H7 H8 H9 H10 H) as (A & B). split; [|exact B]. split; [exact A|]. revert L. apply local0_same.
    unfold add_relocation in H. cbv zeta in H. destruct (_ || _); [discriminate H|]. by apply bind_Ok in H as (secs & _ & [= <-]).
  Qed.
  Lemma inner_tab sym o name ref names t secs names' t' secs' r : add_symbol_inner sym o name ref names t secs = Ok (names', t', secs', r) ->
    exists en r', st_get_or_create names name = (names', en) /\ syt_add_symbol t (sym <| st_name := u32 (en_offset en) |>) (elf_hash name) (elf_gnu_hash name) ref = inl (t', r').
  Proof using.
    unfold add_symbol_inner. destruct (st_get_or_create names name) as [nm en] eqn:En. destruct (syt_add_symbol t _ _ _ ref) as [[t1 r1]|] eqn:Ea; [|discriminate]. intros H. exists en, r1.
    assert (names' = nm /\ t' = t1) as [-> ->]; [|split; [reflexivity|exact Ea]].
    destruct o as [sr|]; [|by injection H as <- <- _ _]. destruct (_ =? SHN_ABS); [by injection H as <- <- _ _|]. by apply bind_Ok in H as (secs1 & _ & [= <- <- _ _]).
  Qed.
  Lemma p_sym w e' sym o name path w' r : P w -> is_input wd l e' -> sym ∈ eo_syms e' -> eo_strtab e' (st_name sym) = Some name -> sec_ref_of valid e' w (N.to_nat (st_shndx sym)) o ->
    add_symbol w sym o name path = Ok (w', r) -> P w' /\ grows w w' /\ any e' sym w' r.
  Proof using hy.
    intros [S L] H1 H2 H3 H4 H. destruct (t_sym wd l U w0 HS HU Hroom Hw0 _ _ _ _ _ _ _ _ S H1 H2 H3 H4 H) as (A & B & C). split; [|by split]. split; [exact A|].
    unfold add_symbol in H. apply bind_Ok in H as ([[[names t] secs] r1] & H & [= <- <-]). apply inner_tab in H as (en & r' & En & Ea). intros s Hs. cbn [w_symtab set] in Hs.
    destruct (events_bind [mkEvent (sym <| st_name := u32 (en_offset en) |>) (elf_hash name) (elf_gnu_hash name) path] (w_symtab w) t 0 s) as [(s0 & Hs0 & Ei)|(ev & Hev & Hnm & Hk & Ei)].
    - cbn [add_events]. unfold add_event. cbn [ev_sym ev_hash ev_gnu ev_file]. rewrite Ea. reflexivity.
    - exact Hs.
    - pose proof (L _ Hs0) as Q. unfold is_local, st_bind in *. rewrite Ei. exact Q.
    - apply elem_of_list_singleton in Hev as ->. unfold is_named in Hnm. change (typ sym <> 3) in Hnm. change (u32 (en_offset en) = 0) in Hk. change (st_info (s_sym s) = st_info sym) in Ei.
      assert (Hname : name = "").
      { pose proof (sa_up _ _ _ A) as HP. pose proof (ProofTotal.names_room U _ HP Hroom) as Hlen. pose proof (uo_st _ _ HP) as Hok. cbn [w_strtab set] in Hok, Hlen. pose proof (goc_assoc _ _ _ _ En) as Q. apply assoc_Some_elem in Q.
        pose proof (entry_off_lt _ _ _ _ Hok Q) as Hlt. change (en_offset en < stt_total_len names) in Hlt. change (stt_total_len names <= 2 ^ 32) in Hlen.
        assert (Z : en_offset en = 0) by (unfold u32, wrap in Hk; rewrite N.mod_small in Hk by lia; exact Hk). rewrite Z in Q. destruct (ok_first _ Hok) as (tl & Ht). apply elem_of_list_lookup in Q as [j Hj]. destruct j as [|j].
        - rewrite Ht in Hj. injection Hj as ? _. congruence.
        - exfalso. assert (H0 : stt_names names !! 0%nat = Some ("", (0, 0))) by (rewrite Ht; reflexivity). pose proof (ok_offsets_lt _ _ _ _ _ Hok H0 Hj ltac:(lia)) as Q. cbn in Q. lia. }
      subst name. pose proof (HL _ _ H1 H2 H3 Hnm) as Hb. unfold is_local, st_bind. rewrite Ei, N.shiftr_div_pow2. change (2 ^ 4) with 16. unfold binding in Hb. rewrite Hb. reflexivity.
  Qed.
  Lemma p_dyn w path e' sym name so w' r : P w -> is_lib wd l path e' -> sym ∈ eo_dynsyms e' -> eo_dynstr e' (st_name sym) = Some name -> file_name path = Some so -> is_Some (st_get (w_strtab w) name) ->
    add_dyn_symbol w sym None name path = Ok (w', r) -> P (add_needed w' so) /\ grows w (add_needed w' so).
  Proof using hy.
    intros [S L] H1 H2 H3 H4 H5 H. destruct (t_dyn wd l U w0 HS HU Hroom Hw0 _ _ _ _ _ _ _ _ S H1 H2 H3 H4 H5 H) as (A & B). split; [|exact B]. split; [exact A|].
    assert (L' : local0 w').
    { unfold add_dyn_symbol in H. apply bind_Ok in H as ([[[names t] secs] r1] & _ & H). cbv zeta in H. cbn [w_strtab w_symtab set] in H. destruct (st_get (w_strtab w) name) as [en|]; [|injection H as <- _; exact L].
      apply bind_Ok in H as (s & _ & [= <- _]). intros s1 Hs1. cbn [w_symtab set] in Hs1. change (syt_get (syt_modify (w_symtab w) (RNamed (u32 (en_offset en))) (fun s => s <| s_dynamic := Some r1 |>)) (RNamed 0) = Some s1) in Hs1.
      rewrite get_modify in Hs1. destruct (syt_get (w_symtab w) (RNamed 0)) as [s2|] eqn:E2; [|by case_decide]. pose proof (L _ E2) as Q. case_decide; cbn in Hs1; injection Hs1 as <-; exact Q. }
    revert L'. apply local0_same. unfold add_needed. destruct (st_get_or_create _ _) as [nm en]. cbv zeta. by destruct (en_new en).
  Qed.
  Definition good (w : writer) (us : list symref) : Prop := Forall (known w) us /\ RNamed 0 ∉ us.
  Lemma undefined_good o w : P w -> good w (undefined_symbols o w).
  Proof using hy.
    intros [S L]. split; [exact (undefined_known wd l U w0 HS HU Hroom Hw0 o w)|]. intros H. unfold undefined_symbols in H. apply elem_of_list_fmap in H as (k & [= <-] & H). apply elem_of_list_filter in H as [H _].
    destruct (syt_symbols (w_symtab w) !! 0) as [s|] eqn:E; [|discriminate H]. pose proof (L _ E) as Q. cbn in H. unfold is_unresolved in H. rewrite !andb_true_iff in H. destruct H as [[_ H] _].
    unfold is_local, is_global, is_weak in *. apply N.eqb_eq in Q. rewrite Q in H. discriminate H.
  Qed.
  Lemma unlisted us w : P w -> good w us -> match_undefines e x.1 us w = Ok (w, us).
  Proof using hy.
    intros [S L] [K Z]. induction us as [|r us IH]; cbn [match_undefines]; [reflexivity|]. apply Forall_cons in K as [K1 K2]. rewrite not_elem_of_cons in Z. destruct Z as [Z1 Z2].
    destruct (f_name wd l U w0 HS HU Hroom Hw0 w r S K1) as (k & name & -> & N1 & _ & N3). rewrite N3. cbn [mbind res_bind].
    pose proof (uo_st _ _ (sa_up _ _ _ S)) as Hok.
    assert (Hne : name <> "").
    { intros ->. apply Z1. unfold st_name_at in N1. apply name_in_Some_elem in N1 as [i Hi]. destruct (ok_first _ Hok) as (tl & Ht). apply elem_of_list_lookup in Hi as [j Hj]. destruct j as [|j].
      - rewrite Ht in Hj. injection Hj as _ <-. reflexivity.
      - exfalso. pose proof (ok_nodup _ Hok) as ND. assert (H0 : (stt_names (w_strtab w)).*1 !! 0%nat = Some "") by (rewrite Ht; reflexivity).
        assert (H1 : (stt_names (w_strtab w)).*1 !! Datatypes.S j = Some "") by (rewrite list_lookup_fmap, Hj; reflexivity). pose proof (NoDup_lookup _ _ _ _ ND H0 H1). lia. }
    assert (HinU : name ∈ U). { pose proof (uo_names _ _ (sa_up _ _ _ S) name (st_name_at_get _ _ _ N1)) as Q. apply elem_of_cons in Q as [Q|Q]; [contradiction|exact Q]. }
    rewrite dynsyms_apart; [|intros s Hs; destruct (Hn s Hs) as (n & En & Hu); exists n; split; [exact En|]; intros ->; destruct Hu as [Hu|Hu]; [exact (Hne Hu)|exact (Hu HinU)]].
    cbn [mbind res_bind]. rewrite (IH K2 Z2). reflexivity.
  Qed.
  Lemma libs_step st lib : lib ∈ opt_shared_libs (lk_options l) -> P st.1 -> good st.1 st.2 -> forall st', search_lib wd st lib = Ok st' -> P st'.1 /\ good st'.1 st'.2.
  Proof using hy.
    destruct st as [w1 us1]. cbn [fst snd]. intros Hlib P1 [K1 Z1] [w2 us2] H. cbn [fst snd]. unfold search_lib in H. destruct (wd_elf wd lib.1) as [[e1|]|] eqn:Ee; [|discriminate H..].
    assert (Hl : is_lib wd l lib.1 e1) by (split; [apply elem_of_list_fmap; eauto|exact Ee]).
    destruct (f_undefines wd l U w0 HS HU Hroom Hw0 e1 lib.1 us1 w1 Hl (proj1 P1) K1) as [_ F2].
    destruct (match_undefines_refs wd l P grows valid any (grows_refl wd l U w0 HS HU Hroom Hw0) (grows_trans wd l U w0 HS HU Hroom Hw0) p_valid_mono p_any_mono p_sec p_sym p_rel p_dyn e1 lib.1 us1 w1 w2 us2 Hl P1 H) as [P2 G2].
    split; [exact P2|]. pose proof (F2 _ _ H) as Hsub. split; [exact (fed_mono wd l U w0 HS HU Hroom Hw0 _ _ _ _ (proj1 P2) G2 Hsub K1)|]. intros Q. exact (Z1 (Hsub _ Q)).
  Qed.
  Notation l' := (with_libs l (pre ++ x :: post)).
  Lemma libs_same us w : P w -> good w us -> find_undefined_symbols_in_libs wd l' us w = find_undefined_symbols_in_libs wd l us w.
  Proof using hy.
    intros P1 G1. unfold find_undefined_symbols_in_libs. rewrite Hlibs. change (opt_shared_libs (lk_options l')) with (pre ++ x :: post).
    assert (H : forall k, (forall a, a ∈ k -> a ∈ opt_shared_libs (lk_options l)) -> forall st, P st.1 -> good st.1 st.2 -> foldM (search_lib wd) (k ++ x :: post) st = foldM (search_lib wd) (k ++ post) st).
    { induction k as [|a k IH]; intros Hk st Pst Gst; cbn [app foldM].
      - destruct st as [w1 us1]. cbn [fst snd] in *. assert (E1 : search_lib wd (w1, us1) x = Ok (w1, us1)) by (unfold search_lib; rewrite Hx; exact (unlisted _ _ Pst Gst)). rewrite E1. reflexivity.
      - destruct (search_lib wd st a) as [st1| |] eqn:E1; cbn [mbind res_bind]; [|reflexivity..]. destruct (libs_step st a (Hk a ltac:(left)) Pst Gst _ E1) as [P2 G2]. apply IH; [|exact P2|exact G2]. intros b Hb. apply Hk. by right. }
    apply (H pre); [|exact P1|exact G1]. intros a Ha. rewrite Hlibs. apply elem_of_app. by left.
  Qed.
  Lemma loop_same lo fuel round us w : (forall i k, lo_undef lo i k ≡ₚ k) -> P w -> good w us -> resolve_loop wd lo l' fuel round us w = resolve_loop wd lo l fuel round us w.
  Proof using hy.
    intros Hu. revert round us w. induction fuel as [|fuel IH]; intros round us w P1 [K1 Z1]; cbn [resolve_loop]; [reflexivity|].
    assert (G : good w (lo_undef lo (2 * round) us)) by (split; [by rewrite (Hu _ us)|by rewrite (Hu _ us)]).
    rewrite (libs_same _ _ P1 G). destruct (find_undefined_symbols_in_libs wd l _ w) as [[w1 us1]| |] eqn:E1; cbn [mbind res_bind]; [|reflexivity..].
    destruct (libs_refs wd l P grows valid any (grows_refl wd l U w0 HS HU Hroom Hw0) (grows_trans wd l U w0 HS HU Hroom Hw0) p_valid_mono p_any_mono p_sec p_sym p_rel p_dyn _ _ _ _ P1 E1) as [P2 _].
    change (process_archives_containing wd lo round l' (lo_undef lo (2 * round + 1) us1) w1) with (process_archives_containing wd lo round l (lo_undef lo (2 * round + 1) us1) w1).
    destruct (process_archives_containing wd lo round l _ w1) as [[w2 us2]| |] eqn:E2; cbn [mbind res_bind]; [|reflexivity..].
    destruct (archives_refs wd l P grows valid any (grows_refl wd l U w0 HS HU Hroom Hw0) (grows_trans wd l U w0 HS HU Hroom Hw0) p_valid_mono p_any_mono p_sec p_sym p_rel p_dyn _ _ _ _ _ _ P2 E2) as [P3 _].
    destruct (_ =? _)%nat; [reflexivity|]. apply IH; [exact P3|exact (undefined_good _ _ P3)].
  Qed.
  Lemma p_0 : P w0.
  Proof using hy.
    split; [exact (sane_0 wd l U w0 HS HU Hroom Hw0)|]. destruct (new_tables _ _ Hw0) as [E1 E2]. intros s Hs. rewrite ?E1, ?E2 in Hs. unfold syt_new in Hs. cbn [syt_symbols] in Hs. apply lookup_singleton_Some in Hs as [_ <-]. reflexivity.
  Qed.
  Local Transparent writer_new.
  Lemma new_same : writer_new (lk_options l') = writer_new (lk_options l).
  Proof using. reflexivity. Qed.
  Local Opaque writer_new.
  Lemma resolve_same lo fuel : (forall i k, lo_undef lo i k ≡ₚ k) -> resolve wd lo l' fuel = resolve wd lo l fuel.
  Proof using hy.
    intros Hu. unfold resolve. rewrite new_same, Hw0. cbn [mbind res_bind]. change (load_objects wd l' w0) with (load_objects wd l w0). destruct (load_objects wd l w0) as [w1| |] eqn:E1; cbn [mbind res_bind]; [|reflexivity..].
    destruct (load_objects_refs wd l P grows valid any (grows_refl wd l U w0 HS HU Hroom Hw0) (grows_trans wd l U w0 HS HU Hroom Hw0) p_valid_mono p_any_mono p_sec p_sym p_rel p_dyn w0 w1 p_0 E1) as (P1 & _).
    apply loop_same; [exact Hu|exact P1|exact (undefined_good _ _ P1)].
  Qed.
End unused.
Lemma filter_sub (p : string -> Prop) `{!forall n, Decision (p n)} (k : list string) : filter p k ⊆+ k.
Proof. induction k as [|n k IH]; [reflexivity|]. rewrite filter_cons. destruct (decide (p n)); [by apply submseteq_skip|by apply submseteq_cons]. Qed.
Lemma link_same wd lo l U fuel pre x post e : valid_orders lo -> sound_inputs wd l -> names_within wd l U -> room U <= 2 ^ 32 -> unnamed_local wd l -> opt_shared_libs (lk_options l) = pre ++ post -> unrelated wd l x.1 e ->
  link wd lo (with_libs l (pre ++ x :: post)) fuel = link wd lo l fuel.
Proof.
  intros (V & Hu & Hm) HS HU HR HL Hlibs [U1 U2 U3]. destruct (f_new (lk_options l) (sd_loader _ _ HS)) as [w0 Hw0].
  set (bad := filter (fun n => n <> "") (omap (fun s => eo_dynstr e (st_name s)) (eo_dynsyms e))). set (U' := filter (fun n => n ∉ bad) U).
  assert (HU' : names_within wd l U').
  { intros e' sym name Hi Hs En. apply elem_of_list_filter. split; [|exact (HU _ _ _ Hi Hs En)]. intros Hb. apply elem_of_list_filter in Hb as [Hne Hb]. apply elem_of_list_omap in Hb as (s & Hs' & En'). exact (U3 _ _ _ _ Hs' En' Hne Hi Hs En). }
  assert (HR' : room U' <= 2 ^ 32). { etrans; [|exact HR]. unfold room. pose proof (room_mono U' U (filter_sub _ _)) as Q. lia. }
  assert (Hn : forall s, s ∈ eo_dynsyms e -> exists n, eo_dynstr e (st_name s) = Some n /\ (n = "" \/ n ∉ U')).
  { intros s Hs. destruct (eo_dynstr e (st_name s)) as [n|] eqn:En; [|destruct (U2 _ Hs En)]. exists n. split; [reflexivity|]. destruct (decide (n = "")) as [|Hne]; [by left|right]. intros Q. apply elem_of_list_filter in Q as [Q _]. apply Q.
    apply elem_of_list_filter. split; [exact Hne|]. apply elem_of_list_omap. eauto. }
  pose proof (resolve_same wd l U' w0 HS HU' HR' Hw0 HL pre post x e Hlibs U1 Hn lo fuel Hu) as E.
  unfold link, link_bytes, link_writer. rewrite E. reflexivity.
Qed.
