(** When the link fails for undefined symbols. *)
From Verif Require Export ProofOwn ProofStatic ProofSyms.
From Verif Require Import ProofBase.

(** * Only the final check reports undefined symbols *)
Definition calm {A} (m : res A) : Prop := forall ns, m <> Err (EUndefined ns).
Lemma calm_bind {A B} (m : res A) (g : A -> res B) : calm m -> (forall a, calm (g a)) -> calm (m ≫= g).
Proof. intros H1 H2 ns. destruct m as [a|e|p]; cbn [mbind res_bind]; [apply H2| |discriminate]. intros E. apply (H1 ns). congruence. Qed.
Lemma calm_unwrap {A} (o : option A) : calm (unwrap o).
Proof. by destruct o. Qed.
Lemma calm_index {A} (k : list A) i : calm (index k i).
Proof. unfold index. by destruct (_ !! _). Qed.
Lemma calm_foldM {S A} (g : S -> A -> res S) k s : (forall s a, calm (g s a)) -> calm (foldM g k s).
Proof. intros H. revert s. induction k as [|a k IH]; intros s; [done|]. apply calm_bind; [apply H|]. intros; apply IH. Qed.
Lemma calm_mapM {A B} (g : A -> res B) k : (forall a, calm (g a)) -> calm (mapM_res g k).
Proof. intros H. induction k as [|a k IH]; [done|]. apply calm_bind; [apply H|]. intros; by apply calm_bind. Qed.
Lemma calm_mapM_st {S A} (g : S -> A -> res (S * A)) k s : (forall s a, calm (g s a)) -> calm (mapM_st g k s).
Proof. intros H. revert s. induction k as [|a k IH]; intros s; [done|]. apply calm_bind; [apply H|]. intros [s1 b]. apply calm_bind; [apply IH|]. by intros [? ?]. Qed.
Ltac calm1 := match goal with
  | |- calm (Ok _) => discriminate
  | |- calm (Err _) => discriminate
  | |- calm (Panic _) => discriminate
  | |- calm (mbind _ _) => apply calm_bind; [|intros ?]
  | |- calm (unwrap _) => apply calm_unwrap
  | |- calm (index _ _) => apply calm_index
  | |- calm (foldM _ _ _) => apply calm_foldM; intros ? ?
  | |- calm (mapM_res _ _) => apply calm_mapM; intros ?
  | |- calm (mapM_st _ _ _) => apply calm_mapM_st; intros ? ?
  | |- calm (let '(_, _) := ?x in _) => destruct x
  | |- calm (match ?x with _ => _ end) => destruct x
  end.
Ltac calm := repeat (cbv beta zeta; calm1).
Lemma calm_write data off bs : calm (write_at data off bs).
Proof. unfold write_at. calm. Qed.
Lemma calm_write32 data off v : calm (write_i32 data off v).
Proof. unfold write_i32. apply calm_write. Qed.
Lemma calm_walk n cs i : calm (ht_walk n cs i).
Proof. revert i. induction n as [|n IH]; intros i; cbn [ht_walk]; calm. apply IH. Qed.
Lemma calm_dynsyms e path name syms found w : calm (match_dynsyms e path name syms found w).
Proof.
  revert found w. induction syms as [|s syms IH]; intros found w; cbn [match_dynsyms]; [done|]. destruct (eo_dynstr _ _); [|done]. destruct (decide _); [|apply IH].
  unfold add_dyn_symbol, add_symbol_inner, mod_chunk. calm; apply IH.
Qed.
Lemma calm_name w r : calm (symbol_name w r).
Proof. unfold symbol_name. calm. Qed.
Lemma calm_undefines e path us w : calm (match_undefines e path us w).
Proof. revert w. induction us as [|u us IH]; intros w; cbn [match_undefines]; calm; first [apply calm_name|apply calm_dynsyms|apply IH]. Qed.
Lemma calm_libs wd l us w : calm (find_undefined_symbols_in_libs wd l us w).
Proof. unfold find_undefined_symbols_in_libs, search_lib. calm. apply calm_undefines. Qed.
Lemma calm_wanted w ar us : calm (wanted_members w ar us).
Proof. induction us as [|u us IH]; cbn [wanted_members]; [done|]. apply calm_bind; [apply calm_name|]. intros n. apply calm_bind; [exact IH|]. intros [ms un]. discriminate. Qed.
Lemma calm_section w name sh data : calm (add_section w name sh data).
Proof. unfold add_section. calm. Qed.
Lemma calm_sections e w : calm (process_sections e w).
Proof. unfold process_sections, process_section, section_data, slice. calm; apply calm_section. Qed.
Lemma calm_symbols e path w es : calm (process_symbols e path w es).
Proof. unfold process_symbols, process_symbol, add_symbol, add_symbol_inner, mod_chunk. calm. Qed.
Lemma calm_relocations e es w : calm (process_relocations e es w).
Proof. unfold process_relocations, process_relocation, add_relocation, mod_chunk, usub. calm. Qed.
Lemma calm_archives wd lo round l us w : calm (process_archives_containing wd lo round l us w).
Proof. unfold process_archives_containing, search_archive, load_member. calm; first [apply calm_wanted|apply calm_sections|apply calm_symbols|apply calm_relocations]. Qed.
Lemma calm_objects wd l w : calm (load_objects wd l w).
Proof. unfold load_objects, read_object, add_object_sections, add_object_symbols. calm; first [apply calm_sections|apply calm_symbols|apply calm_relocations]. Qed.
Lemma calm_loop wd lo l fuel round us w : calm (resolve_loop wd lo l fuel round us w).
Proof. revert round us w. induction fuel as [|fuel IH]; intros round us w; cbn [resolve_loop]; calm; first [apply calm_libs|apply calm_archives|apply IH]. Qed.
Local Transparent writer_new.
Lemma calm_new opts : calm (writer_new opts).
Proof.
  unfold writer_new. cbv zeta. repeat lazymatch goal with
  | |- calm (let '(_, _) := ?x in _) => destruct x
  | |- calm (mbind _ _) => apply calm_bind; [apply calm_unwrap|intros ?]
  | |- calm (Ok _) => discriminate
  end.
Qed.
Local Opaque writer_new.
Lemma calm_resolve wd lo l fuel : calm (resolve wd lo l fuel).
Proof. unfold resolve. apply calm_bind; [apply calm_new|intros w; apply calm_bind; [apply calm_objects|intros; apply calm_loop]]. Qed.
Lemma calm_apply a data rel sym t g p : calm (apply_relocation a data rel sym t g p).
Proof. unfold apply_relocation, apply_got, reloc_S, plt_entry_addr, chk_i64, to_i32, to_i64, slice, usub. calm; lazymatch goal with |- calm (write_i32 _ _ _) => apply calm_write32 | |- calm (write_at _ _ _) => apply calm_write end. Qed.
Lemma calm_sizes o w : calm (assign_sizes o w).
Proof.
  unfold assign_sizes, scan_relocations, scan_section, scan_chunk, scan_reloc, fill_hash_tables, ht_add_symbols, ht_step, gt_add_symbols, build_dynrels, dynrel_step, size_dynamic, dyn_entries. calm; apply calm_walk.
Qed.
Lemma calm_layout o w : calm (assign_layout o w).
Proof.
  unfold assign_layout, sort_sections, generate_program_headers, layout_step, p_type_of, add_dyn_entries, section_dyn_entries, patch_plt_and_got_plt, patch_plt_and_got_plt_in, patch_plt_header, patch_plt_step, plt_entry_addr, chk_i64, to_i32, to_i64. calm; lazymatch goal with |- calm (write_i32 _ _ _) => apply calm_write32 | |- calm (write_at _ _ _) => apply calm_write end.
Qed.
Lemma calm_compute o w : calm (compute_sections o w).
Proof.
  unfold compute_sections, assign_section_addresses, handle_special_symbols, special_step, bound_symbols, handle_relocations, chunk_apply_relocations, finish_header. calm; first [apply calm_sizes|apply calm_layout|apply calm_apply].
Qed.

(** * The end of the search *)
(** A round that finds nothing changes nothing: no library lists any of the
    names, no archive has any of them in its index. *)
Lemma dynsyms_found e path name syms w w' b : match_dynsyms e path name syms true w = Ok (w', b) -> b = true.
Proof.
  revert w. induction syms as [|s syms IH]; intros w H; cbn [match_dynsyms] in H; [by injection H|]. destruct (eo_dynstr _ _); [|discriminate H]. destruct (decide _); [|by apply (IH w)].
  apply bind_Ok in H as ([w1 r] & _ & H). apply bind_Ok in H as (so & _ & H). by apply IH in H.
Qed.
Lemma dynsyms_none e path name syms w w' : match_dynsyms e path name syms false w = Ok (w', false) -> w' = w /\ forall s, s ∈ syms -> eo_dynstr e (st_name s) <> Some name.
Proof.
  induction syms as [|s syms IH]; intros H; cbn [match_dynsyms] in H; [injection H as <-; split; [done|]; intros s Hs; by apply elem_of_nil in Hs|].
  destruct (eo_dynstr e (st_name s)) as [inner|] eqn:Es; [|discriminate H]. destruct (decide (name = inner)) as [E|E].
  - apply bind_Ok in H as ([w1 r] & _ & H). apply bind_Ok in H as (so & _ & H). by apply dynsyms_found in H.
  - destruct (IH H) as [-> K]. split; [done|]. intros s' [->|Hs]%elem_of_cons; [congruence|by apply K].
Qed.
Definition unlisted (w : writer) (e : elf_obj) (us : list symref) : Prop :=
  forall r name s, r ∈ us -> symbol_name w r = Ok (Some name) -> s ∈ eo_dynsyms e -> eo_dynstr e (st_name s) <> Some name.
Lemma undefines_none e path us w w' us' : match_undefines e path us w = Ok (w', us') -> (length us' <= length us)%nat /\ (length us' = length us -> w' = w /\ us' = us /\ unlisted w e us).
Proof.
  revert w us'. induction us as [|u us IH]; intros w us' H; cbn [match_undefines] in H.
  { injection H as <- <-. split; [done|]. intros _. split; [done|]. split; [done|]. intros r name s Hr. by apply elem_of_nil in Hr. }
  apply bind_Ok in H as (name & Hn & H). apply bind_Ok in H as ([w1 found] & H1 & H). apply bind_Ok in H as ([w2 rest] & H2 & [= <- <-]). destruct (IH _ _ H2) as [L K].
  destruct found; cbn [length] in *; [split; [lia|]; intros; lia|]. split; [lia|]. intros E. destruct (K ltac:(lia)) as (-> & -> & Hu).
  assert (G : w1 = w /\ forall n s, symbol_name w u = Ok (Some n) -> s ∈ eo_dynsyms e -> eo_dynstr e (st_name s) <> Some n).
  { destruct name as [name|]; [|injection H1 as <-; split; [done|]; intros n s Hn'; congruence]. apply dynsyms_none in H1 as [-> H1]. split; [done|]. intros n s Hn'. assert (n = name) as -> by congruence. apply H1. }
  destruct G as [-> G]. split; [done|]. split; [done|]. intros r n s [->|Hr]%elem_of_cons; [apply G|by apply Hu].
Qed.
Section search.
  Context (wd : world) (l : linker) (lo : lib_oracle).
  Lemma libs_none us w w' us' : find_undefined_symbols_in_libs wd l us w = Ok (w', us') -> (length us' <= length us)%nat /\
    (length us' = length us -> w' = w /\ us' = us /\ forall path e, is_lib wd l path e -> unlisted w e us).
  Proof using.
    unfold find_undefined_symbols_in_libs, is_lib.
    assert (G : forall libs us w, foldM (search_lib wd) libs (w, us) = Ok (w', us') -> (length us' <= length us)%nat /\
      (length us' = length us -> w' = w /\ us' = us /\ forall path e, path ∈ libs.*1 -> wd_elf wd path = Some (Some e) -> unlisted w e us)).
    { intros libs. induction libs as [|[p b] libs IH]; intros us0 w0 H; cbn [foldM] in H.
      - injection H as <- <-. split; [done|]. intros _. split; [done|]. split; [done|]. intros path e Hp. by apply elem_of_nil in Hp.
      - apply bind_Ok in H as ([w1 us1] & H1 & H). unfold search_lib in H1. cbn [fst] in H1. destruct (wd_elf wd p) as [[e|]|] eqn:Ee; [|discriminate H1|discriminate H1].
        destruct (undefines_none _ _ _ _ _ _ H1) as [L1 K1]. destruct (IH _ _ H) as [L2 K2]. split; [lia|]. intros E. destruct (K1 ltac:(lia)) as (-> & -> & U1). destruct (K2 ltac:(lia)) as (-> & -> & U2).
        split; [done|]. split; [done|]. intros path e' [->|Hp]%elem_of_cons He; [cbn [fst] in He; rewrite Ee in He; by injection He as <-|by apply (U2 path)]. }
    intros H. destruct (G _ _ _ H) as [L K]. split; [exact L|]. intros E. destruct (K E) as (A & B & C). split; [exact A|]. split; [exact B|]. intros path e [Hp He]. by apply (C path).
  Qed.
  Definition unindexed (w : writer) (ar : archive) (us : list symref) : Prop :=
    forall r name, r ∈ us -> symbol_name w r = Ok (Some name) -> ar_member_of_symbol ar name = None.
  Lemma wanted_none w ar us ms us' : wanted_members w ar us = Ok (ms, us') -> (length us' <= length us)%nat /\ (length us' = length us -> ms = [] /\ us' = us /\ unindexed w ar us).
  Proof using.
    revert ms us'. induction us as [|u us IH]; intros ms us' H; cbn [wanted_members] in H.
    { injection H as <- <-. split; [done|]. intros _. split; [done|]. split; [done|]. intros r n Hr. by apply elem_of_nil in Hr. }
    apply bind_Ok in H as (name & Hn & H). apply bind_Ok in H as ([ms1 un] & H1 & H). destruct (IH _ _ H1) as [L K].
    destruct (name ≫= ar_member_of_symbol ar) as [m|] eqn:Em; injection H as <- <-; cbn [length]; [split; [lia|]; intros; lia|]. split; [lia|]. intros E. destruct (K ltac:(lia)) as (-> & -> & U).
    split; [done|]. split; [done|]. intros r n [->|Hr]%elem_of_cons Hr'; [|by eapply U]. rewrite Hn in Hr'. injection Hr' as ->. exact Em.
  Qed.
  Context (Hme : forall r p k, lo_members lo r p k ≡ₚ k).
  Lemma archives_none round us w w' us' : process_archives_containing wd lo round l us w = Ok (w', us') -> (length us' <= length us)%nat /\
    (length us' = length us -> w' = w /\ us' = us /\ forall p ar, p ∈ lk_archives l -> wd_archive wd p = Some (Some ar) -> unindexed w ar us).
  Proof using Hme.
    unfold process_archives_containing. generalize (lk_archives l). intros ps. revert us w. induction ps as [|p ps IH]; intros us0 w0 H; cbn [foldM] in H.
    - injection H as <- <-. split; [done|]. intros _. split; [done|]. split; [done|]. intros path e Hp. by apply elem_of_nil in Hp.
    - apply bind_Ok in H as ([w1 us1] & H1 & H). unfold search_archive in H1. destruct (wd_archive wd p) as [[ar|]|] eqn:Ee; [|discriminate H1|discriminate H1].
      apply bind_Ok in H1 as ([ms un] & Hw & H1). apply bind_Ok in H1 as (w2 & H2 & [= <- <-]).
      destruct (wanted_none _ _ _ _ _ Hw) as [L1 K1]. destruct (IH _ _ H) as [L2 K2]. split; [lia|]. intros E. destruct (K1 ltac:(lia)) as (-> & -> & U1). destruct (K2 ltac:(lia)) as (-> & -> & U2).
      assert (En : lo_members lo round p (remove_dups []) = []) by (apply Permutation_nil_r; apply Hme). rewrite En in H2. cbn [foldM] in H2. injection H2 as ->.
      split; [done|]. split; [done|]. intros path e' [->|Hp]%elem_of_cons He; [rewrite Ee in He; by injection He as <-|by apply (U2 path)].
  Qed.
  Context (Hun : forall i k, lo_undef lo i k ≡ₚ k).
  (** What is undefined when the search ends. *)
  Record searched (w : writer) : Prop := {
    sr_libs : forall path e, is_lib wd l path e -> unlisted w e (undefined_symbols (lo_writer lo) w);
    sr_archives : forall p ar, p ∈ lk_archives l -> wd_archive wd p = Some (Some ar) -> unindexed w ar (undefined_symbols (lo_writer lo) w) }.
  Lemma loop_searched fuel round w w' : resolve_loop wd lo l fuel round (undefined_symbols (lo_writer lo) w) w = Ok w' -> searched w'.
  Proof using Hme Hun.
    revert round w. induction fuel as [|fuel IH]; intros round w H; [discriminate H|]. cbn [resolve_loop] in H. apply bind_Ok in H as ([w1 n1] & H1 & H). apply bind_Ok in H as ([w2 n2] & H2 & H).
    destruct (Nat.eqb_spec (length (undefined_symbols (lo_writer lo) w)) (length n2)) as [E|E]; [|by apply IH in H]. injection H as <-.
    destruct (libs_none _ _ _ _ H1) as [L1 K1]. destruct (archives_none _ _ _ _ _ H2) as [L2 K2].
    pose proof (Permutation_length (Hun (2 * round)%nat (undefined_symbols (lo_writer lo) w))) as P1. pose proof (Permutation_length (Hun (2 * round + 1)%nat n1)) as P2.
    destruct (K1 ltac:(lia)) as (-> & -> & U1). destruct (K2 ltac:(lia)) as (-> & _ & U2). split.
    - intros path e He r name s Hr. apply (U1 path e He). by rewrite Hun.
    - intros p ar Hp Ha r name Hr. apply (U2 p ar Hp Ha). by rewrite !Hun.
  Qed.
  Lemma resolve_searched fuel w : resolve wd lo l fuel = Ok w -> searched w.
  Proof using Hme Hun. unfold resolve. intros H. apply bind_Ok in H as (w0 & _ & H). apply bind_Ok in H as (w1 & _ & H). by apply loop_searched in H. Qed.
End search.

(** * From the end of the search to the final check *)
Definition placed_ids (n : nat) (ids : list nat) (secs : list section) : Prop :=
  exists null rest, secs = null :: rest /\ sc_id null = 0%nat /\ Forall (fun s => 1 <= sc_index s <= N.of_nat n) rest /\ sc_id <$> rest ≡ₚ ids.
Lemma placed_kept n ids secs secs' : Forall2 kept secs secs' -> placed_ids n ids secs -> placed_ids n ids secs'.
Proof.
  intros F (null & rest & -> & H1 & H2 & H3). inversion F as [|? null' ? rest' K F']; subst. exists null', rest'. split; [done|]. split; [by rewrite K|]. split.
  - apply Forall_forall. intros s' Hs'. apply elem_of_list_lookup in Hs' as [i Hi]. destruct (Forall2_lookup_r _ _ _ _ _ F' Hi) as (s & Hs & Ks). pose proof (proj1 (Forall_forall _ _) H2 s (elem_of_list_lookup_2 _ _ _ Hs)) as Q. rewrite Ks. exact Q.
  - rewrite <- H3. assert (E : sc_id <$> rest' = sc_id <$> rest); [|by rewrite E]. clear -F'. induction F' as [|a b la lb Hab F IH]; [done|]. rewrite !fmap_cons, IH. by rewrite Hab.
Qed.
Lemma got_plt_placed n ids secs : placed_ids n ids secs -> id_got_plt ∈ ids -> N.of_nat n < 2 ^ 16 -> exists s, get_section id_got_plt secs = Some s /\ u16 (sc_index s) <> 0.
Proof.
  intros (null & rest & -> & H1 & H2 & H3) Hin Hn. change id_got_plt with 6%nat in *. rewrite <- H3 in Hin. cbn [get_section]. rewrite H1. cbn [Nat.eqb].
  clear H1 H3. induction rest as [|s rest IH]; [by apply elem_of_nil in Hin|]. inversion H2 as [|? ? Hs H2']; subst. cbn [get_section]. destruct (Nat.eqb_spec (sc_id s) 6) as [E|E].
  - exists s. split; [done|]. unfold u16. rewrite N.mod_small by lia. lia.
  - apply IH; [exact H2'|]. rewrite fmap_cons in Hin. apply elem_of_cons in Hin as [Hin|Hin]; [|exact Hin]. exfalso. apply E. symmetry. exact Hin.
Qed.
Section computed.
  Context (o : oracle) (V : valid_oracle o) (wr w : writer) (C : compute_sections o wr = Ok w).
  Context (H0 : forall i s, w_sections wr !! i = Some s -> sc_id s = i) (Hg : (7 <= length (w_sections wr))%nat) (Hf : N.of_nat (length (w_sections wr)) <= 2 ^ 16).
  Lemma computed : w_strtab w = w_strtab wr /\ ProofStatic.keeps sym_static (w_symtab wr) (w_symtab w) /\
    forall k s, syt_symbols (w_symtab w) !! k = Some s -> st_shndx (s_sym s) = 0 -> exists s0, syt_symbols (w_symtab wr) !! k = Some s0 /\ st_shndx (s_sym s0) = 0.
  Proof using V C H0 Hg Hf.
    pose proof C as H. unfold compute_sections, assign_section_addresses in H.
    apply bind_Ok in H as (w5 & H5 & H). apply bind_Ok in H as (w6 & H6 & H). apply bind_Ok in H as (w7 & H7 & H). apply bind_Ok in H5 as (w1 & H1 & H5).
    unfold assign_layout in H5. apply bind_Ok in H5 as (s2 & H2 & H5). apply bind_Ok in H5 as (w3 & H3 & H5). apply bind_Ok in H5 as (w4 & H4 & H5).
    destruct (assign_sizes_spec _ _ _ H1) as (ws & extra & Z). destruct (sort_spec _ _ _ H2) as (null & rest & E1 & E2).
    assert (E3 : w_sections (w1 <| w_sections := s2 |>) = null <| sc_index := 0 |> :: indexed (o_sort o rest)) by (simpl; rewrite E2; reflexivity).
    destruct (gph_spec _ _ _ _ E3 H3) as (st & rest' & Hl & Ew3). simpl in Hl.
    assert (Eid : sc_id <$> w_sections w1 = seq 0 (length (w_sections wr))).
    { rewrite (sz_secs _ _ _ _ _ Z). pose proof (scan_secs _ _ (sz_scan _ _ _ _ _ Z)) as F.
      assert (G : sc_id <$> w_sections wr = seq 0 (length (w_sections wr))).
      { apply list_eq_same_length with (length (w_sections wr)); [by rewrite seq_length|by rewrite fmap_length|]. intros i a b Hi Ha Hb. apply list_lookup_fmap_Some in Ha as (s & Hs & ->). rewrite (H0 _ _ Hs). apply lookup_seq in Hb as [-> _]. lia. }
      rewrite <- G. clear -F. induction F as [|a b la lb [K _] F IH]; [done|]. rewrite !fmap_cons, IH. f_equal.
      pose proof (sized_fn o ws (w_hash w1) (w_gnu_hash w1) (blen (w_dyn_rels w1)) (blen (w_plt_rels w1)) extra b) as S. rewrite S. cbn [sc_id]. by rewrite K. }
    pose proof (f_equal length Eid) as Elen. rewrite fmap_length, seq_length, E1 in Elen. cbn [length] in Elen.
    assert (P3 : placed_ids (length rest) (seq 1 (length rest)) (w_sections w3)).
    { rewrite Ew3. simpl. exists (null <| sc_index := 0 |>), rest'. split; [reflexivity|]. pose proof (layout_only _ _ _ _ _ Hl) as F. pose proof (proj1 (vo_sort _ V rest)) as Ps. rewrite E1, <- Elen in Eid. rewrite fmap_cons in Eid. cbn [seq] in Eid. injection Eid as En Er.
      split; [exact En|]. split.
      - apply Forall_forall. intros s' Hs'. apply elem_of_list_lookup in Hs' as [i Hi]. destruct (Forall2_lookup_r _ _ _ _ _ F Hi) as (s & Hs & [Ks _]). unfold indexed in Hs. rewrite list_lookup_imap in Hs. destruct (o_sort o rest !! i) as [x|] eqn:Ex; [|discriminate Hs].
        injection Hs as <-. rewrite Ks. change (1 <= N.of_nat (S i) <= N.of_nat (length rest)). apply lookup_lt_Some in Ex. rewrite (Permutation_length Ps) in Ex. lia.
      - assert (E : sc_id <$> rest' = sc_id <$> o_sort o rest); [|by rewrite E, Ps, Er].
        assert (E' : sc_id <$> indexed (o_sort o rest) = sc_id <$> o_sort o rest). { apply list_eq. intros i. rewrite !list_lookup_fmap. unfold indexed. rewrite list_lookup_imap. by destruct (o_sort o rest !! i). }
        rewrite <- E'. clear -F. induction F as [|a b la lb [Hab _] F IH]; [done|]. rewrite !fmap_cons, IH. by rewrite Hab. }
    destruct (add_dyn_spec _ _ H4) as (es & _ & E4). destruct (patch_plt_spec _ _ H5) as [E5 K5]. assert (P5 : placed_ids (length rest) (seq 1 (length rest)) (w_sections w5)) by (apply (placed_kept _ _ _ _ K5); rewrite E4; exact P3).
    destruct (special_spec _ _ H6) as [E6 K6]. assert (P6 : placed_ids (length rest) (seq 1 (length rest)) (w_sections w6)) by (eapply placed_kept; [|exact P5]; eapply Forall2_impl; [exact K6|]; by intros ? ? [? _]).
    destruct P6 as (n6 & r6 & Es6 & _ & Hix & _). destruct (handle_relocs_spec _ _ _ _ Es6 H7) as (t & r7 & E7 & Et & _). destruct (finish_spec _ _ H) as (entry & ph & phs & _ & _ & _ & Ew).
    assert (Es5 : w_symtab w5 = w_symtab w1) by (rewrite E5, E4, Ew3; reflexivity).
    destruct (sz_rels _ _ _ _ _ Z) as (sd & Hd & Esy & _).
    assert (Esw : w_symtab w = t) by (rewrite Ew, E7; reflexivity).
    pose proof (sz_frame _ _ _ _ _ Z) as Hfr. unfold frame in Hfr. injection Hfr as _ _ _ _ _ _ F7 _ _.
    assert (Est5 : w_strtab w5 = w_strtab wr) by (rewrite E5, E4, Ew3; exact F7).
    split; [rewrite Ew, E7, E6; exact Est5|]. split.
    - eapply keeps_trans; [exact (keeps_scan sym_static _ _ (sz_scan _ _ _ _ _ Z))|]. eapply keeps_trans; [|rewrite Esw, Et; apply keeps_fold; intros t1 s1; destruct (relocatable w6 s1); [apply (keeps_patch sym_static)|apply keeps_refl]].
      eapply keeps_trans; [|exact (proj1 (keeps_special sym_static _ _ H6))]. rewrite Es5, Esy. apply (keeps_dynrel sym_static) in Hd as [N1 _]. exact N1.
    - intros k s Hs Hz. rewrite Esw, Et, rest_steps_fold in Hs. change (syt_symbols ?t !! k) with (syt_get t (RNamed k)) in Hs. rewrite steps_get in Hs.
      destruct (syt_get (w_symtab w6) (RNamed k)) as [s6|] eqn:Es; [|discriminate Hs]. cbn [fmap option_fmap option_map] in Hs. apply (inj Some) in Hs.
      assert (Z6 : st_shndx (s_sym s6) = 0).
      { assert (Q : Forall (fun x : step => x.1.1 <> 0) (steps_at (RNamed k) (rest_steps w6 r6))).
        { apply Forall_forall. intros x Hx. apply elem_of_list_filter in Hx as [_ Hx]. apply elem_of_concat in Hx as (q & Hx & Hq). apply elem_of_list_fmap in Hq as (b & -> & Hb). destruct (relocatable w6 b); [|by apply elem_of_nil in Hx].
          unfold sec_steps in Hx. apply elem_chunks_steps in Hx as (j & c & _ & _ & E). pose proof (proj1 (Forall_forall _ _) Hix b Hb) as Q. cbv beta in Q. rewrite E. change (u16 (sc_index b) <> 0). assert (L : N.of_nat (length rest) < 2 ^ 16) by lia. revert Q L. clear. unfold u16. intros Q L. rewrite N.mod_small by lia. lia. }
        revert Q Hs Hz. generalize (steps_at (RNamed k) (rest_steps w6 r6)). clear. intros q. revert s6. induction q as [|x q IH]; intros s6 Q Hs Hz; cbn [fold_left] in Hs; [by subst|]. inversion Q as [|? ? Qx Qq]; subst.
        specialize (IH _ Qq eq_refl Hz). unfold step_fn, patch_symbol in IH. cbn in IH. done. }
      destruct (special_exact _ _ H6) as (_ & Et6 & _). rewrite Et6 in Es.
      assert (Hsp : forall (q : list section) u, st_shndx ∘ s_sym <$> syt_get (fold_left (special_tab (w_strtab w5) (w_shstrtab w5) (skip_of w5)) q u) (RNamed k) = st_shndx ∘ s_sym <$> syt_get u (RNamed k)).
      { intros q. induction q as [|x q IH]; intros u; [done|]. cbn [fold_left]. rewrite IH. unfold special_tab, set_end. destruct (array_kind _ _ x); [|done]. destruct (name_ref _ _); [|done].
        rewrite get_modify. case_decide; [|done]. destruct (syt_get u (RNamed k)); done. }
      specialize (Hsp (w_sections w5) (w_symtab (set_got_symbol w5))). rewrite Es in Hsp. cbn [fmap option_fmap option_map] in Hsp.
      assert (Hgot : st_shndx ∘ s_sym <$> syt_get (w_symtab (set_got_symbol w5)) (RNamed k) = Some 0) by (rewrite <- Hsp; cbn; by rewrite Z6).
      assert (H5s : exists s5, syt_get (w_symtab w5) (RNamed k) = Some s5 /\ st_shndx (s_sym s5) = 0).
      { unfold set_got_symbol in Hgot. destruct (st_get (w_strtab w5) "_GLOBAL_OFFSET_TABLE_") as [e|].
        - destruct (got_plt_placed _ _ _ P5) as (gp & Hgp & Hnz); [apply elem_of_seq; unfold id_got_plt; lia|lia|]. rewrite Hgp in Hgot. cbn [w_symtab] in Hgot. 
          change (w_symtab (w5 <| w_symtab := ?x |>)) with x in Hgot. rewrite get_modify in Hgot. case_decide as Ek.
          + destruct (syt_get (w_symtab w5) (RNamed k)); [|discriminate Hgot]. cbn in Hgot. by injection Hgot.
          + destruct (syt_get (w_symtab w5) (RNamed k)) as [s5|]; [|discriminate Hgot]. cbn in Hgot. injection Hgot as Hgot. eauto.
        - destruct (syt_get (w_symtab w5) (RNamed k)) as [s5|]; [|discriminate Hgot]. cbn in Hgot. injection Hgot as Hgot. eauto. }
      destruct H5s as (s5 & Hs5 & Z5). rewrite Es5, Esy in Hs5. cbn in Hs5. apply core_dynrel in Hd. cbn [dr_symbols] in Hd.
      apply (f_equal (fun m : gmap N _ => m !! k)) in Hd. rewrite !lookup_fmap, Hs5 in Hd. destruct (syt_symbols (w_symtab ws) !! k) as [ss|] eqn:Ess; [|discriminate Hd]. cbn [fmap option_fmap option_map] in Hd. apply (inj Some) in Hd. unfold core in Hd. injection Hd as Hd _.
      pose proof (core_scan _ _ (sz_scan _ _ _ _ _ Z) (RNamed k)) as Hc. cbn [syt_get] in Hc. rewrite Ess in Hc. destruct (syt_symbols (w_symtab wr) !! k) as [s0|]; [|discriminate Hc]. cbn [fmap option_fmap option_map] in Hc. apply (inj Some) in Hc. injection Hc as Hc _.
      exists s0. split; [done|]. by rewrite <- Hc, <- Hd.
  Qed.
End computed.

(** * Names of the message *)
Lemma replay_strong w0 evs w : replays w0 evs w -> tidy_names w0 -> tidy_names w /\
  forall y, y ∈ omap sym_of evs -> typ (yi_sym y) <> 3 -> binding (yi_sym y) = 1 -> st_shndx (yi_sym y) <> 0 -> (5 <= climb_of w (yi_name y))%nat.
Proof.
  intros H T0. induction H as [w|w evs w1 v w2 H IH Hv]; [split; [exact T0|]; intros y Hy; by apply elem_of_nil in Hy|].
  destruct (IH T0) as [T1 K]. assert (G : tidy_names w2 /\ climbs w1 w2 /\ forall y, sym_of v = Some y -> typ (yi_sym y) <> 3 -> binding (yi_sym y) = 1 -> st_shndx (yi_sym y) <> 0 -> (5 <= climb_of w2 (yi_name y))%nat).
  { destruct v as [x sr|x q r|x r sr|path e sym name so r]; cbn [replay] in Hv.
    - destruct (section_own _ _ _ _ _ _ T1 Hv) as (A & B & _). split; [exact A|]. split; [exact B|]. intros y E. discriminate E.
    - destruct (add_symbol_own _ _ _ _ _ _ _ T1 Hv) as (A & B & _ & D). split; [exact A|]. split; [exact B|]. intros y [= <-]. exact D.
    - destruct (relocation_own _ _ _ _ _ T1 Hv) as (A & B & _). split; [exact A|]. split; [exact B|]. intros y E. discriminate E.
    - destruct Hv as (Hn & w3 & Ha & ->). destruct (add_dyn_up _ _ _ _ _ so _ _ (tidy_up _ "" T1) Hn Ha) as (A & B & _). split; [exact (up_tidy _ _ A)|]. split; [exact B|]. intros y E. discriminate E. }
  destruct G as (A & B & D). split; [exact A|]. intros y Hy. rewrite omap_app in Hy. apply elem_of_app in Hy as [Hy|Hy].
  - intros. pose proof (proj2 B (yi_name y)). specialize (K y Hy). assert (5 <= climb_of w1 (yi_name y))%nat by (by apply K). lia.
  - apply elem_of_list_omap in Hy as (v' & ->%elem_of_list_singleton & Hy). by apply D.
Qed.
Lemma names_from w us ns n : symbol_names_of w us = Ok ns -> n ∈ ns -> exists r, r ∈ us /\ symbol_name w r = Ok (Some n).
Proof.
  revert ns. induction us as [|r us IH]; intros ns H Hn; cbn [symbol_names_of] in H; [injection H as <-; by apply elem_of_nil in Hn|].
  apply bind_Ok in H as (m & Hm & H). apply bind_Ok in H as (ns' & Hns & H). destruct m as [m|]; injection H as <-.
  - apply elem_of_cons in Hn as [->|Hn]; [exists r; split; [by left|exact Hm]|]. destruct (IH _ Hns Hn) as (r' & Hr & E). exists r'. split; [by right|exact E].
  - destruct (IH _ Hns Hn) as (r' & Hr & E). exists r'. split; [by right|exact E].
Qed.
Lemma calm_names w us : calm (symbol_names_of w us).
Proof. induction us as [|u us IH]; cbn [symbol_names_of]; [discriminate|]. apply calm_bind; [apply calm_name|]. intros n. apply calm_bind; [exact IH|]. intros ns. discriminate. Qed.
Section undefined.
  Context (wd : world) (lo : lib_oracle) (l : linker) (fuel : nat) (ns : list string) (es : list (string * elf_obj)) (evs : list event).
  Context (V : valid_oracle (lo_writer lo)) (Hun : forall i k, lo_undef lo i k ≡ₚ k) (Hme : forall r p k, lo_members lo r p k ≡ₚ k).
  Context (E : link_writer wd lo l fuel = Err (EUndefined ns)) (L : loading wd lo l fuel es evs).
  Context (Few : forall w, resolve wd lo l fuel = Ok w -> N.of_nat (length (w_sections w)) <= 2 ^ 16).
  Lemma reported n : n ∈ ns -> exists wr k s, resolve wd lo l fuel = Ok wr /\ reads wd l es evs wr /\ RNamed k ∈ undefined_symbols (lo_writer lo) wr /\ symbol_name wr (RNamed k) = Ok (Some n) /\
    syt_symbols (w_symtab wr) !! k = Some s /\ st_shndx (s_sym s) = 0 /\ s_dynamic s = None /\ is_local s = false.
  Proof using V Hun Hme E L Few.
    intros Hn. unfold link_writer in E. destruct (resolve wd lo l fuel) as [wr|e|p] eqn:Er; [| |discriminate E]; cbn [mbind res_bind] in E; [|exfalso; eapply (calm_resolve wd lo l fuel); rewrite Er; exact E].
    destruct (compute_sections (lo_writer lo) wr) as [w|e|p] eqn:Ec; [| |discriminate E]; cbn [mbind res_bind] in E; [|exfalso; eapply (calm_compute (lo_writer lo) wr); rewrite Ec; exact E].
    destruct L as (wr' & Er' & R). rewrite Er in Er'. injection Er' as <-. unfold check_undefined in E.
    assert (Hns : symbol_names_of w (undefined_symbols (lo_writer lo) w) = Ok ns).
    { destruct (undefined_symbols (lo_writer lo) w) as [|u us]; [discriminate E|]. pose proof (calm_names w (u :: us) ns) as Hcalm. destruct (symbol_names_of w (u :: us)) as [ns'|e|p]; cbn [mbind res_bind] in E; [by injection E as ->| |discriminate E].
      exfalso. apply Hcalm. injection E as ->. reflexivity. }
    destruct (names_from _ _ _ _ Hns Hn) as (r & Hr & Hnm). unfold undefined_symbols in Hr. apply elem_of_list_fmap in Hr as (k & -> & Hk). apply elem_of_list_filter in Hk as [Hk _].
    destruct (syt_symbols (w_symtab w) !! k) as [s|] eqn:Es; [|done]. cbn [fmap option_fmap option_map default from_option id] in Hk. unfold is_unresolved in Hk. rewrite !andb_true_iff in Hk. destruct Hk as [[S1 S2] S3].
    apply N.eqb_eq in S1. apply bool_decide_eq_true in S3. destruct (resolve_winv _ _ _ _ _ Er) as (w0 & Hw0 & HI).
    assert (H7 : (7 <= length (w_sections wr))%nat).
    { destruct (writer_new_ref _ _ Hw0) as (Hsig & _). apply (f_equal length) in Hsig. rewrite !fmap_length in Hsig.
      pose proof (f_equal length (ref_rows (opt_hash_style (lk_options l)))) as Q. rewrite fmap_length, app_length in Q. change (length ref_common) with 14%nat in Q.
      destruct (lookup_lt_is_Some_2 (w_sections w0) 6) as [x Hx]; [lia|]. destruct (wi_fixed _ _ _ HI 6%nat x Hx) as (x' & Hx' & _). apply lookup_lt_Some in Hx'. lia. }
    destruct (computed (lo_writer lo) V wr w Ec (wi_ids _ _ _ HI) H7 (Few _ eq_refl)) as (Est & KA & KZ).
    destruct (KZ k s Es S1) as (s0 & Hs0 & Z0). destruct (keeps_lookup _ _ _ _ _ KA Es) as (s0' & Hs0' & Ks). rewrite Hs0 in Hs0'. injection Hs0' as <-. unfold sym_static in Ks. injection Ks as _ K2 _ _ _ _ _ K8.
    assert (Hnl : is_local s0 = false). { unfold is_local, is_global, is_weak, st_bind in *. rewrite <- K2. revert S2. clear. generalize (N.shiftr (st_info (s_sym s)) 4). intros b S2. destruct (N.eqb_spec b STB_LOCAL) as [->|]; [discriminate S2|reflexivity]. }
    exists wr, k, s0. split; [reflexivity|]. split; [exact R|]. split.
    - unfold undefined_symbols. apply elem_of_list_fmap. exists k. split; [done|]. apply elem_of_list_filter. split; [|rewrite (vo_sym _ V); unfold keys; apply elem_of_elements, elem_of_dom; by rewrite Hs0].
      rewrite Hs0. cbn [fmap option_fmap option_map default from_option id]. unfold is_unresolved, is_global, is_weak, st_bind in *. rewrite Z0, <- K2, <- K8, S3. rewrite S2. reflexivity.
    - split; [|split; [exact Hs0|]; split; [exact Z0|]; split; [congruence|exact Hnl]]. unfold symbol_name in *. rewrite Est in Hnm. exact Hnm.
  Qed.
  Lemma genuine n : n ∈ ns -> n <> "" -> (exists y, y ∈ all_syms es /\ yi_name y = n) /\
    (forall y, y ∈ all_syms es -> yi_name y = n -> typ (yi_sym y) <> 3 -> binding (yi_sym y) = 1 -> st_shndx (yi_sym y) = 0) /\
    (forall d, ~ library_lists wd l n d) /\
    (forall p ar, p ∈ lk_archives l -> wd_archive wd p = Some (Some ar) -> ar_member_of_symbol ar n = None).
  Proof using V Hun Hme E L Few.
    intros Hn Hne. destruct (reported n Hn) as (wr & k & s & Hr & R & Hk & Hnm & Hs & Z0 & D0 & L0). destruct (resolve_searched wd l lo Hme Hun fuel wr Hr) as [S1 S2].
    assert (Hat : st_name_at (w_strtab wr) k = Some n) by (unfold symbol_name in Hnm; apply bind_Ok in Hnm as (x & Hx & [= <-]); by apply unwrap_Ok in Hx).
    destruct (ld_run _ _ _ _ _ R) as (w0 & Hw0 & HR). destruct (replay_strong _ _ _ HR (up_tidy _ _ (new_up [] _ _ Hw0))) as [T K].
    destruct (undefined_open _ _ _ k n (tidy_up _ "" T) (vo_sym _ V) Hk Hat) as [[O1 _] _].
    assert (Hkn : is_Some (st_get (w_strtab wr) n)). { unfold st_name_at in Hat. apply name_in_Some_elem in Hat as [i Hi]. unfold st_get. rewrite (assoc_elem_Some _ _ _ (ok_nodup _ (proj1 T)) Hi). eauto. }
    split.
    { destruct (proj1 (yv_names _ _ (reads_yinv _ _ _ _ _ R) n) Hkn) as [->|(y & Hy & Hyn)]; [done|]. exists y. split; [|exact Hyn]. by rewrite <- (ld_syms _ _ _ _ _ R). }
    split.
    { intros y Hy Hyn Ht Hb. destruct (decide (st_shndx (yi_sym y) = 0)) as [|Hd]; [done|]. exfalso. rewrite <- (ld_syms _ _ _ _ _ R) in Hy. specialize (K y Hy Ht Hb Hd). rewrite Hyn in K. lia. }
    split.
    { intros d (path & e & Hl & Hd & Hdn). exact (S1 path e Hl _ _ _ Hk Hnm Hd Hdn). }
    intros p ar Hp Ha. exact (S2 p ar Hp Ha _ _ Hk Hnm).
  Qed.
End undefined.
