(** The symbol tables as they are when all input was read. *)
From Verif Require Export SpecGot ProofDyn.

(** Entry [n] of a symbol table with names [names]: kept under its own name,
    which is in the string table, with that name's hashes. *)
Definition entry_ok (names : strtab) (n : N) (s : symbol) : Prop :=
  st_name (s_sym s) = n /\ exists name i o, (name, (i, o)) ∈ stt_names names /\ n = u32 o /\
    (n = 0 \/ (s_hash s = elf_hash name /\ s_gnu_hash s = elf_gnu_hash name)).
Definition fresh (s : symbol) : Prop :=
  s_in_got s = None /\ s_in_plt s = None /\ s_in_got_plt s = None /\ s_relocation_offset s = None.
(** Symbols [n] of one table and [m] of the other have the same name. *)
Definition same_name (a b : strtab) (n m : N) : Prop :=
  exists name i o j p, (name, (i, o)) ∈ stt_names a /\ n = u32 o /\ (name, (j, p)) ∈ stt_names b /\ m = u32 p.

Definition small (w : writer) : Prop := stt_total_len (w_strtab w) < 2^32 /\ stt_total_len (w_dynstr w) < 2^32.
Record tinv (w : writer) : Prop := {
  ti_sym : forall n s, syt_symbols (w_symtab w) !! n = Some s -> entry_ok (w_strtab w) n s;
  ti_dyn : forall n s, syt_symbols (w_dynsym w) !! n = Some s -> entry_ok (w_dynstr w) n s;
  ti_fresh : forall r s, syt_get (w_symtab w) r = Some s -> fresh s;
  ti_sec : forall a b s, syt_get (w_symtab w) (RSection a b) = Some s -> s_dynamic s = None;
  ti_link : forall n s r, syt_symbols (w_symtab w) !! n = Some s -> s_dynamic s = Some r ->
    exists m d, r = RNamed m /\ syt_symbols (w_dynsym w) !! m = Some d /\ same_name (w_strtab w) (w_dynstr w) n m;
  ti_reach : names_reach w;
  ti_back : small w -> forall m d, syt_symbols (w_dynsym w) !! m = Some d -> d = symbol_new sym0 0 0 "" \/
    exists n s, syt_symbols (w_symtab w) !! n = Some s /\ s_dynamic s = Some (RNamed m) }.

Definition extends (a b : strtab) : Prop := exists tl, stt_names b = stt_names a ++ tl.
Lemma extends_refl a : extends a a.
Proof. exists []. by rewrite app_nil_r. Qed.
Lemma extends_elem a b x : extends a b -> x ∈ stt_names a -> x ∈ stt_names b.
Proof. intros [tl ->] H. apply elem_of_app. by left. Qed.
Lemma entry_ok_ext a b n s : extends a b -> entry_ok a n s -> entry_ok b n s.
Proof. intros E [H (nm & i & o & H1 & H2)]. split; [exact H|]. exists nm, i, o. split; [by apply (extends_elem a)|exact H2]. Qed.
Lemma same_name_ext a b a' b' n m : extends a a' -> extends b b' -> same_name a b n m -> same_name a' b' n m.
Proof. intros Ea Eb (nm & i & o & j & p & H1 & H2 & H3 & H4). exists nm, i, o, j, p. split; [by apply (extends_elem a)|]. split; [exact H2|]. split; [by apply (extends_elem b)|exact H4]. Qed.

(** Offsets below 2^32 and names determine each other. *)
Lemma entry_off_lt t n i o : st_ok t -> (n, (i, o)) ∈ stt_names t -> o < stt_total_len t.
Proof.
  intros Hok H. apply elem_of_list_lookup in H as [j Hj]. destruct (ok_entry t Hok _ _ _ _ Hj) as [_ Ho]. rewrite (ok_total t Hok).
  rewrite <- (take_drop_middle _ _ _ Hj). rewrite emit_app, blen_app, <- Ho. change (emit ((n, (i, o)) :: ?x)) with ((string_bytes n ++ [0]) ++ emit x).
  rewrite !blen_app. change (blen [0]) with 1. lia.
Qed.
Lemma name_inj t a i o b j p : st_ok t -> stt_total_len t < 2^32 -> (a, (i, o)) ∈ stt_names t -> (b, (j, p)) ∈ stt_names t -> u32 o = u32 p -> a = b.
Proof.
  intros Hok Ht Ha Hb E. pose proof (entry_off_lt _ _ _ _ Hok Ha). pose proof (entry_off_lt _ _ _ _ Hok Hb). unfold u32, wrap in E. rewrite !N.mod_small in E by lia. subst p.
  apply elem_of_list_lookup in Ha as [x Hx]. apply elem_of_list_lookup in Hb as [y Hy]. destruct (Nat.lt_trichotomy x y) as [Hl|[->|Hl]].
  - pose proof (ok_offsets_lt _ _ _ _ _ Hok Hx Hy Hl) as L. cbn in L. lia.
  - rewrite Hx in Hy. congruence.
  - pose proof (ok_offsets_lt _ _ _ _ _ Hok Hy Hx Hl) as L. cbn in L. lia.
Qed.
Lemma key_inj t a i o j p : st_ok t -> (a, (i, o)) ∈ stt_names t -> (a, (j, p)) ∈ stt_names t -> i = j /\ o = p.
Proof.
  intros Hok Ha Hb. pose proof (ok_nodup t Hok) as ND. apply elem_of_list_lookup in Ha as [x Hx]. apply elem_of_list_lookup in Hb as [y Hy].
  assert (E : x = y). { eapply NoDup_lookup; [exact ND| |]; rewrite list_lookup_fmap; [rewrite Hx|rewrite Hy]; reflexivity. }
  subst y. rewrite Hx in Hy. injection Hy as -> ->. done.
Qed.
Lemma same_name_fun a b n m m' : st_ok a -> st_ok b -> stt_total_len a < 2^32 -> same_name a b n m -> same_name a b n m' -> m = m'.
Proof.
  intros Ha Hb Ht (x & i & o & j & p & H1 & -> & H2 & ->) (x' & i' & o' & j' & p' & H1' & E & H2' & ->).
  pose proof (name_inj _ _ _ _ _ _ _ Ha Ht H1 H1' E) as <-. by destruct (key_inj _ _ _ _ _ _ Hb H2 H2') as [_ ->].
Qed.
Lemma same_name_inj a b n n' m : st_ok a -> st_ok b -> stt_total_len b < 2^32 -> same_name a b n m -> same_name a b n' m -> n = n'.
Proof.
  intros Ha Hb Ht (x & i & o & j & p & H1 & -> & H2 & ->) (x' & i' & o' & j' & p' & H1' & -> & H2' & E).
  pose proof (name_inj _ _ _ _ _ _ _ Hb Ht H2 H2' E) as <-. by destruct (key_inj _ _ _ _ _ _ Ha H1 H1') as [_ ->].
Qed.
Lemma extends_total a b : st_ok a -> st_ok b -> extends a b -> stt_total_len a <= stt_total_len b.
Proof. intros Ha Hb [tl E]. rewrite (ok_total a Ha), (ok_total b Hb), E, emit_app, blen_app. lia. Qed.

(** Adding one named symbol. *)
Lemma merge_keeps old new s : merge_symbol old new = Some s ->
  st_name (s_sym s) = st_name (s_sym old) /\ s_hash s = s_hash old /\ s_gnu_hash s = s_gnu_hash old /\ s_dynamic s = s_dynamic old /\ (fresh old -> fresh s).
Proof.
  unfold merge_symbol. destruct (_ && _); [discriminate|]. destruct (negb _); [intros [= <-]; tauto|]. destruct (_ =? _); intros [= <-]; tauto.
Qed.
Lemma add_sym_cases t e h g ref t' r : syt_add_symbol t e h g ref = inl (t', r) ->
  (typ e = 3 /\ syt_symbols t' = syt_symbols t /\ (exists a b, r = RSection a b) /\
     forall a b s, syt_get t' (RSection a b) = Some s -> s = symbol_new e h g ref \/ syt_get t (RSection a b) = Some s) \/
  (typ e <> 3 /\ r = RNamed (st_name e) /\ syt_section_syms t' = syt_section_syms t /\ exists s, syt_symbols t' = <[st_name e := s]> (syt_symbols t) /\
     ((syt_symbols t !! st_name e = None /\ s = symbol_new e h g ref) \/
      (exists old, syt_symbols t !! st_name e = Some old /\ merge_symbol old (symbol_new e h g ref) = Some s))).
Proof.
  unfold syt_add_symbol. cbv zeta. rewrite st_type_typ. change STT_SECTION with 3. destruct (typ e =? 3) eqn:Et.
  - intros [= <- <-]. apply N.eqb_eq in Et. left. split; [exact Et|]. split; [reflexivity|]. split; [eauto|]. intros a b s. cbn [syt_get syt_section_syms set]. unfold syt_get. cbn.
    destruct (decide (a = st_shndx e)) as [->|Hne].
    + rewrite lookup_insert. cbn [mbind option_bind]. intros Hb. apply lookup_app_Some in Hb as [Hb|[_ Hb]].
      * right. destruct (syt_section_syms t !! st_shndx e) as [v|]; [exact Hb|]. cbn in Hb. destruct b; discriminate Hb.
      * apply list_lookup_singleton_Some in Hb as [_ <-]. by left.
    + rewrite lookup_insert_ne by (intros E; by apply Hne). by right.
  - apply N.eqb_neq in Et. destruct (syt_symbols t !! st_name e) as [old|] eqn:Eo.
    + destruct (merge_symbol old _) as [s|] eqn:Em; [|discriminate]. intros [= <- <-]. right. split; [exact Et|]. split; [reflexivity|]. split; [reflexivity|]. exists s. split; [reflexivity|]. right. eauto.
    + destruct (is_local _); intros [= <- <-]; right; (split; [exact Et|]; split; [reflexivity|]; split; [reflexivity|]; eexists; split; [reflexivity|]; left; split; reflexivity).
Qed.

(** Adding a symbol under a name. *)
Lemma inner_table e sec name ref names t secs names' t' secs' r :
  add_symbol_inner e sec name ref names t secs = Ok (names', t', secs', r) -> exists en, st_get_or_create names name = (names', en) /\
  syt_add_symbol t (e <| st_name := u32 (en_offset en) |>) (elf_hash name) (elf_gnu_hash name) ref = inl (t', r).
Proof.
  unfold add_symbol_inner. cbv zeta. destruct (st_get_or_create names name) as [nm en]. destruct (syt_add_symbol _ _ _ _ _) as [[t1 r1]|] eqn:E; [|discriminate].
  intros H. exists en. assert (Hx : nm = names' /\ t1 = t' /\ r1 = r).
  { destruct sec; [|injection H as <- <- <- <-; done]. destruct (_ =? _); [injection H as <- <- <- <-; done|]. apply bind_Ok in H as (x & _ & [= <- <- <- <-]). done. }
  destruct Hx as (<- & <- & <-). split; [reflexivity|exact E].
Qed.
Lemma inner_entries e sec name ref names t secs names' t' secs' r :
  add_symbol_inner e sec name ref names t secs = Ok (names', t', secs', r) ->
  (forall n s, syt_symbols t !! n = Some s -> entry_ok names n s) -> forall n s, syt_symbols t' !! n = Some s -> entry_ok names' n s.
Proof.
  intros H H0 n s Hs. apply inner_table in H as (en & Hg & Ha). destruct (goc_keys _ _ _ _ Hg) as (Hx & _ & _ & i & Hi).
  assert (Hold : forall n s, syt_symbols t !! n = Some s -> entry_ok names' n s) by (intros n1 s1 H1; apply (entry_ok_ext names); [exact Hx|exact (H0 _ _ H1)]).
  apply add_sym_cases in Ha as [(_ & E & _)|(_ & _ & _ & s1 & E & Hc)]; rewrite E in Hs; [exact (Hold _ _ Hs)|].
  apply lookup_insert_Some in Hs as [[<- <-]|[_ Hs]]; [|exact (Hold _ _ Hs)].
  destruct Hc as [[_ ->]|(old & Ho & Hm)].
  - split; [reflexivity|]. exists name, i, (en_offset en). split; [exact Hi|]. split; [reflexivity|]. right. split; reflexivity.
  - apply merge_keeps in Hm as (M1 & M2 & M3 & _). destruct (Hold _ _ Ho) as [O1 (nm & j & o & O2 & O3 & O4)]. split; [rewrite M1; exact O1|].
    exists nm, j, o. split; [exact O2|]. split; [exact O3|]. rewrite M2, M3. exact O4.
Qed.
(** What happened to an entry. *)
Lemma inner_old e sec name ref names t secs names' t' secs' r n s' :
  add_symbol_inner e sec name ref names t secs = Ok (names', t', secs', r) -> syt_symbols t' !! n = Some s' ->
  (syt_symbols t !! n = None /\ fresh s' /\ s_dynamic s' = None /\ r = RNamed n) \/
  exists s, syt_symbols t !! n = Some s /\ s_dynamic s' = s_dynamic s /\ (fresh s -> fresh s') /\ (s' = s \/ r = RNamed n).
Proof.
  intros H Hs. apply inner_table in H as (en & Hg & Ha). apply add_sym_cases in Ha as [(_ & E & _)|(_ & Er & _ & s1 & E & Hc)]; rewrite E in Hs.
  { right. exists s'. split; [exact Hs|]. split; [reflexivity|]. split; [tauto|]. by left. }
  apply lookup_insert_Some in Hs as [[<- <-]|[_ Hs]]; [|right; exists s'; split; [exact Hs|]; split; [reflexivity|]; split; [tauto|]; by left].
  destruct Hc as [[Hn ->]|(old & Ho & Hm)]; [left; split; [exact Hn|]; split; [by split_and!|]; split; [reflexivity|exact Er]|].
  right. exists old. split; [exact Ho|]. apply merge_keeps in Hm as (_ & _ & _ & M4 & M5). split; [exact M4|]. split; [exact M5|]. right. exact Er.
Qed.
Lemma inner_mono e sec name ref names t secs names' t' secs' r n s :
  add_symbol_inner e sec name ref names t secs = Ok (names', t', secs', r) -> syt_symbols t !! n = Some s -> exists s', syt_symbols t' !! n = Some s' /\ s_dynamic s' = s_dynamic s.
Proof.
  intros H Hs. apply inner_table in H as (en & Hg & Ha). apply add_sym_cases in Ha as [(_ & E & _)|(_ & Er & _ & s1 & E & Hc)]; rewrite E; [eauto|].
  destruct (decide (n = st_name (e <| st_name := u32 (en_offset en) |>))) as [->|Hne]; [|rewrite lookup_insert_ne by (intros E'; by apply Hne); eauto].
  rewrite lookup_insert. exists s1. split; [reflexivity|]. destruct Hc as [[Hn _]|(old & Ho & Hm)]; [rewrite Hs in Hn; discriminate Hn|].
  rewrite Hs in Ho. injection Ho as <-. by apply merge_keeps in Hm as (_ & _ & _ & M4 & _).
Qed.
Lemma inner_section e sec name ref names t secs names' t' secs' r a b s' :
  add_symbol_inner e sec name ref names t secs = Ok (names', t', secs', r) -> syt_get t' (RSection a b) = Some s' ->
  (fresh s' /\ s_dynamic s' = None) \/ syt_get t (RSection a b) = Some s'.
Proof.
  intros H Hs. apply inner_table in H as (en & Hg & Ha). apply add_sym_cases in Ha as [(_ & _ & _ & Hc)|(_ & _ & E & _)].
  - destruct (Hc _ _ _ Hs) as [-> |?]; [left; by split_and!|by right].
  - right. unfold syt_get in *. rewrite E in Hs. exact Hs.
Qed.

Lemma tinv_frame w w' : w_symtab w' = w_symtab w -> w_dynsym w' = w_dynsym w -> w_strtab w' = w_strtab w -> extends (w_dynstr w) (w_dynstr w') -> names_reach w' -> tinv w -> tinv w'.
Proof.
  intros E1 E2 E3 E4 R' [A B C D F R G]. split; rewrite ?E1, ?E2, ?E3; try assumption.
  - intros n s H. apply (entry_ok_ext (w_dynstr w)); [exact E4|exact (B _ _ H)].
  - intros n s r H1 H2. destruct (F _ _ _ H1 H2) as (m & d & F1 & F2 & F3). exists m, d. split; [exact F1|]. split; [exact F2|]. eapply same_name_ext; [apply extends_refl|exact E4|exact F3].
  - intros [S1 S2] m d H. refine (G _ m d H). split; [rewrite <- E3; exact S1|]. pose proof (extends_total _ _ (st_reach_ok _ (proj2 R)) (st_reach_ok _ (proj2 R')) E4). lia.
Qed.
Lemma tinv_needed w so : tinv w -> tinv (add_needed w so).
Proof.
  intros H. unfold add_needed. destruct (st_get_or_create (w_dynstr w) so) as [nm en] eqn:E. destruct (goc_keys _ _ _ _ E) as (Hx & _).
  destruct (en_new en); (eapply tinv_frame; [..|exact H]; [reflexivity|reflexivity|reflexivity|exact Hx|split; [exact (proj1 (ti_reach _ H))|exact (goc_reach _ _ _ _ E (proj2 (ti_reach _ H)))]]).
Qed.

Section tables.
  Context (wd : world) (l : linker) (PL : plain_libs wd l).
  Lemma resolve_tables lo fuel w : resolve wd lo l fuel = Ok w -> tinv w.
  Proof using PL.
    apply (resolve_inv wd l tinv).
    - intros w1 e name sh data w' r H1 _ _ H. unfold add_section in H. destruct (st_get_or_create (w_shstrtab w1) name) as [nm en].
      cbv zeta in H. destruct (en_new en); [injection H as <- <-; eapply tinv_frame; [..|exact H1]; [reflexivity|reflexivity|reflexivity|apply extends_refl|exact (ti_reach _ H1)]|]. apply bind_Ok in H as (s & _ & H).
      destruct data; [injection H as <- <-; eapply tinv_frame; [..|exact H1]; [reflexivity|reflexivity|reflexivity|apply extends_refl|exact (ti_reach _ H1)]|].
      destruct (sc_chunks _); [discriminate H|injection H as <- <-; eapply tinv_frame; [..|exact H1]; [reflexivity|reflexivity|reflexivity|apply extends_refl|exact (ti_reach _ H1)]].
    - intros w1 e sym sr name ref w' r [A B C D F R G] _ _ _ H. unfold add_symbol in H. apply bind_Ok in H as ([[[nm sy] secs] r0] & Hi & [= <- <-]).
      assert (Hx : extends (w_strtab w1) nm) by (apply inner_table in Hi as (en & Hg & _); by destruct (goc_keys _ _ _ _ Hg) as (Hx & _)).
      split; cbn -[syt_get].
      + exact (inner_entries _ _ _ _ _ _ _ _ _ _ _ Hi A).
      + exact B.
      + intros [n|a b] s Hs.
        * destruct (inner_old _ _ _ _ _ _ _ _ _ _ _ _ _ Hi Hs) as [(_ & Hf & _)|(s0 & H0 & _ & Hf & _)]; [exact Hf|]. apply Hf. exact (C (RNamed n) _ H0).
        * destruct (inner_section _ _ _ _ _ _ _ _ _ _ _ _ _ _ Hi Hs) as [[Hf _]|H0]; [exact Hf|exact (C _ _ H0)].
      + intros a b s Hs. destruct (inner_section _ _ _ _ _ _ _ _ _ _ _ _ _ _ Hi Hs) as [[_ Hf]|H0]; [exact Hf|exact (D _ _ _ H0)].
      + intros n s r Hs Hd. destruct (inner_old _ _ _ _ _ _ _ _ _ _ _ _ _ Hi Hs) as [(_ & _ & Hn & _)|(s0 & H0 & Hn & _)]; [rewrite Hd in Hn; discriminate Hn|].
        rewrite Hd in Hn. destruct (F _ _ _ H0 (eq_sym Hn)) as (m & d & F1 & F2 & F3). exists m, d. split; [exact F1|]. split; [exact F2|]. eapply same_name_ext; [exact Hx|apply extends_refl|exact F3].
      + split; [exact (inner_reach _ _ _ _ _ _ _ _ _ _ _ Hi (proj1 R))|exact (proj2 R)].
      + intros [S1 S2] m d Hm. pose proof (inner_reach _ _ _ _ _ _ _ _ _ _ _ Hi (proj1 R)) as R1. cbn in S1, S2.
        pose proof (extends_total _ _ (st_reach_ok _ (proj1 R)) (st_reach_ok _ R1) Hx) as Hle.
        destruct (G ltac:(split; [lia|exact S2]) _ _ Hm) as [? |(n & s & H0 & H2)]; [by left|]. right. destruct (inner_mono _ _ _ _ _ _ _ _ _ _ _ _ _ Hi H0) as (s' & H3 & H4).
        exists n, s'. split; [exact H3|]. by rewrite H4.
    - intros w1 rel r sr w' H1 H. unfold add_relocation in H. cbv zeta in H. destruct (_ || _); [done|]. apply bind_Ok in H as (s & _ & [= <-]).
      eapply tinv_frame; [..|exact H1]; [reflexivity|reflexivity|reflexivity|apply extends_refl|exact (ti_reach _ H1)].
    - intros w1 path e sym name so w' r [A B C D F R G] Hlib Hsym Hname Hso [en0 Hst] H. apply tinv_needed. unfold add_dyn_symbol in H. cbv zeta in H. apply bind_Ok in H as ([[[nm sy] secs] r0] & Hi & H).
      change (w_strtab (w1 <| w_dynstr := nm |> <| w_dynsym := sy |> <| w_sections := secs |>)) with (w_strtab w1) in H. rewrite Hst in H.
      apply bind_Ok in H as (s1 & Hs1 & [= <- <-]). apply unwrap_Ok in Hs1.
      change (syt_get (w_symtab (w1 <| w_dynstr := nm |> <| w_dynsym := sy |> <| w_sections := secs |>)) (RNamed (u32 (en_offset en0)))) with (syt_symbols (w_symtab w1) !! u32 (en_offset en0)) in Hs1.
      set (n1 := u32 (en_offset en0)) in *.
      destruct (inner_table _ _ _ _ _ _ _ _ _ _ _ Hi) as (en & Hg & Ha). destruct (goc_keys _ _ _ _ Hg) as (Hx & _ & _ & i1 & Hi1).
      apply add_sym_cases in Ha as [(Ht & _)|(_ & Er & _ & s2 & Hsy & _)]; [exfalso; exact (PL _ _ _ Hlib Hsym Ht)|].
      set (m1 := u32 (en_offset en)) in *. change (r0 = RNamed m1) in Er. change (syt_symbols sy = <[m1:=s2]> (syt_symbols (w_dynsym w1))) in Hsy. clear Ht || idtac.
      assert (Hnm : same_name (w_strtab w1) nm n1 m1).
      { unfold st_get in Hst. destruct (ModelTables.assoc name (stt_names (w_strtab w1))) as [[i o]|] eqn:Eas; [|discriminate Hst]. injection Hst as <-. apply assoc_Some_elem in Eas.
        exists name, i, o, i1, (en_offset en). by split_and!. }
      assert (Hmono : forall m d, syt_symbols (w_dynsym w1) !! m = Some d -> exists d', syt_symbols sy !! m = Some d').
      { intros m d Hm. rewrite Hsy. destruct (decide (m = m1)) as [->|Hne]; [rewrite lookup_insert|rewrite lookup_insert_ne by (intros E'; by apply Hne)]; eauto. }
      split; cbn -[syt_get].
      + intros n s Hs. apply lookup_alter_Some in Hs as [(<- & s0 & H0 & ->)|(_ & H0)]; exact (A _ _ H0).
      + exact (inner_entries _ _ _ _ _ _ _ _ _ _ _ Hi B).
      + intros [n|a b] s Hs; [|exact (C (RSection a b) _ Hs)]. cbn in Hs. apply lookup_alter_Some in Hs as [(<- & s0 & H0 & ->)|(_ & H0)]; exact (C (RNamed _) _ H0).
      + exact D.
      + intros n s r Hs Hd. apply lookup_alter_Some in Hs as [(<- & s0 & H0 & ->)|(_ & H0)].
        * cbn in Hd. injection Hd as <-. exists m1, s2. split; [exact Er|]. split; [rewrite Hsy; apply lookup_insert|exact Hnm].
        * destruct (F _ _ _ H0 Hd) as (m & d & F1 & F2 & F3). destruct (Hmono _ _ F2) as [d' Hd']. exists m, d'. split; [exact F1|]. split; [exact Hd'|]. eapply same_name_ext; [apply extends_refl|exact Hx|exact F3].
      + split; [exact (proj1 R)|exact (inner_reach _ _ _ _ _ _ _ _ _ _ _ Hi (proj2 R))].
      + intros [S1 S2] m d Hm. pose proof (inner_reach _ _ _ _ _ _ _ _ _ _ _ Hi (proj2 R)) as R1. cbn in S1, S2. rewrite Hsy in Hm. destruct (decide (m = m1)) as [->|Hne].
        * right. exists n1, (s1 <| s_dynamic := Some r0 |>). split; [rewrite lookup_alter, Hs1; reflexivity|]. cbn. by rewrite Er.
        * rewrite lookup_insert_ne in Hm by (intros E'; by apply Hne). 
          pose proof (extends_total _ _ (st_reach_ok _ (proj2 R)) (st_reach_ok _ R1) Hx) as Hle.
          destruct (G ltac:(split; [exact S1|lia]) _ _ Hm) as [? |(n & s & H0 & H2)]; [by left|]. right.
          destruct (decide (n = n1)) as [->|Hn]; [|exists n, s; split; [by rewrite lookup_alter_ne by (intros E'; by apply Hn)|exact H2]].
          rewrite Hs1 in H0. injection H0 as <-. exfalso. destruct (F _ _ _ Hs1 H2) as (m' & d' & [= <-] & _ & F3). apply Hne.
          eapply (same_name_fun (w_strtab w1) nm n1); [exact (st_reach_ok _ (proj1 R))|exact (st_reach_ok _ R1)|exact S1| |exact Hnm].
          eapply same_name_ext; [apply extends_refl|exact Hx|exact F3].
    - intros w0 H0. pose proof (writer_new_strs _ _ H0) as R. revert R. Local Transparent writer_new. unfold writer_new in H0. apply bind_Ok in H0 as (n & Hn & H0).
      cbv zeta in H0. repeat lazymatch type of H0 with (let '(_, _) := ?x in _) = _ => destruct x eqn:? end. injection H0 as <-. Local Opaque writer_new. intros R.
      assert (Hz : forall t, st_ok t -> ("", (0, 0)) ∈ stt_names t) by (intros t [_ _ _ [rest ->]]; apply elem_of_list_here).
      assert (He : forall t n s, st_ok t -> syt_symbols (syt_new true) !! n = Some s -> entry_ok t n s).
      { intros t k sy Ht Hs. cbn in Hs; apply lookup_singleton_Some in Hs as [<- <-]. split; [reflexivity|]. exists "", 0, 0. split; [exact (Hz _ Ht)|]. split; [reflexivity|]. by left. }
      destruct R as [R1 R2]. split.
      + intros k sy Hs. apply He; [exact (st_reach_ok _ R1)|exact Hs].
      + intros k sy Hs. apply He; [exact (st_reach_ok _ R2)|exact Hs].
      + intros [k|a b] sy Hs; [cbn in Hs; apply lookup_singleton_Some in Hs as [<- <-]; by split_and!|discriminate Hs].
      + intros a b sy Hs. discriminate Hs.
      + intros k sy r Hs Hd. cbn in Hs; apply lookup_singleton_Some in Hs as [<- <-]. discriminate Hd.
      + by split.
      + intros _ k sy Hs. cbn in Hs; apply lookup_singleton_Some in Hs as [<- <-]. by left.
  Qed.
End tables.
