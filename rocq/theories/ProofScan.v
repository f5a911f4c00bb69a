(** Proofs about the relocation scan. *)
From Verif Require Export SpecScan ProofReloc.

Lemma mapM_st_inv {S A} (P : S -> Prop) (R : A -> A -> Prop) (f : S -> A -> res (S * A)) l s s' l' :
  (forall s a s' a', a ∈ l -> P s -> f s a = Ok (s', a') -> P s' /\ R a a') ->
  P s -> mapM_st f l s = Ok (s', l') -> P s' /\ Forall2 R l l'.
Proof.
  revert s l'; induction l as [|a l IH]; intros s l' Hstep HP H; simpl in H.
  - injection H as <- <-. by split.
  - apply bind_Ok in H as ([s1 a1] & H1 & H). apply bind_Ok in H as ([s2 l2] & H2 & [= <- <-]).
    destruct (Hstep s a s1 a1) as [HP1 HR]; [set_solver|done|done|].
    destruct (IH s1 l2) as [HP2 HF]; [|done|done|split; [done|by constructor]].
    intros. eapply Hstep; [set_solver|done|done].
Qed.

Lemma mapM_st_app {S A} (f : S -> A -> res (S * A)) l1 l2 s :
  mapM_st f (l1 ++ l2) s =
    ('(s, l1') ← mapM_st f l1 s; '(s, l2') ← mapM_st f l2 s; Ok (s, l1' ++ l2')).
Proof.
  revert s; induction l1 as [|a l1 IH]; intros s; simpl.
  - destruct (mapM_st f l2 s) as [[s1 l3]| |]; done.
  - destruct (f s a) as [[s1 a1]| |]; simpl; [|done|done]. rewrite IH.
    destruct (mapM_st f l1 s1) as [[s2 l3]| |]; simpl; [|done|done].
    destruct (mapM_st f l2 s2) as [[s3 l4]| |]; simpl; done.
Qed.

(** Scanning the sections is scanning the list of all relocations. *)
Lemma scan_chunks_flat cs st st' cs' : mapM_st scan_chunk cs st = Ok (st', cs') ->
  mapM_st scan_reloc (cs ≫= c_relocations) st = Ok (st', cs' ≫= c_relocations).
Proof.
  revert st cs'; induction cs as [|c cs IH]; intros st cs' H; simpl in H.
  - by injection H as <- <-.
  - apply bind_Ok in H as ([s1 c1] & H1 & H). apply bind_Ok in H as ([s2 l2] & H2 & [= <- <-]).
    unfold scan_chunk in H1. apply bind_Ok in H1 as ([s3 rels] & H3 & [= <- <-]).
    rewrite !bind_cons. rewrite mapM_st_app, H3. simpl. rewrite (IH _ _ H2). simpl. done.
Qed.
Lemma scan_sections_flat l st st' l' : mapM_st scan_section l st = Ok (st', l') ->
  mapM_st scan_reloc (all_relocs l) st = Ok (st', all_relocs l').
Proof.
  unfold all_relocs. revert st l'; induction l as [|s l IH]; intros st l' H; simpl in H.
  - by injection H as <- <-.
  - apply bind_Ok in H as ([s1 c1] & H1 & H). apply bind_Ok in H as ([s2 l2] & H2 & [= <- <-]).
    unfold scan_section in H1. apply bind_Ok in H1 as ([s3 cs] & H3 & [= <- <-]).
    rewrite !bind_cons. rewrite mapM_st_app. change (chunk_relocs s) with (sc_chunks s ≫= c_relocations). rewrite (scan_chunks_flat _ _ _ _ H3). simpl.
    rewrite (IH _ _ H2). simpl. done.
Qed.

(** * Symbols under [syt_modify] *)
Lemma syt_get_modify t r f r' : syt_get (syt_modify t r f) r' =
  if decide (r' = r) then f <$> syt_get t r else syt_get t r'.
Proof.
  destruct r as [n|s i], r' as [n'|s' i']; simpl.
  - destruct (decide _) as [[= ->]|Hne]; [by rewrite lookup_alter|]. rewrite lookup_alter_ne; [done|congruence].
  - done.
  - done.
  - destruct (decide (s' = s)) as [->|Hs].
    + rewrite lookup_alter. destruct (syt_section_syms t !! s) as [v|]; simpl; [|by case_decide].
      destruct (decide _) as [[= ->]|Hne]; [by rewrite list_lookup_alter|].
      rewrite list_lookup_alter_ne; [done|congruence].
    + rewrite lookup_alter_ne by done. rewrite decide_False by congruence. done.
Qed.

Definition same_dynamic (t t' : symtab) : Prop :=
  forall r, s_dynamic <$> syt_get t' r = s_dynamic <$> syt_get t r.
Lemma modify_same_dynamic t r f : (forall s, s_dynamic (f s) = s_dynamic s) -> same_dynamic t (syt_modify t r f).
Proof.
  intros Hf r'. rewrite syt_get_modify. destruct (decide _) as [->|]; [|done].
  destruct (syt_get t r); simpl; [by rewrite Hf|done].
Qed.

Lemma info_pc32 info : r_type info = 4 -> info - 4 + 2 = 2^32 * (info / 2^32) + 2.
Proof. unfold r_type, u32. intros H. lia. Qed.

Lemma needs_got_spec ty : needs_got ty = true <-> ty ∈ got_types.
Proof.
  unfold needs_got, got_types. rewrite !orb_true_iff, !N.eqb_eq, !elem_of_cons, elem_of_nil.
  unfold R_X86_64_GOT32, R_X86_64_GOTPCREL, R_X86_64_GOTOFF64, R_X86_64_GOTPC32, R_X86_64_GOTPCRELX,
    R_X86_64_REX_GOTPCRELX, R_X86_64_TLSGD, R_X86_64_GOTTPOFF. tauto.
Qed.

Lemma scanned_id t x : (r_type (r_info x.1) <> 4 \/ exists sym d, syt_get t x.2 = Some sym /\ s_dynamic sym = Some d) ->
  scanned t x x.
Proof.
  intros H. split; [done|]. split; [done|]. split; [done|]. rewrite decide_False; [done|].
  intros [H4 Hd]. destruct H as [?|(sym' & d & Hs' & Hd')]; [done|]. rewrite Hs' in Hd. simpl in Hd. congruence.
Qed.

Lemma scan_reloc_scanned t st x st' x' : same_dynamic t (sn_symbols st) ->
  scan_reloc st x = Ok (st', x') -> same_dynamic t (sn_symbols st') /\ scanned t x x'.
Proof.
  intros Hsd H. destruct x as [reloc r]. unfold scan_reloc in H.
  destruct (needs_got _) eqn:Hng.
  - assert (H4 : r_type (r_info reloc) <> 4).
    { intros H4. rewrite H4 in Hng. done. }
    apply bind_Ok in H as (sym & Hsym & H). destruct (s_in_got sym).
    + injection H as <- <-. split; [done|]. apply scanned_id. by left.
    + injection H as <- <-. split; [|apply scanned_id; by left].
      simpl. intros r'. rewrite <- Hsd. by apply modify_same_dynamic.
  - destruct (N.eqb_spec (r_type (r_info reloc)) R_X86_64_PLT32) as [H4|H4].
    + apply bind_Ok in H as (sym & Hsym & H). apply unwrap_Ok in Hsym.
      pose proof (Hsd r) as Hr. rewrite Hsym in Hr. simpl in Hr.
      destruct (syt_get t r) as [sym0|] eqn:Hs0; [|done]. simpl in Hr. injection Hr as Hr.
      destruct (s_dynamic sym) as [d|] eqn:Hd.
      * destruct (or_insert _ _ _) as [gp off]. destruct (plt_insert _ _) as [p idx]. injection H as <- <-.
        split; [simpl; intros r'; rewrite <- Hsd; by apply modify_same_dynamic|].
        apply scanned_id. right. simpl. exists sym0, d. by rewrite <- Hr.
      * injection H as <- <-. split; [done|]. split; [done|]. split; [done|]. split; [done|]. simpl.
        rewrite decide_True by (split; [done|]; rewrite Hs0; simpl; by rewrite <- Hr).
        rewrite H4. apply info_pc32. done.
    + injection H as <- <-. split; [done|]. apply scanned_id. by left.
Qed.

Lemma scan_relocations_scanned w w' : scan_relocations w = Ok w' ->
  same_dynamic (w_symtab w) (w_symtab w') /\
  Forall2 (fun s s' => s' = s <| sc_chunks := sc_chunks s' |> /\
    Forall2 (fun c c' => c' = c <| c_relocations := c_relocations c' |> /\
      Forall2 (scanned (w_symtab w)) (c_relocations c) (c_relocations c')) (sc_chunks s) (sc_chunks s'))
    (w_sections w) (w_sections w').
Proof.
  unfold scan_relocations. intros H. apply bind_Ok in H as ([st secs] & H & [= <-]). simpl.
  eapply (mapM_st_inv (fun st => same_dynamic (w_symtab w) (sn_symbols st))) in H; [exact H| |by intros r].
  intros st1 s st2 s' _ HP Hs. unfold scan_section in Hs. apply bind_Ok in Hs as ([st3 cs] & Hc & [= <- <-]).
  eapply (mapM_st_inv (fun st => same_dynamic (w_symtab w) (sn_symbols st))) in Hc; [| |done].
  - destruct Hc as [H1 H2]. split; [exact H1|]. split; [by destruct s|]. exact H2.
  - intros st4 c st5 c' _ HP4 Hch. unfold scan_chunk in Hch. apply bind_Ok in Hch as ([st6 rels] & Hr & [= <- <-]).
    eapply (mapM_st_inv (fun st => same_dynamic (w_symtab w) (sn_symbols st))) in Hr; [| |done].
    + destruct Hr as [H1 H2]. split; [exact H1|]. split; [by destruct c|]. exact H2.
    + intros. by eapply scan_reloc_scanned.
Qed.

(** * GOT slots *)
Lemma mapM_st_prefix {S A} (P : list A -> S -> Prop) (f : S -> A -> res (S * A)) l s s' l' :
  (forall pre a post s s' a', l = pre ++ a :: post -> P pre s -> f s a = Ok (s', a') -> P (pre ++ [a]) s') ->
  P [] s -> mapM_st f l s = Ok (s', l') -> P l s'.
Proof.
  intros Hstep H0 H.
  assert (Hgen : forall post pre s l', l = pre ++ post -> P pre s -> mapM_st f post s = Ok (s', l') -> P l s').
  { induction post as [|a post IH]; intros pre s1 l1 El HP Hm; simpl in Hm.
    - injection Hm as <- <-. rewrite app_nil_r in El. by subst.
    - apply bind_Ok in Hm as ([s2 a2] & H2 & Hm). apply bind_Ok in Hm as ([s3 l3] & H3 & [= <- <-]).
      apply (IH (pre ++ [a]) s2 l3); [by rewrite <- app_assoc|by eapply Hstep|done]. }
  by apply (Hgen l [] s l').
Qed.

Definition same_sym (t t' : symtab) : Prop := forall r, s_sym <$> syt_get t' r = s_sym <$> syt_get t r.
Lemma modify_same_sym t r f : (forall s, s_sym (f s) = s_sym s) -> same_sym t (syt_modify t r f).
Proof.
  intros Hf r'. rewrite syt_get_modify. destruct (decide _) as [->|]; [|done].
  destruct (syt_get t r); simpl; [by rewrite Hf|done].
Qed.
Lemma same_sym_trans t1 t2 t3 : same_sym t1 t2 -> same_sym t2 t3 -> same_sym t1 t3.
Proof. intros H1 H2 r. by rewrite H2, H1. Qed.
Lemma same_dynamic_trans t1 t2 t3 : same_dynamic t1 t2 -> same_dynamic t2 t3 -> same_dynamic t1 t3.
Proof. intros H1 H2 r. by rewrite H2, H1. Qed.

Lemma refers_app_1 l1 l2 ty r : refers l1 ty r -> refers (l1 ++ l2) ty r.
Proof. intros (rel & Hin & Ht). exists rel. split; [set_solver|done]. Qed.
Lemma refers_snoc l rel r0 ty r : refers (l ++ [(rel, r0)]) ty r ->
  refers l ty r \/ (r = r0 /\ ty = r_type (r_info rel)).
Proof.
  intros (rel' & Hin & Ht). apply elem_of_app in Hin as [Hin|Hin]; [left; by exists rel'|].
  apply elem_of_list_singleton in Hin as [= -> ->]. by right.
Qed.

Section got.
  Context (t0 : symtab) (L : list (Rela * symref)) (own : symref -> N).
  Hypothesis Hown : forall rel r, (rel, r) ∈ L -> r_type (r_info rel) ∈ got_types ->
    own r = got_bytes (r_type (r_info rel)).
  Hypothesis Htls : forall rel r sym, (rel, r) ∈ L -> r_type (r_info rel) = 19 -> syt_get t0 r = Some sym ->
    is_tls sym = true.

  Definition slot_ok (st : scan_state) (r : symref) (off : N) : Prop :=
    8 <= off /\ off mod 8 = 0 /\ off + own r <= 8 * sn_got_len st.
  Definition got_inv (l : list (Rela * symref)) (st : scan_state) : Prop :=
    same_sym t0 (sn_symbols st) /\ 1 <= sn_got_len st /\
    (forall r sym off, syt_get (sn_symbols st) r = Some sym -> s_in_got sym = Some off ->
       slot_ok st r off /\ exists ty, ty ∈ got_types /\ refers l ty r) /\
    (forall ty r, ty ∈ got_types -> refers l ty r ->
       exists sym off, syt_get (sn_symbols st) r = Some sym /\ s_in_got sym = Some off) /\
    (forall r1 r2 sym1 sym2 off1 off2, r1 <> r2 ->
       syt_get (sn_symbols st) r1 = Some sym1 -> s_in_got sym1 = Some off1 ->
       syt_get (sn_symbols st) r2 = Some sym2 -> s_in_got sym2 = Some off2 ->
       off1 + own r1 <= off2 \/ off2 + own r2 <= off1).

  (** Steps that leave the slots alone. *)
  Lemma got_inv_frame l st st' x : got_inv l st -> r_type (r_info x.1) ∉ got_types ->
    same_sym (sn_symbols st) (sn_symbols st') -> sn_got_len st' = sn_got_len st ->
    (forall r, s_in_got <$> syt_get (sn_symbols st') r = s_in_got <$> syt_get (sn_symbols st) r) ->
    got_inv (l ++ [x]) st'.
  Proof.
    intros (H1 & H2 & H3 & H4 & H5) Hx Hss Hlen Hig. destruct x as [rel r0]. simpl in Hx.
    assert (Hback : forall r sym off, syt_get (sn_symbols st') r = Some sym -> s_in_got sym = Some off ->
              exists sym0, syt_get (sn_symbols st) r = Some sym0 /\ s_in_got sym0 = Some off).
    { intros r sym off Hg Ho. pose proof (Hig r) as Hr. rewrite Hg in Hr. simpl in Hr.
      destruct (syt_get (sn_symbols st) r) as [sym0|]; [|done]. simpl in Hr. exists sym0. split; [done|]. congruence. }
    split; [by eapply same_sym_trans|]. split; [lia|]. split; [|split].
    - intros r sym off Hg Ho. destruct (Hback r sym off Hg Ho) as (sym0 & Hg0 & Ho0).
      destruct (H3 r sym0 off Hg0 Ho0) as [Hs (ty & Hty & Hrf)]. split.
      + unfold slot_ok in *. by rewrite Hlen.
      + exists ty. split; [done|]. by apply refers_app_1.
    - intros ty r Hty Hrf. apply refers_snoc in Hrf as [Hrf|[-> ->]]; [|done].
      destruct (H4 ty r Hty Hrf) as (sym & off & Hg & Ho). pose proof (Hig r) as Hr. rewrite Hg in Hr. simpl in Hr.
      destruct (syt_get (sn_symbols st') r) as [sym'|]; [|done]. simpl in Hr. exists sym', off. split; [done|]. congruence.
    - intros r1 r2 sym1 sym2 off1 off2 Hne Hg1 Ho1 Hg2 Ho2.
      destruct (Hback _ _ _ Hg1 Ho1) as (s1 & ? & ?). destruct (Hback _ _ _ Hg2 Ho2) as (s2 & ? & ?).
      by eapply (H5 r1 r2 s1 s2).
  Qed.

  Lemma got_inv_step pre x post st st' x' : L = pre ++ x :: post -> got_inv pre st ->
    scan_reloc st x = Ok (st', x') -> got_inv (pre ++ [x]) st'.
  Proof.
    intros HL HI H. destruct x as [rel r0]. unfold scan_reloc in H.
    assert (HinL : (rel, r0) ∈ L) by (rewrite HL; set_solver).
    destruct (needs_got _) eqn:Hng.
    - apply needs_got_spec in Hng. apply bind_Ok in H as (sym & Hsym & H). apply unwrap_Ok in Hsym.
      destruct HI as (H1 & H2 & H3 & H4 & H5).
      destruct (s_in_got sym) as [off0|] eqn:Ho.
      + injection H as <- <-. split; [done|]. split; [done|]. split; [|split; [|done]].
        * intros r s off Hg Hoff. destruct (H3 r s off Hg Hoff) as [Hs (ty & Hty & Hrf)].
          split; [done|]. exists ty. split; [done|]. by apply refers_app_1.
        * intros ty r Hty Hrf. apply refers_snoc in Hrf as [Hrf|[-> ->]]; [by eapply H4|eauto].
      + injection H as <- <-. cbn [sn_symbols sn_got_len set].
        set (n := if is_tls sym && (r_type (r_info rel) =? R_X86_64_TLSGD) then 2 else 1).
        assert (Hn : 8 * n = own r0).
        { rewrite (Hown rel r0 HinL Hng). unfold got_bytes, n.
          destruct (N.eqb_spec (r_type (r_info rel)) R_X86_64_TLSGD) as [Hty|Hty].
          - rewrite (decide_True (P := _ = 19)) by done.
            pose proof (H1 r0) as Hs. rewrite Hsym in Hs. destruct (syt_get t0 r0) as [s0|] eqn:Hs0; [|done].
            simpl in Hs. injection Hs as Hs. pose proof (Htls rel r0 s0 HinL Hty Hs0) as Ht.
            unfold is_tls in *. rewrite Hs, Ht. done.
          - rewrite andb_false_r. by rewrite decide_False. }
        assert (Hnew : forall r s off,
          syt_get (syt_modify (sn_symbols st) r0 (fun s => s <| s_in_got := Some (sn_got_len st * 8) |>)) r = Some s ->
          s_in_got s = Some off ->
          (r = r0 /\ off = sn_got_len st * 8) \/ (r <> r0 /\ syt_get (sn_symbols st) r = Some s)).
        { intros r s off. rewrite syt_get_modify. destruct (decide _) as [->|Hne]; [|by right].
          rewrite Hsym. intros [= <-]. cbn. intros [= <-]. by left. }
        split; [|split; [|split; [|split]]]; cbn [sn_symbols sn_got_len set].
        * eapply same_sym_trans; [exact H1|]. by apply modify_same_sym.
        * lia.
        * intros r s off Hg Hoff. cbn in Hg. destruct (Hnew r s off Hg Hoff) as [[-> ->]|[Hne Hg0]].
          -- split; [unfold slot_ok; cbn; lia|]. exists (r_type (r_info rel)). split; [done|].
             exists rel. split; [set_solver|done].
          -- destruct (H3 r s off Hg0 Hoff) as [(? & ? & ?) (ty & Hty & Hrf)]. split; [unfold slot_ok; cbn; lia|].
             exists ty. split; [done|]. by apply refers_app_1.
        * intros ty r Hty Hrf. cbn. rewrite syt_get_modify. destruct (decide _) as [->|Hne].
          -- rewrite Hsym. simpl. eauto.
          -- apply refers_snoc in Hrf as [Hrf|[-> ->]]; [by eapply H4|done].
        * intros r1 r2 sym1 sym2 off1 off2 Hne Hg1 Ho1 Hg2 Ho2. cbn in Hg1, Hg2.
          destruct (Hnew _ _ _ Hg1 Ho1) as [[-> ->]|[Hn1 Hg1']], (Hnew _ _ _ Hg2 Ho2) as [[-> ->]|[Hn2 Hg2']].
          -- done.
          -- destruct (H3 _ _ _ Hg2' Ho2) as [(? & ? & ?) _]. lia.
          -- destruct (H3 _ _ _ Hg1' Ho1) as [(? & ? & ?) _]. lia.
          -- by eapply (H5 r1 r2 sym1 sym2).
    - assert (Hnt : r_type (r_info rel) ∉ got_types) by (rewrite <- needs_got_spec, Hng; done).
      destruct (N.eqb_spec (r_type (r_info rel)) R_X86_64_PLT32) as [E4|E4].
      + apply bind_Ok in H as (sym & Hsym & H). destruct (s_dynamic sym) as [d|] eqn:Hd.
        * destruct (or_insert _ _ _) as [gp off]. destruct (plt_insert _ _) as [p idx]. injection H as <- <-.
          eapply got_inv_frame; [done|done| |done|].
          -- by apply modify_same_sym.
          -- intros r. cbn. rewrite syt_get_modify. destruct (decide _) as [->|]; [|done]. by destruct (syt_get _ r0).
        * injection H as <- <-. by eapply got_inv_frame.
      + injection H as <- <-. by eapply got_inv_frame.
  Qed.

  Lemma got_inv_all st st' l' : same_sym t0 (sn_symbols st) -> sn_got_len st = 1 ->
    (forall r sym, syt_get (sn_symbols st) r = Some sym -> s_in_got sym = None) ->
    mapM_st scan_reloc L st = Ok (st', l') -> got_inv L st'.
  Proof.
    intros H1 H2 H3 H. eapply (mapM_st_prefix got_inv); [|  |exact H].
    - intros. by eapply got_inv_step.
    - split; [done|]. split; [lia|]. split; [|split].
      + intros r sym off Hg Ho. rewrite (H3 r sym Hg) in Ho. done.
      + intros ty r _ (rel & Hin & _). set_solver.
      + intros r1 r2 sym1 sym2 off1 off2 _ Hg1 Ho1. rewrite (H3 r1 sym1 Hg1) in Ho1. done.
  Qed.
End got.

(** * PLT slots *)
Lemma rassoc_imap {B} (f : nat -> B) (ks : list symref) (r : symref) i : NoDup ks -> ks !! i = Some r ->
  rassoc r (imap (fun i r => (r, f i)) ks) = Some (f i).
Proof.
  revert f i; induction ks as [|k ks IH]; intros f i Hnd Hi; [done|].
  apply NoDup_cons in Hnd as [Hk Hnd]. rewrite imap_cons. simpl. destruct i as [|i]; simpl in Hi.
  - injection Hi as ->. by rewrite decide_True.
  - rewrite decide_False.
    + apply (IH (f ∘ S) i Hnd Hi).
    + intros <-. apply Hk. by eapply elem_of_list_lookup_2.
Qed.
Lemma rassoc_imap_None {B} (f : nat -> B) (ks : list symref) (r : symref) : r ∉ ks ->
  rassoc r (imap (fun i r => (r, f i)) ks) = None.
Proof.
  revert f; induction ks as [|k ks IH]; intros f Hn; [done|].
  rewrite imap_cons. simpl. rewrite decide_False by set_solver. apply (IH (f ∘ S)). set_solver.
Qed.
Lemma or_insert_imap {B} (f : nat -> B) (ks : list symref) (r : symref) : NoDup ks ->
  exists ks' i, or_insert (imap (fun i r => (r, f i)) ks) r (f (length ks)) = (imap (fun i r => (r, f i)) ks', f i) /\
    ks' !! i = Some r /\ NoDup ks' /\
    ((r ∈ ks /\ ks' = ks) \/ (r ∉ ks /\ ks' = ks ++ [r] /\ i = length ks)).
Proof.
  intros Hnd. unfold or_insert. destruct (decide (r ∈ ks)) as [Hin|Hin].
  - apply elem_of_list_lookup in Hin as Hi. destruct Hi as [i Hi]. exists ks, i.
    rewrite (rassoc_imap f ks r i Hnd Hi). split; [done|]. split; [done|]. split; [done|]. by left.
  - exists (ks ++ [r]), (length ks). rewrite rassoc_imap_None by done.
    split; [rewrite imap_app; simpl; by rewrite Nat.add_0_r|].
    split; [rewrite lookup_app_r by done; by rewrite Nat.sub_diag|].
    split; [|by right]. apply NoDup_app. split; [done|]. split; [set_solver|]. apply NoDup_singleton.
Qed.
Lemma or_insert_det (ks : list symref) r (ks1 : list symref) i1 (ks2 : list symref) i2 :
  NoDup ks -> NoDup ks1 -> ks1 !! i1 = Some r -> ks2 !! i2 = Some r ->
  ((r ∈ ks /\ ks1 = ks) \/ (r ∉ ks /\ ks1 = ks ++ [r] /\ i1 = length ks)) ->
  ((r ∈ ks /\ ks2 = ks) \/ (r ∉ ks /\ ks2 = ks ++ [r] /\ i2 = length ks)) -> ks1 = ks2 /\ i1 = i2.
Proof.
  intros Hnd Hnd1 H1 H2 D1 D2. destruct D1 as [[Hin ->]|(Hn & -> & ->)], D2 as [[Hin2 ->]|(Hn2 & -> & ->)]; try done.
  split; [done|]. eapply NoDup_lookup; eauto.
Qed.

Definition plt_of (ks : list symref) : plt := imap (fun i r => (r, N.of_nat i)) ks.
Definition got_plt_of (ks : list symref) : list (symref * N) := imap (fun i r => (r, (N.of_nat i + 3) * 8)) ks.

Definition plt_inv (t0 : symtab) (l : list (Rela * symref)) (st : scan_state) : Prop :=
  same_dynamic t0 (sn_symbols st) /\
  exists ks, NoDup ks /\ sn_plt st = plt_of ks /\ sn_got_plt st = got_plt_of ks /\
    (forall r, r ∈ ks <-> refers l 4 r /\ exists sym d, syt_get t0 r = Some sym /\ s_dynamic sym = Some d) /\
    (forall i r, ks !! i = Some r -> exists sym, syt_get (sn_symbols st) r = Some sym /\
       s_in_plt sym = Some (N.of_nat i) /\ s_in_got_plt sym = Some ((N.of_nat i + 3) * 8)) /\
    (forall r sym, r ∉ ks -> syt_get (sn_symbols st) r = Some sym -> s_in_plt sym = None /\ s_in_got_plt sym = None).

Lemma plt_inv_frame t0 l st st' x : plt_inv t0 l st ->
  (r_type (r_info x.1) <> 4 \/ exists sym, syt_get (sn_symbols st) x.2 = Some sym /\ s_dynamic sym = None) ->
  same_dynamic (sn_symbols st) (sn_symbols st') -> sn_plt st' = sn_plt st -> sn_got_plt st' = sn_got_plt st ->
  (forall r, (fun s => (s_in_plt s, s_in_got_plt s)) <$> syt_get (sn_symbols st') r =
             (fun s => (s_in_plt s, s_in_got_plt s)) <$> syt_get (sn_symbols st) r) ->
  plt_inv t0 (l ++ [x]) st'.
Proof.
  intros (H1 & ks & Hnd & Hp & Hg & Hk & Hin & Hout) Hx Hsd Ep Eg Hsame. destruct x as [rel r0]. simpl in Hx.
  split; [by eapply same_dynamic_trans|]. exists ks. split; [done|]. split; [congruence|]. split; [congruence|].
  split; [|split].
  - intros r. rewrite Hk. split; intros [Hr Hd]; (split; [|done]); [by apply refers_app_1|].
    apply refers_snoc in Hr as [Hr|[-> Ht]]; [done|]. destruct Hx as [Hx|(sym & Hs & Hn)]; [congruence|].
    destruct Hd as (sym0 & d & Hs0 & Hd0). pose proof (H1 r0) as Hr. rewrite Hs0, Hs in Hr. simpl in Hr. congruence.
  - intros i r Hi. destruct (Hin i r Hi) as (sym & Hs & Ha & Hb). pose proof (Hsame r) as Hr. rewrite Hs in Hr. simpl in Hr.
    destruct (syt_get (sn_symbols st') r) as [s'|]; [|done]. simpl in Hr. exists s'. split; [done|]. injection Hr as -> ->. done.
  - intros r sym Hn Hs. pose proof (Hsame r) as Hr. rewrite Hs in Hr. simpl in Hr.
    destruct (syt_get (sn_symbols st) r) as [s0|] eqn:E; [|done]. simpl in Hr. injection Hr as -> ->. by eapply Hout.
Qed.

Lemma plt_inv_step t0 pre x st st' x' : plt_inv t0 pre st -> scan_reloc st x = Ok (st', x') ->
  plt_inv t0 (pre ++ [x]) st'.
Proof.
  intros HI H. destruct x as [rel r0]. unfold scan_reloc in H.
  destruct (needs_got _) eqn:Hng.
  - assert (H4 : r_type (r_info rel) <> 4) by (intros H4; rewrite H4 in Hng; done).
    apply bind_Ok in H as (sym & Hsym & H). destruct (s_in_got sym).
    + injection H as <- <-. eapply plt_inv_frame; [done|by left|done|done|done|done].
    + injection H as <- <-. eapply plt_inv_frame; [done|by left| |done|done|].
      * by apply modify_same_dynamic.
      * intros r. cbn. rewrite syt_get_modify. destruct (decide _) as [->|]; [|done]. by destruct (syt_get _ r0).
  - destruct (N.eqb_spec (r_type (r_info rel)) R_X86_64_PLT32) as [H4|H4].
    + apply bind_Ok in H as (sym & Hsym & H). apply unwrap_Ok in Hsym.
      destruct (s_dynamic sym) as [d|] eqn:Hd.
      2:{ injection H as <- <-. eapply plt_inv_frame; [done|right; by eexists|done|done|done|done]. }
      destruct HI as (H1 & ks & Hnd & Hp & Hg & Hk & Hin & Hout).
      assert (Hd0 : exists sym0 d0, syt_get t0 r0 = Some sym0 /\ s_dynamic sym0 = Some d0).
      { pose proof (H1 r0) as Hr. rewrite Hsym in Hr. destruct (syt_get t0 r0) as [s0|] eqn:E; [|done].
        simpl in Hr. exists s0, d. split; [done|]. congruence. }
      rewrite Hg in H. unfold plt_insert in H. rewrite Hp in H.
      replace ((blen (got_plt_of ks) + 3) * 8) with ((N.of_nat (length ks) + 3) * 8) in H
        by (unfold blen, got_plt_of; by rewrite imap_length).
      replace (blen (plt_of ks)) with (N.of_nat (length ks)) in H by (unfold blen, plt_of; by rewrite imap_length).
      destruct (or_insert_imap (fun i => (N.of_nat i + 3) * 8) ks r0 Hnd) as (ks1 & i1 & E1 & L1 & N1 & D1).
      destruct (or_insert_imap (fun i => N.of_nat i) ks r0 Hnd) as (ks2 & i2 & E2 & L2 & N2 & D2).
      unfold got_plt_of in H. rewrite E1 in H. unfold plt_of in H. rewrite E2 in H. injection H as <- <-.
      destruct (or_insert_det ks r0 ks1 i1 ks2 i2 Hnd N1 L1 L2 D1 D2) as [<- <-].
      split; cbn [sn_symbols sn_plt sn_got_plt].
      * eapply same_dynamic_trans; [exact H1|]. by apply modify_same_dynamic.
      * exists ks1. split; [done|]. split; [done|]. split; [done|]. split; [|split].
        -- intros r. assert (Hmem : r ∈ ks1 <-> r ∈ ks \/ r = r0).
           { destruct D1 as [[? ->]|(? & -> & _)]; [|set_solver]. split; [by left|]. intros [?| ->]; done. }
           rewrite Hmem, Hk. split.
           ++ intros [[Hr Hdy]| ->]; [split; [by apply refers_app_1|done]|]. split; [|done].
              exists rel. split; [set_solver|done].
           ++ intros [Hr Hdy]. apply refers_snoc in Hr as [Hr|[-> _]]; [by left|by right].
        -- intros i r Hi. rewrite syt_get_modify. destruct (decide _) as [->|Hne].
           ++ assert (i = i1) as -> by (eapply NoDup_lookup; eauto). rewrite Hsym. simpl. eauto.
           ++ apply Hin. destruct D1 as [[? ->]|(? & -> & _)]; [done|].
              apply lookup_app_Some in Hi as [Hi|[_ Hi]]; [done|]. apply list_lookup_singleton_Some in Hi as [_ ?]. congruence.
        -- intros r s Hn. rewrite syt_get_modify. destruct (decide _) as [->|Hne].
           ++ destruct Hn. by eapply elem_of_list_lookup_2.
           ++ apply Hout. destruct D1 as [[? ->]|(? & -> & _)]; [done|set_solver].
    + injection H as <- <-. eapply plt_inv_frame; [done|by left|done|done|done|done].
Qed.

Lemma plt_inv_all t0 L st st' l' : same_dynamic t0 (sn_symbols st) -> sn_plt st = [] -> sn_got_plt st = [] ->
  (forall r sym, syt_get (sn_symbols st) r = Some sym -> s_in_plt sym = None /\ s_in_got_plt sym = None) ->
  mapM_st scan_reloc L st = Ok (st', l') -> plt_inv t0 L st'.
Proof.
  intros H1 H2 H3 H4 H. eapply (mapM_st_prefix (plt_inv t0)); [| |exact H].
  - intros. by eapply plt_inv_step.
  - split; [done|]. exists []. split; [constructor|]. split; [done|]. split; [done|]. split; [|split].
    + intros r. split; [set_solver|]. intros [(rel & Hin & _) _]. set_solver.
    + intros i r Hi. done.
    + intros r sym _. apply H4.
Qed.

(** * Adding relocations *)
Lemma get_upd_section id f secs id' : (forall s, sc_id (f s) = sc_id s) ->
  get_section id' (upd_section id f secs) = if decide (id' = id) then f <$> get_section id secs else get_section id' secs.
Proof.
  intros Hf. induction secs as [|s secs IH]; [by destruct (decide _)|].
  unfold upd_section in *. rewrite fmap_cons. cbn [get_section].
  destruct (Nat.eqb_spec (sc_id s) id) as [E|E].
  - rewrite Hf. destruct (Nat.eqb_spec (sc_id s) id') as [E'|E'].
    + rewrite decide_True by congruence. done.
    + rewrite IH. rewrite !decide_False by congruence. done.
  - destruct (Nat.eqb_spec (sc_id s) id') as [E'|E'].
    + rewrite decide_False by congruence. done.
    + rewrite IH. done.
Qed.

Lemma mod_chunk_Ok id i f secs secs' : mod_chunk id i f secs = Ok secs' ->
  exists s c, get_section id secs = Some s /\ sc_chunks s !! i = Some c /\
    secs' = upd_section id (fun s => s <| sc_chunks := alter f i (sc_chunks s) |>) secs.
Proof.
  unfold mod_chunk. intros H. inv_ok H. apply unwrap_Ok in E. apply index_Ok in E0. injection H as <-. eauto.
Qed.

Lemma mod_chunk_at id i f secs secs' sr : mod_chunk id i f secs = Ok secs' ->
  chunk_at secs' sr = if decide (sr = mkSref id i) then f <$> chunk_at secs sr else chunk_at secs sr.
Proof.
  intros H. apply mod_chunk_Ok in H as (s & c & Hs & Hc & ->). unfold chunk_at.
  rewrite get_upd_section by done. destruct sr as [id' j]. cbn [sr_section sr_chunk].
  destruct (decide (id' = id)) as [->|Hne].
  - rewrite Hs. cbn [fmap option_fmap option_map mbind option_bind]. cbn.
    destruct (decide _) as [[= ->]|Hne]; [by rewrite list_lookup_alter|]. rewrite list_lookup_alter_ne; [done|congruence].
  - by rewrite decide_False by congruence.
Qed.

Lemma add_relocation_Err w rel r sr :
  (exists e, add_relocation w rel r sr = Err e) <-> r_type (r_info rel) ∈ [12; 13; 14; 15].
Proof.
  unfold add_relocation. destruct (_ || _) eqn:E.
  - split; [|eauto]. intros _. rewrite !orb_true_iff, !N.eqb_eq in E.
    unfold R_X86_64_8, R_X86_64_16, R_X86_64_PC16, R_X86_64_PC8 in E. rewrite !elem_of_cons. tauto.
  - split.
    + intros [e H]. unfold mod_chunk in H. destruct (get_section _ _) as [s|]; [|done]. simpl in H.
      unfold index in H. destruct (sc_chunks s !! _); done.
    + intros Hin. rewrite !orb_false_iff, !N.eqb_neq in E.
      unfold R_X86_64_8, R_X86_64_16, R_X86_64_PC16, R_X86_64_PC8 in E. rewrite !elem_of_cons, elem_of_nil in Hin. tauto.
Qed.

Lemma add_relocation_Ok w rel r sr w' : add_relocation w rel r sr = Ok w' ->
  w' = w <| w_sections := w_sections w' |> /\
  forall sr', chunk_at (w_sections w') sr' =
    if decide (sr' = sr)
    then (fun c => c <| c_relocations := c_relocations c ++ [(rel, r)] |>) <$> chunk_at (w_sections w) sr
    else chunk_at (w_sections w) sr'.
Proof.
  unfold add_relocation. destruct (_ || _); [done|]. intros H. apply bind_Ok in H as (secs & H & [= <-]).
  split; [by destruct w|]. intros sr'. simpl. rewrite (mod_chunk_at _ _ _ _ _ sr' H).
  destruct sr as [id j]. simpl. destruct (decide _) as [->|]; done.
Qed.

(** * Statements about [scan_relocations] *)
Lemma scan_flat w w' : scan_relocations w = Ok w' -> exists st,
  mapM_st scan_reloc (all_relocs (w_sections w)) (mkScan (w_symtab w) (w_got_len w) (w_got_plt w) (w_plt w))
    = Ok (st, all_relocs (w_sections w')) /\
  w' = w <| w_sections := w_sections w' |> <| w_symtab := sn_symbols st |> <| w_got_len := sn_got_len st |>
         <| w_got_plt := sn_got_plt st |> <| w_plt := sn_plt st |>.
Proof.
  unfold scan_relocations. intros H. apply bind_Ok in H as ([st secs] & H & [= <-]). exists st.
  split; [exact (scan_sections_flat _ _ _ _ H)|done].
Qed.

Definition refers_b (L : list (Rela * symref)) (ty : N) (r : symref) : bool :=
  existsb (fun x => bool_decide (x.2 = r) && (r_type (r_info x.1) =? ty)) L.
Lemma refers_b_spec L ty r : refers_b L ty r = true <-> refers L ty r.
Proof.
  unfold refers_b, refers. rewrite existsb_exists. split.
  - intros ([rel r'] & Hin & H). apply elem_of_list_In in Hin. apply andb_true_iff in H as [H1 H2].
    apply bool_decide_eq_true in H1. apply N.eqb_eq in H2. simpl in *. subst. eauto.
  - intros (rel & Hin & Ht). exists (rel, r). split; [by apply elem_of_list_In|]. simpl.
    rewrite bool_decide_eq_true_2 by done. simpl. by apply N.eqb_eq.
Qed.

Lemma scan_got w w' : scan_relocations w = Ok w' -> no_slots w ->
  let L := all_relocs (w_sections w) in
  (forall r ty, ty ∈ got_types -> refers L ty r -> refers L 19 r -> ty = 19) ->
  (forall r sym, refers L 19 r -> syt_get (w_symtab w) r = Some sym -> is_tls sym = true) ->
  (forall r ty, ty ∈ got_types -> refers L ty r -> exists sym off,
     syt_get (w_symtab w') r = Some sym /\ s_in_got sym = Some off /\
     8 <= off /\ off mod 8 = 0 /\ off + got_bytes ty <= 8 * w_got_len w') /\
  (forall r1 r2 ty1 ty2 sym1 sym2 off1 off2, r1 <> r2 ->
     refers L ty1 r1 -> ty1 ∈ got_types -> syt_get (w_symtab w') r1 = Some sym1 -> s_in_got sym1 = Some off1 ->
     refers L ty2 r2 -> ty2 ∈ got_types -> syt_get (w_symtab w') r2 = Some sym2 -> s_in_got sym2 = Some off2 ->
     off1 + got_bytes ty1 <= off2 \/ off2 + got_bytes ty2 <= off1) /\
  (forall r sym, syt_get (w_symtab w') r = Some sym -> s_in_got sym <> None ->
     exists ty, ty ∈ got_types /\ refers L ty r).
Proof.
  intros H (Hl & _ & _ & Hno) L Hagree Htls. apply scan_flat in H as (st & H & ->). simpl.
  set (own r := if refers_b L 19 r then 16 else 8).
  assert (Hown : forall rel r, (rel, r) ∈ L -> r_type (r_info rel) ∈ got_types -> own r = got_bytes (r_type (r_info rel))).
  { intros rel r Hin Hty. unfold own, got_bytes. destruct (refers_b L 19 r) eqn:E.
    - apply refers_b_spec in E. rewrite decide_True; [done|]. eapply Hagree; [done| |done]. by exists rel.
    - rewrite decide_False; [done|]. intros E19. assert (refers L 19 r) as Hr by (by exists rel).
      apply refers_b_spec in Hr. congruence. }
  pose proof (got_inv_all (w_symtab w) L own Hown) as Hinv.
  destruct (Hinv) with (st := mkScan (w_symtab w) (w_got_len w) (w_got_plt w) (w_plt w)) (st' := st)
    (l' := all_relocs (w_sections w')) as (_ & _ & H3 & H4 & H5); [|done|done| |done|].
  { intros rel r sym Hin Hty Hg. eapply Htls; [|done]. by exists rel. }
  { intros r sym Hg. by apply (Hno r sym). }
  assert (Hown' : forall ty r, refers L ty r -> ty ∈ got_types -> own r = got_bytes ty).
  { intros ty r (rel & Hin & <-). by apply Hown. }
  split; [|split].
  - intros r ty Hty Hr. destruct (H4 ty r Hty Hr) as (sym & off & Hg & Ho). exists sym, off. split; [done|]. split; [done|].
    destruct (H3 r sym off Hg Ho) as [(? & ? & Hle) _]. rewrite (Hown' ty r Hr Hty) in Hle. done.
  - intros r1 r2 ty1 ty2 sym1 sym2 off1 off2 Hne R1 T1 G1 O1 R2 T2 G2 O2.
    rewrite <- (Hown' ty1 r1 R1 T1), <- (Hown' ty2 r2 R2 T2). by eapply (H5 r1 r2 sym1 sym2).
  - intros r sym Hg Ho. destruct (s_in_got sym) as [off|] eqn:E; [|done].
    destruct (H3 r sym off Hg E) as [_ Hr]. done.
Qed.

Lemma scan_plt w w' : scan_relocations w = Ok w' -> no_slots w ->
  exists ks, NoDup ks /\
    (forall r, r ∈ ks <-> refers (all_relocs (w_sections w)) 4 r /\
       exists sym d, syt_get (w_symtab w) r = Some sym /\ s_dynamic sym = Some d) /\
    (forall i r, ks !! i = Some r -> exists sym, syt_get (w_symtab w') r = Some sym /\
       s_in_plt sym = Some (N.of_nat i) /\ s_in_got_plt sym = Some ((N.of_nat i + 3) * 8)) /\
    (forall r sym, r ∉ ks -> syt_get (w_symtab w') r = Some sym -> s_in_plt sym = None /\ s_in_got_plt sym = None) /\
    w_plt w' = plt_of ks /\ w_got_plt w' = got_plt_of ks.
Proof.
  intros H (_ & Hgp & Hp & Hno). apply scan_flat in H as (st & H & ->). simpl.
  eapply (plt_inv_all (w_symtab w)) in H; [|done|done|done|].
  - destruct H as (_ & ks & H1 & H2 & H3 & H4 & H5 & H6). exists ks. done.
  - intros r sym Hg. by apply (Hno r sym).
Qed.

Lemma plt_data_length p : blen (plt_data p) = (blen p + 1) * 16.
Proof.
  unfold plt_data. rewrite blen_app. change (blen plt_header) with 16.
  assert (He : forall n, blen (concat (replicate n plt_entry)) = 16 * N.of_nat n).
  { induction n as [|n IH]; [done|]. simpl replicate. rewrite concat_cons, blen_app, IH. change (blen plt_entry) with 16. lia. }
  rewrite He. unfold blen. lia.
Qed.

(** Checking a property of all symbols of a concrete table. *)
Definition syt_forall (P : symref -> symbol -> bool) (t : symtab) : bool :=
  forallb (fun x => P (RNamed x.1) x.2) (map_to_list (syt_symbols t)) &&
  forallb (fun x => forallb (fun y => P (RSection x.1 y.1) y.2) (imap pair x.2)) (map_to_list (syt_section_syms t)).
Lemma syt_forall_ok P t : syt_forall P t = true -> forall r sym, syt_get t r = Some sym -> P r sym = true.
Proof.
  unfold syt_forall. rewrite andb_true_iff, !forallb_forall. intros [H1 H2] r sym Hg.
  destruct r as [n|i s]; cbn [syt_get] in Hg.
  - apply (H1 (n, sym)). apply elem_of_list_In. by apply elem_of_map_to_list.
  - destruct (syt_section_syms t !! i) as [l|] eqn:El; [|done]. cbn [mbind option_bind] in Hg.
    specialize (H2 (i, l)). rewrite forallb_forall in H2. apply (H2 ltac:(by apply elem_of_list_In, elem_of_map_to_list) (s, sym)).
    apply elem_of_list_In, elem_of_lookup_imap. eauto.
Qed.
Definition no_slots_b (w : writer) : bool :=
  (w_got_len w =? 1) && (match w_got_plt w, w_plt w with [], [] => true | _, _ => false end) &&
  syt_forall (fun _ s => match s_in_got s, s_in_plt s, s_in_got_plt s with None, None, None => true | _, _, _ => false end) (w_symtab w).
Lemma no_slots_ok w : no_slots_b w = true -> no_slots w.
Proof.
  unfold no_slots_b. rewrite !andb_true_iff. intros [[H1 H2] H3]. apply N.eqb_eq in H1.
  destruct (w_got_plt w) eqn:E1; [|done]. destruct (w_plt w) eqn:E2; [|done].
  split; [done|]. split; [done|]. split; [done|]. intros r sym Hg. pose proof (syt_forall_ok _ _ H3 r sym Hg) as H. simpl in H.
  destruct (s_in_got sym), (s_in_plt sym), (s_in_got_plt sym); done.
Qed.
