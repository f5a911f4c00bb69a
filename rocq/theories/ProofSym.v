(** Proofs about symbol tables. *)
From Verif Require Export SpecSym ProofElf.

Lemma st_bind_binding s : st_bind s = binding s.
Proof. unfold st_bind, binding. by rewrite N.shiftr_div_pow2. Qed.
Lemma st_type_typ s : st_type s = typ s.
Proof. unfold st_type, typ. change 0xf with (N.ones 4). by rewrite N.land_ones. Qed.

Lemma standard_cases s : standard s <->
  (binding s = 0 /\ rank s = 0) \/ (binding s = 2 /\ rank s = 1) \/ (binding s = 1 /\ rank s = 2).
Proof.
  unfold standard, rank, strength. split.
  - intros [r Hr]. destruct (N.eqb_spec (binding s) 0); [left; done|].
    destruct (N.eqb_spec (binding s) 2); [right; left; done|].
    destruct (N.eqb_spec (binding s) 1); [right; right; done|]. done.
  - intros [[-> _]|[[-> _]|[-> _]]]; simpl; eauto.
Qed.

Lemma higher_rank s1 s2 : standard (s_sym s1) -> standard (s_sym s2) ->
  higher_bind_than s1 s2 = (rank (s_sym s2) <=? rank (s_sym s1)).
Proof.
  unfold higher_bind_than. rewrite !st_bind_binding.
  intros H1%standard_cases H2%standard_cases.
  destruct H1 as [[-> ->]|[[-> ->]|[-> ->]]], H2 as [[-> ->]|[[-> ->]|[-> ->]]]; done.
Qed.

(** * One step *)
Definition new_of (e : sym_event) : symbol := symbol_new (ev_sym e) (ev_hash e) (ev_gnu e) (ev_file e).

Lemma is_global_iff s : is_global s = true <-> binding (s_sym s) = 1.
Proof. unfold is_global. rewrite st_bind_binding. apply N.eqb_eq. Qed.
Lemma is_local_iff s : is_local s = true <-> binding (s_sym s) = 0.
Proof. unfold is_local. rewrite st_bind_binding. apply N.eqb_eq. Qed.

Definition clash (old new : symbol) : Prop :=
  binding (s_sym old) = 1 /\ binding (s_sym new) = 1 /\ defined (s_sym old) /\ defined (s_sym new).

Lemma merge_None old new : merge_symbol old new = None <-> clash old new.
Proof.
  unfold merge_symbol, clash, defined.
  destruct (is_global old) eqn:H1, (is_global new) eqn:H2; simpl;
    repeat match goal with
    | H : is_global ?s = true |- _ => apply is_global_iff in H
    | H : is_global ?s = false |- _ => apply not_true_iff_false in H; rewrite is_global_iff in H
    end.
  2-4: split; [|naive_solver]; destruct (negb _); [done|]; by destruct (_ =? _).
  change SHN_UNDEF with 0.
  destruct (N.eqb_spec (st_shndx (s_sym old)) 0), (N.eqb_spec (st_shndx (s_sym new)) 0); simpl;
    (split; [|naive_solver]); try destruct (negb _); naive_solver.
Qed.

Lemma merge_Some old new s : merge_symbol old new = Some s ->
  standard (s_sym old) -> standard (s_sym new) ->
  s_hash s = s_hash old /\ s_gnu_hash s = s_gnu_hash old /\ s_reference s = s_reference old /\
  st_name (s_sym s) = st_name (s_sym old) /\
  ((rank (s_sym old) < rank (s_sym new) /\ def_of (s_sym s) = def_of (s_sym new)) \/
   (rank (s_sym new) <= rank (s_sym old) /\ defined (s_sym old) /\ s = old) \/
   (rank (s_sym new) <= rank (s_sym old) /\ ~ defined (s_sym old) /\
      s_sym s = s_sym old <| st_shndx := st_shndx (s_sym new) |>)).
Proof.
  intros Hm Hs1 Hs2. unfold merge_symbol in Hm.
  destruct (_ && _ && _ && _) in Hm; [done|].
  rewrite higher_rank in Hm by done.
  destruct (N.leb_spec (rank (s_sym new)) (rank (s_sym old))) as [Hle|Hlt]; simpl in Hm.
  - destruct (N.eqb_spec (st_shndx (s_sym old)) SHN_UNDEF) as [H0|H0]; injection Hm as <-; simpl.
    + repeat split. right; right. unfold defined. change SHN_UNDEF with 0 in H0. split; [done|].
      split; [by rewrite H0; intros []|]. done.
    + repeat split. right; left. done.
  - injection Hm as <-; simpl. repeat split. left. split; [done|]. by destruct (s_sym new).
Qed.

Lemma merge_name old new s : merge_symbol old new = Some s ->
  st_name (s_sym s) = st_name (s_sym old) /\ s_hash s = s_hash old /\ s_gnu_hash s = s_gnu_hash old /\
  s_reference s = s_reference old.
Proof.
  unfold merge_symbol. destruct (_ && _ && _ && _); [done|].
  destruct (negb _); [intros [= <-]; done|]. destruct (_ =? _); intros [= <-]; done.
Qed.

Lemma add_event_cases t e :
  (typ (ev_sym e) = 3 /\ exists t', add_event t e = Some t' /\ syt_symbols t' = syt_symbols t
     /\ syt_num_locals t' = syt_num_locals t) \/
  (typ (ev_sym e) <> 3 /\ syt_symbols t !! st_name (ev_sym e) = None /\
     exists t', add_event t e = Some t' /\
       syt_symbols t' = <[st_name (ev_sym e) := new_of e]> (syt_symbols t) /\
       syt_num_locals t' = syt_num_locals t + (if decide (binding (ev_sym e) = 0) then 1 else 0)) \/
  (typ (ev_sym e) <> 3 /\ exists old, syt_symbols t !! st_name (ev_sym e) = Some old /\
     ((clash old (new_of e) /\ add_event t e = None /\
         syt_add_symbol t (ev_sym e) (ev_hash e) (ev_gnu e) (ev_file e) = inr (s_reference old)) \/
      (~ clash old (new_of e) /\ exists s t', merge_symbol old (new_of e) = Some s /\ add_event t e = Some t' /\
         syt_symbols t' = <[st_name (ev_sym e) := s]> (syt_symbols t) /\
         syt_num_locals t' = syt_num_locals t))).
Proof.
  unfold add_event, syt_add_symbol. rewrite st_type_typ. change STT_SECTION with 3.
  destruct (N.eqb_spec (typ (ev_sym e)) 3) as [Ht|Ht].
  - left. split; [done|]. eexists; split; [done|]. split; done.
  - right. fold (new_of e). destruct (syt_symbols t !! st_name (ev_sym e)) as [old|] eqn:Hold.
    + right. split; [done|]. exists old. split; [done|].
      destruct (merge_symbol old (new_of e)) as [s|] eqn:Hm.
      * right. split; [rewrite <- merge_None; congruence|]. eexists _, _. split; [done|].
        split; [done|]. done.
      * left. split; [by apply merge_None|]. done.
    + left. split; [done|]. split; [done|]. eexists; split; [done|].
      assert (Hl : is_local (new_of e) = true <-> binding (ev_sym e) = 0) by apply is_local_iff.
      destruct (is_local (new_of e)) eqn:Hloc; simpl.
      * rewrite decide_True by tauto. done.
      * rewrite decide_False by (rewrite <- Hl; done). split; [done|]. lia.
Qed.

(** * C11 *)
Lemma add_refused_iff t e : add_event t e = None <->
  is_named e /\ exists old, syt_symbols t !! st_name (ev_sym e) = Some old /\
    binding (s_sym old) = 1 /\ binding (ev_sym e) = 1 /\ defined (s_sym old) /\ defined (ev_sym e).
Proof.
  unfold is_named. split.
  - intros H. destruct (add_event_cases t e) as [(_ & t' & H' & _)|[(_ & _ & t' & H' & _)|(Ht & old & Ho & [(Hc & _)|(_ & s & t' & _ & H' & _)])]];
      try congruence. split; [done|]. exists old. split; [done|]. exact Hc.
  - intros [Ht (old & Ho & Hc)].
    destruct (add_event_cases t e) as [(H' & _)|[(_ & H' & _)|(_ & old' & Ho' & [(_ & H' & _)|(Hn & _)])]];
      try congruence. exfalso. apply Hn. rewrite Ho in Ho'. injection Ho' as <-. exact Hc.
Qed.

Lemma add_refused_file t e p :
  syt_add_symbol t (ev_sym e) (ev_hash e) (ev_gnu e) (ev_file e) = inr p ->
  exists old, syt_symbols t !! st_name (ev_sym e) = Some old /\ p = s_reference old.
Proof.
  intros H. unfold syt_add_symbol in H. destruct (_ =? _); [done|].
  destruct (syt_symbols t !! st_name (ev_sym e)) as [old|]; [|done].
  destruct (merge_symbol _ _); [done|]. injection H as <-. eauto.
Qed.

(** * Histories, one name at a time *)

Definition merge_event (o : option symbol) (e : sym_event) : option symbol :=
  match o with
  | None => Some (new_of e)
  | Some old => merge_symbol old (new_of e)
  end.

Lemma add_event_at t e t' n : add_event t e = Some t' ->
  syt_symbols t' !! n =
    if decide (about n e) then merge_event (syt_symbols t !! n) e else syt_symbols t !! n.
Proof.
  intros H. destruct (add_event_cases t e) as [(Ht & t1 & H1 & Hs & _)|[(Ht & Hn & t1 & H1 & Hs & _)|(Ht & old & Ho & [(_ & H1 & _)|(_ & s & t1 & Hm & H1 & Hs & _)])]];
    rewrite H1 in H; simplify_eq.
  - rewrite Hs, decide_False; [done|]. by intros [? _].
  - rewrite Hs. destruct (decide (about n e)) as [[_ <-]|Ha].
    + rewrite lookup_insert, Hn. done.
    + rewrite lookup_insert_ne; [done|]. intros Heq. apply Ha. by split.
  - rewrite Hs. destruct (decide (about n e)) as [[_ <-]|Ha].
    + rewrite lookup_insert, Ho. simpl. by rewrite Hm.
    + rewrite lookup_insert_ne; [done|]. intros Heq. apply Ha. by split.
Qed.

Lemma add_event_dom t e t' n : add_event t e = Some t' ->
  is_Some (syt_symbols t' !! n) <-> is_Some (syt_symbols t !! n) \/ about n e.
Proof.
  intros H. pose proof (add_event_at t e t' n H) as Hat. rewrite Hat.
  destruct (decide (about n e)) as [Ha|Ha]; [|tauto].
  split; [tauto|]. intros _. destruct (syt_symbols t !! n) as [old|] eqn:Ho; simpl; [|eauto].
  destruct (add_event_cases t e) as [(Ht & _)|[(_ & Hn & _)|(Ht & old' & Ho' & [(_ & H1 & _)|(_ & s & t1 & Hm & _)])]].
  - by destruct Ha.
  - destruct Ha as [_ <-]. congruence.
  - congruence.
  - destruct Ha as [_ <-]. rewrite Ho in Ho'. injection Ho' as <-. rewrite Hm. eauto.
Qed.

Lemma add_events_snoc t l e : add_events t (l ++ [e]) = (t' ← add_events t l; add_event t' e).
Proof.
  revert t; induction l as [|x l IH]; intros t; simpl.
  - destruct (add_event t e); done.
  - destruct (add_event t x); simpl; auto.
Qed.

Lemma add_events_ind (P : list sym_event -> symtab -> Prop) t0 :
  P [] t0 ->
  (forall l t e t', add_events t0 l = Some t -> P l t -> add_event t e = Some t' -> P (l ++ [e]) t') ->
  forall l t, add_events t0 l = Some t -> P l t.
Proof.
  intros H0 Hstep l. induction l as [|e l IH] using rev_ind; intros t H.
  - simpl in H. by injection H as <-.
  - rewrite add_events_snoc in H. destruct (add_events t0 l) as [t1|] eqn:H1; [|done]. simpl in H.
    eapply Hstep; eauto.
Qed.

(** * Strength *)

Lemma foldr_max_app l1 l2 : foldr N.max 0 (l1 ++ l2) = N.max (foldr N.max 0 l1) (foldr N.max 0 l2).
Proof. induction l1; simpl; [lia|]. rewrite IHl1. lia. Qed.

Lemma rank_of_info s s' : st_info s = st_info s' -> rank s = rank s' /\ (standard s <-> standard s').
Proof. intros H. unfold rank, standard, binding. by rewrite H. Qed.

Lemma strongest_wins t0 n l t : syt_symbols t0 !! n = None ->
  Forall (fun e => about n e -> standard (ev_sym e)) l ->
  add_events t0 l = Some t ->
  match syt_symbols t !! n with
  | None => filter (about n) l = []
  | Some s => filter (about n) l <> [] /\ standard (s_sym s) /\ rank (s_sym s) = max_rank n l
  end.
Proof.
  intros Hn Hst H. revert Hst.
  apply (add_events_ind (fun l t => Forall (fun e => about n e -> standard (ev_sym e)) l ->
     match syt_symbols t !! n with
     | None => filter (about n) l = []
     | Some s => filter (about n) l <> [] /\ standard (s_sym s) /\ rank (s_sym s) = max_rank n l end) t0);
    [| |done].
  - intros _. by rewrite Hn.
  - clear -Hn. intros l t e t' Hl IH He Hst. apply Forall_app in Hst as [Hst1 Hst2].
    rewrite Forall_singleton in Hst2. specialize (IH Hst1).
    rewrite (add_event_at _ _ _ n He). unfold max_rank. rewrite filter_app, fmap_app, foldr_max_app.
    destruct (decide (about n e)) as [Ha|Ha].
    + rewrite (filter_cons_True (about n) e []) by done.
      destruct (syt_symbols t !! n) as [old|] eqn:Ho; simpl.
      * destruct IH as (Hne & Hs & Hr).
        destruct (merge_symbol old (new_of e)) as [s|] eqn:Hm.
        -- destruct (merge_Some _ _ _ Hm Hs (Hst2 Ha)) as (_ & _ & _ & _ & Hcase).
           split; [by destruct (filter _ l)|].
           fold (max_rank n l). rewrite <- Hr. simpl in Hcase.
           destruct Hcase as [(Hlt & Hd)|[(Hle & Hd & ->)|(Hle & Hd & Hs')]].
           ++ assert (Hi : st_info (s_sym s) = st_info (ev_sym e)) by (unfold def_of in Hd; congruence).
              apply rank_of_info in Hi as [Hi1 Hi2]. rewrite Hi1. split; [tauto|]. simpl. lia.
           ++ split; [done|]. simpl. lia.
           ++ assert (Hi : st_info (s_sym s) = st_info (s_sym old)) by (by rewrite Hs').
              apply rank_of_info in Hi as [Hi1 Hi2]. rewrite Hi1. split; [tauto|]. simpl. lia.
        -- (* refused: impossible *)
           exfalso. apply merge_None in Hm. destruct Ha as [Ht <-].
           assert (Hnone : add_event t e = None).
           { apply add_refused_iff. split; [done|]. exists old. split; [done|]. exact Hm. }
           congruence.
      * rewrite IH. simpl. split; [done|]. split; [by apply Hst2|]. lia.
    + rewrite (filter_cons_False (about n) e []) by done. rewrite filter_nil, app_nil_r. simpl.
      destruct (syt_symbols t !! n); [|done]. fold (max_rank n l). destruct IH as (? & ? & ->). split; [done|]. split; [done|]. lia.
Qed.

Lemma stronger_replaces t e t' old : add_event t e = Some t' -> is_named e ->
  syt_symbols t !! st_name (ev_sym e) = Some old ->
  standard (s_sym old) -> standard (ev_sym e) -> rank (s_sym old) < rank (ev_sym e) ->
  exists s, syt_symbols t' !! st_name (ev_sym e) = Some s /\ def_of (s_sym s) = def_of (ev_sym e)
            /\ st_name (s_sym s) = st_name (s_sym old).
Proof.
  intros H Hn Ho Hs1 Hs2 Hlt. pose proof (add_event_at _ _ _ (st_name (ev_sym e)) H) as Hat.
  rewrite decide_True in Hat by (by split). rewrite Ho in Hat. simpl in Hat.
  assert (Hsome : is_Some (syt_symbols t' !! st_name (ev_sym e))).
  { eapply add_event_dom; [done|]. left; eauto. }
  rewrite Hat in Hsome. destruct Hsome as [s Hm]. exists s. rewrite Hat.
  split; [done|]. destruct (merge_Some _ _ _ Hm Hs1 Hs2) as (_ & _ & _ & Hname & Hc). simpl in Hc.
  split; [|done]. destruct Hc as [[_ Hd]|[(Hle & _)|(Hle & _)]]; [done|lia|lia].
Qed.

Lemma weaker_keeps t e t' old : add_event t e = Some t' ->
  standard (s_sym old) -> standard (ev_sym e) ->
  syt_symbols t !! st_name (ev_sym e) = Some old -> defined (s_sym old) ->
  rank (ev_sym e) <= rank (s_sym old) ->
  syt_symbols t' = syt_symbols t.
Proof.
  intros H Hs1 Hs2 Ho Hd Hle. apply map_eq. intros n.
  rewrite (add_event_at _ _ _ n H). destruct (decide (about n e)) as [[Hn <-]|]; [|done].
  rewrite Ho. simpl.
  assert (Hsome : is_Some (syt_symbols t' !! st_name (ev_sym e))).
  { eapply add_event_dom; [done|]. left; eauto. }
  rewrite (add_event_at _ _ _ _ H), decide_True, Ho in Hsome by (by split). simpl in Hsome.
  destruct Hsome as [s Hm]. rewrite Hm. f_equal.
  destruct (merge_Some _ _ _ Hm Hs1 Hs2) as (_ & _ & _ & Hname & Hc). simpl in Hc.
  destruct Hc as [[Hlt Hd']|[(_ & _ & Heq)|(_ & Hnd & _)]]; [lia|done|done].
Qed.

Lemma references_keep t n s l t' : syt_symbols t !! n = Some s -> defined (s_sym s) -> standard (s_sym s) ->
  Forall (fun e => about n e -> ~ defined (ev_sym e) /\ standard (ev_sym e) /\ rank (ev_sym e) <= rank (s_sym s)) l ->
  add_events t l = Some t' -> syt_symbols t' !! n = Some s.
Proof.
  intros Hs Hd Hst. revert t Hs; induction l as [|e l IH]; intros t Hs Hall H; simpl in H.
  - by injection H as <-.
  - apply Forall_cons in Hall as [He Hall].
    destruct (add_event t e) as [t1|] eqn:H1; [|done]. simpl in H. apply (IH t1); [|done|done].
    destruct (decide (about n e)) as [Ha|Ha].
    + destruct (He Ha) as (Hnd & Hste & Hle). pose proof Ha as [Hn Hname].
      rewrite (weaker_keeps t e t1 s); [done|done|done|done| |done|done]. by rewrite Hname.
    + rewrite (add_event_at _ _ _ n H1), decide_False by done. done.
Qed.

Lemma reference_accepted t e : ~ defined (ev_sym e) -> is_Some (add_event t e).
Proof.
  intros Hnd. destruct (add_event t e) as [t'|] eqn:H; [eauto|]. exfalso.
  apply add_refused_iff in H as (_ & old & _ & _ & _ & _ & Hd). done.
Qed.


Lemma remembered_file t0 n l t : syt_symbols t0 !! n = None -> add_events t0 l = Some t ->
  s_reference <$> (syt_symbols t !! n) = first_file n l.
Proof.
  intros Hn. apply (add_events_ind (fun l t => s_reference <$> (syt_symbols t !! n) = first_file n l) t0).
  - by rewrite Hn.
  - intros l1 t1 e t' Hl IH He. unfold first_file in *. rewrite filter_app.
    rewrite (add_event_at _ _ _ n He). destruct (decide (about n e)) as [Ha|Ha].
    + rewrite (filter_cons_True (about n) e []) by done.
      destruct (syt_symbols t1 !! n) as [old|] eqn:Ho; simpl in *.
      * destruct (filter (about n) l1) as [|x xs] eqn:Hf; [done|]. simpl in *.
        rewrite <- IH.
        assert (Hsome : is_Some (syt_symbols t' !! n)).
        { eapply add_event_dom; [done|]. left; eauto. }
        rewrite (add_event_at _ _ _ _ He), decide_True, Ho in Hsome by done. simpl in Hsome.
        destruct Hsome as [s Hm]. rewrite Hm. simpl. f_equal. apply merge_name in Hm. tauto.
      * destruct (filter (about n) l1) as [|x xs]; done.
    + rewrite (filter_cons_False (about n) e []) by done. rewrite filter_nil, app_nil_r. done.
Qed.

Lemma strong_stays t0 n l t s : syt_symbols t0 !! n = Some s -> binding (s_sym s) = 1 -> defined (s_sym s) ->
  Forall (fun e => about n e -> standard (ev_sym e)) l ->
  add_events t0 l = Some t -> syt_symbols t !! n = Some s.
Proof.
  intros Hs Hb Hd. assert (Hst : standard (s_sym s)) by (apply standard_cases; right; right; unfold rank; by rewrite Hb).
  assert (Hr : rank (s_sym s) = 2) by (unfold rank; by rewrite Hb).
  revert t0 Hs; induction l as [|e l IH]; intros t0 Hs Hall H; simpl in H; [by injection H as <-|].
  apply Forall_cons in Hall as [He Hall].
  destruct (add_event t0 e) as [t1|] eqn:H1; [|done]. simpl in H. apply (IH t1); [|done|done].
  destruct (decide (about n e)) as [Ha|Ha].
  - pose proof Ha as [Hn Hname].
    rewrite (weaker_keeps t0 e t1 s); [done|done|done|by apply He|by rewrite Hname|done|].
    rewrite Hr. specialize (He Ha). apply standard_cases in He. lia.
  - rewrite (add_event_at _ _ _ n H1), decide_False by done. done.
Qed.

(** A strong definition always ends up as the surviving one. *)
Lemma strong_survives t0 l1 e l2 t : is_named e -> binding (ev_sym e) = 1 -> defined (ev_sym e) ->
  syt_symbols t0 !! st_name (ev_sym e) = None ->
  Forall (fun e' => about (st_name (ev_sym e)) e' -> standard (ev_sym e')) (l1 ++ e :: l2) ->
  add_events t0 (l1 ++ e :: l2) = Some t ->
  exists s, syt_symbols t !! st_name (ev_sym e) = Some s /\ binding (s_sym s) = 1 /\ defined (s_sym s).
Proof.
  intros Hn Hb Hd H0 Hall H. set (n := st_name (ev_sym e)) in *.
  replace (l1 ++ e :: l2) with ((l1 ++ [e]) ++ l2) in * by (by rewrite <- app_assoc).
  assert (Hsplit : exists t1, add_events t0 (l1 ++ [e]) = Some t1 /\ add_events t1 l2 = Some t).
  { clear -H. revert t0 H; induction (l1 ++ [e]) as [|x l IH]; intros t0 H; simpl in *.
    - eauto.
    - destruct (add_event t0 x); [|done]. simpl in *. eauto. }
  destruct Hsplit as (t1 & Ht1 & Ht2). apply Forall_app in Hall as [Hall1 Hall2].
  pose proof (strongest_wins t0 n _ _ H0 Hall1 Ht1) as Hw.
  rewrite add_events_snoc in Ht1. destruct (add_events t0 l1) as [tm|] eqn:Htm; [|done]. simpl in Ht1.
  assert (Hsome : is_Some (syt_symbols t1 !! n)).
  { eapply add_event_dom; [done|]. right. by split. }
  destruct Hsome as [s Hs]. rewrite Hs in Hw. destruct Hw as (_ & Hst & Hr).
  assert (Hr2 : rank (s_sym s) = 2).
  { assert (Hre : rank (ev_sym e) = 2) by (unfold rank; by rewrite Hb).
    rewrite Hr. unfold max_rank. rewrite filter_app, fmap_app, foldr_max_app.
    rewrite (filter_cons_True (about n) e []) by (by split). simpl. rewrite Hre.
    assert (Hle : forall l, foldr N.max 0 ((fun e => rank (ev_sym e)) <$> l) <= 2).
    { clear. induction l as [|x l IH]; simpl; [lia|].
      assert (Hx : rank (ev_sym x) <= 2).
      { unfold rank, strength. destruct (binding (ev_sym x) =? 0); [simpl; lia|].
        destruct (binding (ev_sym x) =? 2); [simpl; lia|]. destruct (binding (ev_sym x) =? 1); simpl; lia. }
      by apply N.max_lub. }
    specialize (Hle (filter (about n) l1)). lia. }
  assert (Hsb : binding (s_sym s) = 1) by (apply standard_cases in Hst; lia).
  assert (Hsd : defined (s_sym s)).
  { rewrite (add_event_at _ _ _ n Ht1), decide_True in Hs by (by split).
    destruct (syt_symbols tm !! n) as [old|] eqn:Ho; simpl in Hs; [|by injection Hs as <-].
    assert (Hste : standard (ev_sym e)) by (apply standard_cases; right; right; unfold rank; by rewrite Hb).
    assert (Hsto : standard (s_sym old)).
    { apply Forall_app in Hall1 as [Hall1 _]. pose proof (strongest_wins t0 n _ _ H0 Hall1 Htm) as Hw.
      rewrite Ho in Hw. tauto. }
    destruct (merge_Some _ _ _ Hs Hsto Hste) as (_ & _ & _ & _ & Hc). simpl in Hc.
    destruct Hc as [[_ Hdef]|[(_ & Hdo & ->)|(_ & _ & Hsy)]].
    - unfold defined, def_of in *. by injection Hdef as _ _ -> _ _.
    - done.
    - unfold defined. rewrite Hsy. done. }
  exists s. split; [|done]. by apply (strong_stays t1 n l2 t).
Qed.

Lemma two_strong_refused t0 l1 e1 l2 e2 l3 : is_named e1 -> is_named e2 ->
  st_name (ev_sym e1) = st_name (ev_sym e2) ->
  binding (ev_sym e1) = 1 -> binding (ev_sym e2) = 1 -> defined (ev_sym e1) -> defined (ev_sym e2) ->
  syt_symbols t0 !! st_name (ev_sym e1) = None ->
  Forall (fun e => standard (ev_sym e)) (l1 ++ e1 :: l2) ->
  add_events t0 (l1 ++ e1 :: l2 ++ e2 :: l3) = None.
Proof.
  intros Hn1 Hn2 Hname Hb1 Hb2 Hd1 Hd2 H0 Hst.
  assert (Happ : forall a b t, add_events t (a ++ b) = (t' ← add_events t a; add_events t' b)).
  { intros a b; induction a as [|x a IH]; intros t; [done|]. simpl. destruct (add_event t x); simpl; auto. }
  replace (l1 ++ e1 :: l2 ++ e2 :: l3) with ((l1 ++ e1 :: l2) ++ e2 :: l3) by (by rewrite <- app_assoc).
  rewrite Happ. destruct (add_events t0 (l1 ++ e1 :: l2)) as [t1|] eqn:H1; [|done]. simpl.
  destruct (strong_survives t0 l1 e1 l2 t1) as (s & Hs & Hb & Hd); [done|done|done|done| |done|].
  { eapply Forall_impl; [exact Hst|]. done. }
  replace (add_event t1 e2) with (@None symtab); [done|]. symmetry.
  apply add_refused_iff. split; [done|]. exists s. rewrite <- Hname. done.
Qed.

(** * Emission *)
Lemma sort_le_total a b : sort_symbols_le a b = true \/ sort_symbols_le b a = true.
Proof.
  unfold sort_symbols_le. destruct (is_local a), (is_local b); simpl; try (left; done) || (right; done).
  all: destruct (N.leb_spec (s_gnu_hash a) (s_gnu_hash b)); [by left|right; apply N.leb_le; lia].
Qed.
Lemma sort_le_trans a b c : sort_symbols_le a b = true -> sort_symbols_le b c = true -> sort_symbols_le a c = true.
Proof.
  unfold sort_symbols_le. destruct (is_local a), (is_local b), (is_local c); simpl; try done.
  all: rewrite !N.leb_le; lia.
Qed.

Lemma keys_perm m : keys m ≡ₚ (map_to_list m).*1.
Proof.
  unfold keys. apply NoDup_Permutation; [apply NoDup_elements|apply NoDup_fst_map_to_list|].
  intros n. rewrite elem_of_elements, elem_of_dom, elem_of_list_fmap. split.
  - intros [s Hs]. exists (n, s). split; [done|]. by apply elem_of_map_to_list.
  - intros ([n' s] & -> & Hin%elem_of_map_to_list). eauto.
Qed.

Lemma sorted_perm ord t : (forall l, ord l ≡ₚ l) -> syt_sorted ord t ≡ₚ (map_to_list (syt_symbols t)).*2.
Proof.
  intros Hord. unfold syt_sorted. rewrite sort_by_perm. unfold hm_values.
  rewrite (Hord _), keys_perm. clear.
  assert (H : forall l, (forall k v, (k, v) ∈ l -> syt_symbols t !! k = Some v) ->
     omap (syt_symbols t !!.) l.*1 = l.*2).
  { induction l as [|[k v] l IH]; intros Hl; [done|]. simpl.
    rewrite (Hl k v) by set_solver. f_equal. apply IH. intros k' v' Hin. apply Hl. set_solver. }
  rewrite H; [done|]. intros k v Hin. by apply elem_of_map_to_list.
Qed.

Lemma sorted_sorted ord t : StronglySorted (le_rel sort_symbols_le) (syt_sorted ord t).
Proof. apply sort_by_sorted; [apply sort_le_total|apply sort_le_trans]. Qed.

Lemma locals_first ord t : exists ls gs, syt_sorted ord t = ls ++ gs /\
  Forall (fun s => binding (s_sym s) = 0) ls /\ Forall (fun s => binding (s_sym s) <> 0) gs.
Proof.
  pose proof (sorted_sorted ord t) as Hs. induction Hs as [|s l Hs (ls & gs & -> & Hl & Hg) Hall].
  - exists [], []. repeat constructor.
  - destruct (is_local s) eqn:Hloc.
    + exists (s :: ls), gs. split; [done|]. split; [|done]. constructor; [by apply is_local_iff|done].
    + exists [], (s :: ls ++ gs). split; [done|]. split; [constructor|].
      assert (Hb : binding (s_sym s) <> 0) by (rewrite <- is_local_iff, Hloc; done).
      constructor; [done|]. apply List.Forall_forall. intros x Hx.
      rewrite List.Forall_forall in Hall. specialize (Hall x Hx). unfold le_rel, sort_symbols_le in Hall.
      rewrite Hloc in Hall. destruct (is_local x) eqn:Hx'; simpl in Hall; [done|].
      rewrite <- is_local_iff, Hx'. done.
Qed.

Lemma count_locals_perm l1 l2 : l1 ≡ₚ l2 -> count_locals l1 = count_locals l2.
Proof. intros H. unfold count_locals. by rewrite H. Qed.

Lemma locals_first_count ord t ls gs : syt_sorted ord t = ls ++ gs ->
  Forall (fun s => binding (s_sym s) = 0) ls -> Forall (fun s => binding (s_sym s) <> 0) gs ->
  length ls = count_locals (syt_sorted ord t).
Proof.
  intros -> Hl Hg. unfold count_locals. rewrite filter_app, app_length.
  assert (filter (fun s => binding (s_sym s) = 0) ls = ls) as ->.
  { induction Hl; [done|]. rewrite filter_cons_True by done. by rewrite IHHl. }
  assert (filter (fun s => binding (s_sym s) = 0) gs = []) as ->.
  { induction Hg; [done|]. rewrite filter_cons_False by done. done. }
  simpl. lia.
Qed.

(** The number of locals of the map. *)
Definition local_keys (m : gmap N symbol) : gmap N symbol := filter (fun p => binding (s_sym p.2) = 0) m.

Lemma count_locals_map m : count_locals (map_to_list m).*2 = size (local_keys m).
Proof.
  unfold count_locals, local_keys. induction m as [|n s m Hn IH] using map_ind; [done|].
  rewrite map_to_list_insert by done. simpl. rewrite filter_cons.
  destruct (decide (binding (s_sym s) = 0)) as [Hb|Hb].
  - rewrite map_filter_insert_True by done. rewrite map_size_insert_None.
    + cbn [length]. f_equal. exact IH.
    + apply map_filter_lookup_None. by left.
  - rewrite map_filter_insert_False by done. rewrite delete_notin by done. exact IH.
Qed.


Lemma first_binding_snoc n l e :
  first_binding n (l ++ [e]) =
    match first_binding n l with
    | Some b => Some b
    | None => if decide (about n e) then Some (binding (ev_sym e)) else None
    end.
Proof.
  unfold first_binding. destruct (decide (n = 0)); [done|]. rewrite filter_app.
  destruct (filter (about n) l) as [|x xs]; simpl; [|done].
  destruct (decide (about n e)).
  - by rewrite filter_cons_True.
  - by rewrite filter_cons_False.
Qed.

Lemma num_locals_firsts d l t : add_events (syt_new d) l = Some t ->
  exists F : gmap N N, (forall n, F !! n = first_binding n l) /\ (forall n, is_Some (F !! n) <-> is_Some (syt_symbols t !! n)) /\ syt_num_locals t = N.of_nat (size (filter (fun p => p.2 = 0) F)).
Proof.
  apply (add_events_ind (fun l t => exists F : gmap N N, (forall n, F !! n = first_binding n l) /\
    (forall n, is_Some (F !! n) <-> is_Some (syt_symbols t !! n)) /\
    syt_num_locals t = N.of_nat (size (filter (fun p => p.2 = 0) F))) (syt_new d)).
  - exists {[ 0 := 0 ]}. split; [|split].
    + intros n. unfold first_binding. destruct (decide (n = 0)) as [->|Hn]; [by rewrite lookup_singleton|]. by rewrite lookup_singleton_ne.
    + intros n. simpl. destruct (decide (n = 0)) as [->|Hn]; [rewrite !lookup_singleton; split; eauto|].
      rewrite !lookup_singleton_ne by done. split; intros [? ?]; done.
    + simpl. by vm_compute.
  - clear. intros l t e t' _ (F & HF & Hdom & Hnum) He.
    destruct (add_event_cases t e) as [(Ht & t1 & H1 & Hs & Hnl)|[(Ht & Hn & t1 & H1 & Hs & Hnl)|(Ht & old & Ho & [(_ & H1 & _)|(_ & s & t1 & Hm & H1 & Hs & Hnl)])]];
      rewrite H1 in He; simplify_eq.
    + exists F. split; [|split].
      * intros n. rewrite first_binding_snoc, <- HF. rewrite decide_False by (by intros [? _]). by destruct (F !! n).
      * intros n. by rewrite Hs.
      * by rewrite Hnl.
    + set (n0 := st_name (ev_sym e)) in *.
      assert (HFn : F !! n0 = None).
      { destruct (F !! n0) eqn:Hf; [|done]. destruct (proj1 (Hdom n0)) as [? Hx]; [eauto|]. congruence. }
      exists (<[n0 := binding (ev_sym e)]> F). split; [|split].
      * intros n. rewrite first_binding_snoc, <- HF. destruct (decide (n = n0)) as [->|Hne].
        -- rewrite lookup_insert, HFn. by rewrite decide_True by (by split).
        -- rewrite lookup_insert_ne by done. destruct (F !! n); [done|]. rewrite decide_False; [done|].
           intros [_ Hx]. by apply Hne.
      * intros n. rewrite Hs. destruct (decide (n = n0)) as [->|Hne].
        -- rewrite !lookup_insert. split; eauto.
        -- rewrite !lookup_insert_ne by done. apply Hdom.
      * rewrite Hnl, Hnum. destruct (decide (binding (ev_sym e) = 0)) as [Hb|Hb].
        -- rewrite map_filter_insert_True by done. rewrite map_size_insert_None; [lia|].
           apply map_filter_lookup_None. by left.
        -- rewrite map_filter_insert_False by done. rewrite delete_notin by done. lia.
    + exists F. split; [|split].
      * intros n. rewrite first_binding_snoc, <- HF. destruct (F !! n) eqn:Hf; [done|].
        rewrite decide_False; [done|]. intros [_ Hx]. subst n.
        destruct (proj2 (Hdom (st_name (ev_sym e)))) as [? Hy]; [eauto|]. congruence.
      * intros n. rewrite Hs. rewrite Hdom. destruct (decide (n = st_name (ev_sym e))) as [->|Hne].
        -- rewrite lookup_insert, Ho. split; eauto.
        -- by rewrite lookup_insert_ne.
      * by rewrite Hnl.
Qed.


Lemma max_rank_ge n l e : e ∈ l -> about n e -> rank (ev_sym e) <= max_rank n l.
Proof.
  intros Hin Ha. unfold max_rank. induction l as [|x l IH]; [set_solver|].
  rewrite filter_cons. apply elem_of_cons in Hin as [->|Hin].
  - rewrite decide_True by done. rewrite fmap_cons. cbn [foldr]. apply N.le_max_l.
  - specialize (IH Hin). destruct (decide (about n x)); [|exact IH]. rewrite fmap_cons. cbn [foldr].
    etrans; [exact IH|]. apply N.le_max_r.
Qed.
Lemma max_rank_0 n l : (forall e, e ∈ l -> about n e -> rank (ev_sym e) = 0) -> max_rank n l = 0.
Proof.
  unfold max_rank. induction l as [|x l IH]; intros H; [done|]. rewrite filter_cons.
  destruct (decide (about n x)) as [Ha|Ha].
  - rewrite fmap_cons. cbn [foldr]. rewrite IH by set_solver. rewrite (H x) by set_solver. done.
  - apply IH. set_solver.
Qed.
Lemma rank_0 s : standard s -> rank s = 0 <-> binding s = 0.
Proof. intros H%standard_cases. lia. Qed.

Lemma null_stays d l t : Forall (fun e => about 0 e -> binding (ev_sym e) = 0) l ->
  add_events (syt_new d) l = Some t ->
  exists s, syt_symbols t !! 0 = Some s /\ binding (s_sym s) = 0.
Proof.
  intros Hall H. revert Hall.
  apply (add_events_ind (fun l t => Forall (fun e => about 0 e -> binding (ev_sym e) = 0) l ->
    exists s, syt_symbols t !! 0 = Some s /\ binding (s_sym s) = 0) (syt_new d)); [| |done].
  - intros _. simpl. rewrite lookup_singleton. eexists. split; [done|]. by vm_compute.
  - clear. intros l t e t' _ IH He Hall. apply Forall_app in Hall as [H1 H2].
    rewrite Forall_singleton in H2. destruct (IH H1) as (s & Hs & Hb).
    rewrite (add_event_at _ _ _ 0 He). destruct (decide (about 0 e)) as [Ha|Ha]; [|eauto].
    rewrite Hs. simpl.
    assert (Hsome : is_Some (syt_symbols t' !! 0)) by (eapply add_event_dom; [done|]; left; eauto).
    rewrite (add_event_at _ _ _ 0 He), decide_True, Hs in Hsome by done. simpl in Hsome.
    destruct Hsome as [s' Hm]. rewrite Hm. exists s'. split; [done|].
    assert (Hst : standard (s_sym s)) by (apply standard_cases; left; split; [done|]; unfold rank; by rewrite Hb).
    assert (Hste : standard (ev_sym e)) by (apply standard_cases; left; split; [auto|]; unfold rank; by rewrite H2).
    destruct (merge_Some _ _ _ Hm Hst Hste) as (_ & _ & _ & _ & [[Hlt Hd]|[(_ & _ & ->)|(_ & _ & Hs')]]); simpl in *.
    + unfold rank in Hlt. rewrite Hb, (H2 Ha) in Hlt. lia.
    + done.
    + rewrite Hs'. done.
Qed.

Lemma local_iff d l t n : add_events (syt_new d) l = Some t -> Forall (fun e => standard (ev_sym e)) l ->
  Forall (fun e => about 0 e -> binding (ev_sym e) = 0) l ->
  forall s, syt_symbols t !! n = Some s ->
    (binding (s_sym s) = 0 -> first_binding n l = Some 0) /\ (no_override l -> first_binding n l = Some 0 -> binding (s_sym s) = 0).
Proof.
  intros H Hst H0 s Hs. destruct (decide (n = 0)) as [->|Hn].
  - destruct (null_stays d l t H0 H) as (s' & Hs' & Hb). rewrite Hs in Hs'. injection Hs' as <-.
    unfold first_binding. rewrite decide_True by done. done.
  - assert (Hnew : syt_symbols (syt_new d) !! n = None) by (simpl; by rewrite lookup_singleton_ne).
    pose proof (strongest_wins (syt_new d) n l t Hnew) as Hw.
    rewrite Hs in Hw. destruct Hw as (Hne & Hstd & Hr); [|done|].
    { eapply Forall_impl; [exact Hst|]. done. }
    rewrite Forall_forall in Hst.
    unfold first_binding at 1. rewrite decide_False by done. split.
    + intros Hb. destruct (filter (about n) l) as [|e es] eqn:Hf; [done|]. simpl. f_equal.
      assert (He : e ∈ filter (about n) l) by (rewrite Hf; set_solver).
      apply elem_of_list_filter in He as [Ha Hin].
      pose proof (max_rank_ge n l e Hin Ha) as Hge.
      apply rank_0 in Hb; [|done]. apply rank_0; [by apply Hst|]. lia.
    + intros Hno Hf. apply rank_0; [done|]. rewrite Hr. apply max_rank_0.
      intros e Hin Ha. apply rank_0; [by apply Hst|]. eapply Hno; eauto.
Qed.

Lemma num_locals_spec d l t : add_events (syt_new d) l = Some t -> Forall (fun e => standard (ev_sym e)) l ->
  Forall (fun e => about 0 e -> binding (ev_sym e) = 0) l ->
  N.of_nat (size (local_keys (syt_symbols t))) <= syt_num_locals t /\ (no_override l -> syt_num_locals t = N.of_nat (size (local_keys (syt_symbols t)))).
Proof.
  intros H Hst H0. destruct (num_locals_firsts d l t H) as (F & HF & Hdom & Hnum).
  rewrite Hnum. unfold local_keys.
  assert (Hsz : forall (A : Type) (m : gmap N A), size m = size (dom m)) by (intros; by rewrite size_dom).
  rewrite !Hsz. split.
  - assert (Hsub : dom (filter (fun p => binding (s_sym p.2) = 0) (syt_symbols t)) ⊆ dom (filter (fun p => p.2 = 0) F)).
    { intros n. rewrite !elem_of_dom. intros [s Hs]. apply map_filter_lookup_Some in Hs as [Hs Hb]. simpl in Hb.
      exists 0. apply map_filter_lookup_Some. split; [|done]. rewrite HF.
      by apply (local_iff d l t n H Hst H0 s Hs). }
    apply subseteq_size in Hsub. lia.
  - intros Hno. f_equal. f_equal. apply leibniz_equiv. intros n. rewrite !elem_of_dom. split.
    + intros [b Hb]. apply map_filter_lookup_Some in Hb as [Hb Hz]. simpl in Hz. subst b.
      destruct (proj1 (Hdom n)) as [s Hs]; [eauto|]. exists s. apply map_filter_lookup_Some. split; [done|].
      simpl. apply (local_iff d l t n H Hst H0 s Hs); [done|]. by rewrite <- HF.
    + intros [s Hs]. apply map_filter_lookup_Some in Hs as [Hs Hb]. simpl in Hb.
      exists 0. apply map_filter_lookup_Some. split; [|done]. rewrite HF.
      by apply (local_iff d l t n H Hst H0 s Hs).
Qed.

(** * Index stability *)
Lemma sort_insert_rel {A} (le : A -> A -> bool) (R : A -> A -> Prop) x x' l l' :
  (forall a a' b b', R a a' -> R b b' -> le a' b' = le a b) ->
  R x x' -> Forall2 R l l' -> Forall2 R (sort_insert le x l) (sort_insert le x' l').
Proof.
  intros Hle Hx Hl. induction Hl as [|y y' l l' Hy Hl IH]; simpl; [by repeat constructor|].
  rewrite (Hle x x' y y') by done. destruct (le x y); by repeat constructor.
Qed.
Lemma sort_by_rel {A} (le : A -> A -> bool) (R : A -> A -> Prop) l l' :
  (forall a a' b b', R a a' -> R b b' -> le a' b' = le a b) ->
  Forall2 R l l' -> Forall2 R (sort_by le l) (sort_by le l').
Proof. intros Hle. induction 1; simpl; [constructor|]. by apply sort_insert_rel. Qed.

Lemma keeps_sort a a' b b' : keeps a a' -> keeps b b' -> sort_symbols_le a' b' = sort_symbols_le a b.
Proof.
  intros (_ & Hi1 & _ & Hg1) (_ & Hi2 & _ & Hg2).
  unfold sort_symbols_le, is_local, st_bind. by rewrite Hi1, Hi2, Hg1, Hg2.
Qed.

Lemma patched_dom t t' : patched t t' -> dom (syt_symbols t) = dom (syt_symbols t').
Proof.
  intros H. apply leibniz_equiv. intros n. rewrite !elem_of_dom. specialize (H n).
  destruct (syt_symbols t !! n), (syt_symbols t' !! n); naive_solver.
Qed.

Lemma patched_sorted ord t t' : patched t t' ->
  Forall2 keeps (syt_sorted ord t) (syt_sorted ord t').
Proof.
  intros H. unfold syt_sorted. apply sort_by_rel; [apply keeps_sort|].
  unfold hm_values, keys. rewrite (patched_dom t t' H).
  induction (ord _) as [|n l IH]; simpl; [constructor|].
  specialize (H n). destruct (syt_symbols t !! n), (syt_symbols t' !! n); try done. by constructor.
Qed.

(** * What is written *)
Definition keyed (t : symtab) : Prop := forall n s, syt_symbols t !! n = Some s -> st_name (s_sym s) = n.
Definition all_fit (t : symtab) : Prop := forall n s, syt_symbols t !! n = Some s -> sym_fits (s_sym s).

Lemma keyed_new d : keyed (syt_new d).
Proof. intros n s. simpl. rewrite lookup_singleton_Some. intros [<- <-]. done. Qed.
Lemma all_fit_new d : all_fit (syt_new d).
Proof. intros n s. simpl. rewrite lookup_singleton_Some. intros [<- <-]. by vm_compute. Qed.

Lemma merge_fits old new s : merge_symbol old new = Some s -> sym_fits (s_sym old) -> sym_fits (s_sym new) -> sym_fits (s_sym s).
Proof.
  unfold merge_symbol, sym_fits. destruct (_ && _ && _ && _); [done|].
  destruct (negb _); [intros [= <-]; simpl; tauto|]. destruct (_ =? _); intros [= <-]; simpl; tauto.
Qed.

Lemma add_event_keyed t e t' : add_event t e = Some t' -> keyed t -> keyed t'.
Proof.
  intros H Hk n s Hs. rewrite (add_event_at _ _ _ n H) in Hs.
  destruct (decide (about n e)) as [[_ Hn]|]; [|by apply Hk].
  unfold merge_event in Hs. destruct (syt_symbols t !! n) as [old|] eqn:Ho.
  - apply merge_name in Hs as [-> _]. by apply Hk.
  - by injection Hs as <-.
Qed.
Lemma add_event_fits t e t' : add_event t e = Some t' -> sym_fits (ev_sym e) -> all_fit t -> all_fit t'.
Proof.
  intros H He Hk n s Hs. rewrite (add_event_at _ _ _ n H) in Hs.
  destruct (decide (about n e)) as [[_ Hn]|]; [|by eapply Hk].
  unfold merge_event in Hs. destruct (syt_symbols t !! n) as [old|] eqn:Ho.
  - eapply merge_fits; [done|by eapply Hk|done].
  - by injection Hs as <-.
Qed.
Lemma add_events_keyed t l t' : add_events t l = Some t' -> keyed t -> keyed t'.
Proof.
  revert t; induction l as [|e l IH]; intros t H Hk; simpl in H; [by injection H as <-|].
  destruct (add_event t e) as [t1|] eqn:H1; [|done]. simpl in H. eapply IH; [done|]. by eapply add_event_keyed.
Qed.
Lemma add_events_fits t l t' : add_events t l = Some t' -> Forall (fun e => sym_fits (ev_sym e)) l -> all_fit t -> all_fit t'.
Proof.
  revert t; induction l as [|e l IH]; intros t H Hf Hk; simpl in H; [by injection H as <-|].
  apply Forall_cons in Hf as [He Hl].
  destruct (add_event t e) as [t1|] eqn:H1; [|done]. simpl in H. eapply IH; [done|done|]. by eapply add_event_fits.
Qed.

Lemma elem_of_sorted ord t s : (forall l, ord l ≡ₚ l) ->
  s ∈ syt_sorted ord t <-> exists n, syt_symbols t !! n = Some s.
Proof.
  intros Hord. rewrite (sorted_perm ord t Hord). rewrite elem_of_list_fmap. split.
  - intros ([n s'] & -> & Hin%elem_of_map_to_list). eauto.
  - intros [n Hn]. exists (n, s). split; [done|]. by apply elem_of_map_to_list.
Qed.

Lemma sorted_names_nodup ord t : (forall l, ord l ≡ₚ l) -> keyed t ->
  NoDup ((fun s => st_name (s_sym s)) <$> syt_sorted ord t).
Proof.
  intros Hord Hk. rewrite (sorted_perm ord t Hord).
  assert (Heq : (fun s => st_name (s_sym s)) <$> (map_to_list (syt_symbols t)).*2 = (map_to_list (syt_symbols t)).*1).
  { rewrite <- list_fmap_compose. apply list_fmap_ext. intros i [n s] Hx. simpl.
    apply Hk. apply elem_of_map_to_list. by eapply elem_of_list_lookup_2. }
  rewrite Heq. apply NoDup_fst_map_to_list.
Qed.

Lemma sorted_length ord t : (forall l, ord l ≡ₚ l) -> length (syt_sorted ord t) = size (syt_symbols t).
Proof. intros Hord. rewrite (sorted_perm ord t Hord), fmap_length. done. Qed.

Lemma chunk_data_eq ord t : syt_chunk_data ord t = (s_sym <$> syt_sorted ord t) ≫= ser_sym.
Proof. unfold syt_chunk_data. induction (syt_sorted ord t) as [|s l IH]; [done|]. rewrite fmap_cons, !bind_cons. by rewrite IH. Qed.

Lemma chunk_data_len ord t : (forall l, ord l ≡ₚ l) -> blen (syt_chunk_data ord t) = 24 * N.of_nat (size (syt_symbols t)).
Proof.
  intros Hord. unfold syt_chunk_data, blen. rewrite (bind_length _ _ 24) by (intros; apply ser_sym_length).
  rewrite sorted_length by done. lia.
Qed.

Lemma rd_past n data off : (0 < n)%nat -> blen data <= off -> rd n data off = None.
Proof.
  intros Hn H. unfold rd. rewrite decide_False; [done|]. rewrite take_length, drop_length. unfold blen in H. lia.
Qed.

Lemma rd_chunk_sym ord t i : (forall l, ord l ≡ₚ l) -> all_fit t ->
  rd_sym (syt_chunk_data ord t) (24 * N.of_nat i) = s_sym <$> syt_sorted ord t !! i.
Proof.
  intros Hord Hf. destruct (syt_sorted ord t !! i) as [s|] eqn:Hi.
  - simpl. rewrite chunk_data_eq.
    pose proof (rd_nth_ser rd_sym ser_sym sym_fits 24 rd_sym_ser ser_sym_length (s_sym <$> syt_sorted ord t) [] [] i (s_sym s)) as H.
    rewrite app_nil_l, app_nil_r in H. rewrite blen_nil, N.add_0_l in H. apply H.
    + by rewrite list_lookup_fmap, Hi.
    + assert (Hin : s ∈ syt_sorted ord t) by (by eapply elem_of_list_lookup_2).
      apply elem_of_sorted in Hin as [n Hn]; [|done]. by eapply Hf.
  - simpl. unfold rd_sym. rewrite (rd_past 4); [done|lia|].
    rewrite chunk_data_len by done. apply lookup_ge_None in Hi. rewrite sorted_length in Hi by done. lia.
Qed.

Lemma emitted_once ord t n s : (forall l, ord l ≡ₚ l) -> keyed t -> all_fit t -> syt_symbols t !! n = Some s ->
  exists i : nat, rd_sym (syt_chunk_data ord t) (24 * N.of_nat i) = Some (s_sym s) /\
    forall (j : nat) s', rd_sym (syt_chunk_data ord t) (24 * N.of_nat j) = Some s' -> st_name s' = n -> j = i.
Proof.
  intros Hord Hk Hf Hn. assert (Hin : s ∈ syt_sorted ord t) by (apply elem_of_sorted; eauto).
  apply elem_of_list_lookup in Hin as [i Hi]. exists i. split.
  - rewrite rd_chunk_sym by done. by rewrite Hi.
  - intros j s' Hj Hname. rewrite rd_chunk_sym in Hj by done.
    destruct (syt_sorted ord t !! j) as [s2|] eqn:Hj2; [|done]. simpl in Hj. injection Hj as <-.
    pose proof (sorted_names_nodup ord t Hord Hk) as Hnd.
    eapply (NoDup_lookup _ j i); [exact Hnd| |].
    + rewrite list_lookup_fmap, Hj2. simpl. rewrite Hname. done.
    + rewrite list_lookup_fmap, Hi. simpl. by rewrite (Hk n s Hn).
Qed.

Lemma emitted_only ord t i s' : (forall l, ord l ≡ₚ l) -> keyed t -> all_fit t ->
  rd_sym (syt_chunk_data ord t) (24 * N.of_nat i) = Some s' ->
  exists s, syt_symbols t !! st_name s' = Some s /\ s_sym s = s'.
Proof.
  intros Hord Hk Hf H. rewrite rd_chunk_sym in H by done.
  destruct (syt_sorted ord t !! i) as [s|] eqn:Hi; [|done]. simpl in H. injection H as <-.
  assert (Hin : s ∈ syt_sorted ord t) by (by eapply elem_of_list_lookup_2).
  apply elem_of_sorted in Hin as [n Hn]; [|done]. exists s. split; [|done]. by rewrite (Hk n s Hn).
Qed.

Lemma add_events_app a b t : add_events t (a ++ b) = (t' ← add_events t a; add_events t' b).
Proof. revert t; induction a as [|x a IH]; intros t; [done|]. simpl. destruct (add_event t x); simpl; auto. Qed.

Lemma add_events_dom d l t n : add_events (syt_new d) l = Some t ->
  is_Some (syt_symbols t !! n) <-> n = 0 \/ exists e, e ∈ l /\ about n e.
Proof.
  apply (add_events_ind (fun l t => is_Some (syt_symbols t !! n) <-> n = 0 \/ exists e, e ∈ l /\ about n e) (syt_new d)).
  - simpl. destruct (decide (n = 0)) as [->|Hn].
    + rewrite lookup_singleton. split; eauto.
    + rewrite lookup_singleton_ne by done. split; [by intros [? ?]|]. intros [?|(e & He & _)]; [done|]. set_solver.
  - intros l1 t1 e t2 _ IH He. rewrite (add_event_dom _ _ _ n He), IH. set_solver.
Qed.

Lemma other_names t n s l t' : syt_symbols t !! n = Some s ->
  Forall (fun e => ~ about n e) l -> add_events t l = Some t' -> syt_symbols t' !! n = Some s.
Proof.
  revert t; induction l as [|e l IH]; intros t Hs Hall H; simpl in H; [by injection H as <-|].
  apply Forall_cons in Hall as [He Hall]. destruct (add_event t e) as [t1|] eqn:H1; [|done]. simpl in H.
  apply (IH t1); [|done|done]. rewrite (add_event_at _ _ _ n H1), decide_False by done. done.
Qed.

Lemma ref_then_def t0 r e t1 t2 : is_named r -> is_named e ->
  st_name (ev_sym r) = st_name (ev_sym e) -> syt_symbols t0 !! st_name (ev_sym e) = None ->
  ~ defined (ev_sym r) -> defined (ev_sym e) -> standard (ev_sym r) -> standard (ev_sym e) ->
  add_event t0 r = Some t1 -> add_event t1 e = Some t2 ->
  exists s, syt_symbols t2 !! st_name (ev_sym e) = Some s /\ st_shndx (s_sym s) = st_shndx (ev_sym e) /\
    (rank (ev_sym r) < rank (ev_sym e) -> def_of (s_sym s) = def_of (ev_sym e)) /\
    (rank (ev_sym e) <= rank (ev_sym r) ->
       st_value (s_sym s) = st_value (ev_sym r) /\ st_size (s_sym s) = st_size (ev_sym r) /\
       st_info (s_sym s) = st_info (ev_sym r)).
Proof.
  intros Hnr Hne Hname H0 Hr He Hsr Hse H1 H2.
  assert (Ho : syt_symbols t1 !! st_name (ev_sym e) = Some (new_of r)).
  { rewrite (add_event_at _ _ _ _ H1), decide_True by (by split). by rewrite H0. }
  assert (Hsome : is_Some (syt_symbols t2 !! st_name (ev_sym e))) by (eapply add_event_dom; [done|]; left; eauto).
  pose proof (add_event_at _ _ _ (st_name (ev_sym e)) H2) as Hat.
  rewrite decide_True, Ho in Hat by (by split). rewrite Hat in *. simpl in *. destruct Hsome as [s Hm].
  exists s. split; [done|]. destruct (merge_Some _ _ _ Hm Hsr Hse) as (_ & _ & _ & _ & Hc). simpl in Hc.
  destruct Hc as [[Hlt Hd]|[(_ & Hd & _)|(Hle & _ & Hs)]]; [| done |].
  - split; [unfold def_of in Hd; congruence|]. split; [done|]. lia.
  - rewrite Hs. split; [done|]. split; [lia|]. done.
Qed.

(** A table whose defined symbols are global, when only strong definitions occur. *)
Lemma refused_only_two_strong d l :
  add_events (syt_new d) l = None ->
  Forall (fun e => defined (ev_sym e) -> binding (ev_sym e) = 1) l ->
  exists l1 e1 l2 e2 l3, l = l1 ++ e1 :: l2 ++ e2 :: l3 /\ is_named e1 /\ is_named e2 /\
    st_name (ev_sym e1) = st_name (ev_sym e2) /\ binding (ev_sym e1) = 1 /\ binding (ev_sym e2) = 1 /\
    defined (ev_sym e1) /\ defined (ev_sym e2).
Proof.
  intros H Hdef.
  (* the refused event *)
  assert (Hex : exists la e lb t, l = la ++ e :: lb /\ add_events (syt_new d) la = Some t /\ add_event t e = None).
  { clear -H. revert H. generalize (syt_new d). induction l as [|x l IH]; intros t H; [done|]. simpl in H.
    destruct (add_event t x) as [t1|] eqn:H1; simpl in H.
    - destruct (IH t1 H) as (la & e & lb & t' & -> & Ha & He). exists (x :: la), e, lb, t'.
      split; [done|]. split; [|done]. simpl. by rewrite H1.
    - exists [], x, l, t. done. }
  destruct Hex as (la & e & lb & t & -> & Hla & He).
  apply add_refused_iff in He as (Hne & old & Ho & Hb1 & Hb2 & Hd1 & Hd2).
  apply Forall_app in Hdef as [Hdef _].
  (* the old one is defined, so some event defined it *)
  assert (Hsrc : forall n s, syt_symbols t !! n = Some s -> defined (s_sym s) -> exists e', e' ∈ la /\ about n e' /\ defined (ev_sym e')).
  { clear -Hla. revert Hla.
    apply (add_events_ind (fun la t => forall n s, syt_symbols t !! n = Some s -> defined (s_sym s) ->
      exists e', e' ∈ la /\ about n e' /\ defined (ev_sym e')) (syt_new d)).
    - intros n s. simpl. rewrite lookup_singleton_Some. intros [_ <-] Hd. by destruct Hd.
    - intros l t1 x t2 _ IH Hx n s Hs Hd. rewrite (add_event_at _ _ _ n Hx) in Hs.
      destruct (decide (about n x)) as [Ha|Ha].
      + destruct (decide (st_shndx (ev_sym x) = 0)) as [Hz|Hz]; [|exists x; set_solver].
        unfold merge_event in Hs. destruct (syt_symbols t1 !! n) as [old|] eqn:Ho.
        * assert (Hdo : defined (s_sym old)).
          { unfold merge_symbol in Hs. destruct (_ && _ && _ && _); [done|].
            destruct (negb _); [injection Hs as <-; by destruct Hd|].
            destruct (N.eqb_spec (st_shndx (s_sym old)) SHN_UNDEF); [injection Hs as <-; by destruct Hd|].
            by injection Hs as <-. }
          destruct (IH n old Ho Hdo) as (e' & Hin & ?). exists e'. set_solver.
        * injection Hs as <-. by destruct Hd.
      + destruct (IH n s Hs Hd) as (e' & Hin & ?). exists e'. set_solver. }
  destruct (Hsrc _ _ Ho Hd1) as (e' & Hin & [Hn' Hname'] & Hd').
  apply elem_of_list_split in Hin as (l1 & l2 & ->).
  rewrite Forall_forall in Hdef.
  exists l1, e', l2, e, lb. rewrite <- app_assoc. split; [done|].
  split; [done|]. split; [done|]. split; [done|]. split; [apply Hdef; [set_solver|done]|]. done.
Qed.
