(** Proofs about string tables. *)
From Verif Require Export SpecStr ProofBase.

Notation entries := (list (string * (N * N))).
Definition emit (l : entries) : bytes := l ≫= fun e => ser_name e.1.

(** The invariant of every reachable table. *)
Record st_ok (t : strtab) : Prop := {
  ok_nodup : NoDup (stt_names t).*1;
  ok_entry : forall j k i o, stt_names t !! j = Some (k, (i, o)) ->
     i = N.of_nat j /\ o = blen (emit (take j (stt_names t)));
  ok_total : stt_total_len t = blen (emit (stt_names t));
  ok_first : exists rest, stt_names t = ("", (0, 0)) :: rest }.

Lemma emit_app l1 l2 : emit (l1 ++ l2) = emit l1 ++ emit l2.
Proof. unfold emit. apply bind_app. Qed.

Lemma blen_app {A} (l1 l2 : list A) : blen (l1 ++ l2) = blen l1 + blen l2.
Proof. unfold blen. rewrite app_length. lia. Qed.

Lemma assoc_Some_elem {B} k (l : list (string * B)) v : assoc k l = Some v -> (k, v) ∈ l.
Proof.
  induction l as [|[k' v'] l IH]; simpl; intros H; [done|].
  destruct (decide (k = k')); [|set_solver]. subst. injection H as ->. set_solver.
Qed.
Lemma assoc_None_iff {B} k (l : list (string * B)) : assoc k l = None <-> k ∉ l.*1.
Proof.
  induction l as [|[k' v'] l IH]; simpl; [split; [set_solver|done]|].
  destruct (decide (k = k')); [subst; split; [done|set_solver]|].
  rewrite IH. set_solver.
Qed.
Lemma assoc_elem_Some {B} k (l : list (string * B)) v :
  NoDup l.*1 -> (k, v) ∈ l -> assoc k l = Some v.
Proof.
  induction l as [|[k' v'] l IH]; simpl; intros Hnd Hin; [set_solver|].
  apply NoDup_cons in Hnd as [Hn Hnd].
  apply elem_of_cons in Hin as [[= -> ->]|Hin].
  - by rewrite decide_True.
  - rewrite decide_False; [auto|]. intros ->. apply Hn.
    apply elem_of_list_fmap. by exists (k', v).
Qed.
Lemma assoc_app_l {B} k (l1 l2 : list (string * B)) v :
  assoc k l1 = Some v -> assoc k (l1 ++ l2) = Some v.
Proof. induction l1 as [|[k' v'] l IH]; simpl; [done|]. destruct (decide (k = k')); auto. Qed.
Lemma assoc_app_r {B} k (l1 l2 : list (string * B)) :
  assoc k l1 = None -> assoc k (l1 ++ l2) = assoc k l2.
Proof. induction l1 as [|[k' v'] l IH]; simpl; [done|]. destruct (decide (k = k')); [done|auto]. Qed.

Lemma ok_assoc t k i o : st_ok t -> assoc k (stt_names t) = Some (i, o) ->
  exists j, stt_names t !! j = Some (k, (i, o)) /\ i = N.of_nat j /\
    o = blen (emit (take j (stt_names t))).
Proof.
  intros Hok Ha%assoc_Some_elem. apply elem_of_list_lookup in Ha as [j Hj].
  exists j. split; [done|]. by apply (ok_entry t Hok j k i o).
Qed.

Lemma st_ok_default : st_ok st_default.
Proof.
  split; simpl.
  - repeat constructor. set_solver.
  - intros [|j] k i o; simpl; [|by destruct j]. intros [= <- <- <-]. done.
  - done.
  - by exists [].
Qed.

Lemma st_ok_intern t n : st_ok t -> st_ok (intern t n).
Proof.
  intros Hok. unfold intern, st_get_or_create.
  destruct (assoc n (stt_names t)) as [[i o]|] eqn:Ha; [done|].
  apply assoc_None_iff in Ha. split; simpl.
  - rewrite fmap_app. apply NoDup_app. split_and!; [apply Hok| |apply NoDup_singleton].
    intros x Hx. simpl. set_solver.
  - intros j k i o. rewrite lookup_app_Some. intros [Hj|[Hge Hj]].
    + assert (j < length (stt_names t))%nat by (by eapply lookup_lt_Some).
      rewrite take_app_le by lia. by apply (ok_entry t Hok j k i o).
    + destruct (j - length (stt_names t))%nat as [|m] eqn:Hm; [|by destruct m].
      simpl in Hj. injection Hj as <- <- <-.
      assert (j = length (stt_names t)) as -> by lia.
      rewrite take_app. split; [done|]. apply Hok.
  - rewrite emit_app, blen_app. rewrite (ok_total t Hok). f_equal.
    unfold emit. simpl. rewrite app_nil_r. unfold blen. rewrite ser_name_length. lia.
  - destruct (ok_first t Hok) as [rest ->]. simpl. by eexists.
Qed.

Lemma st_with_name_eq n :
  st_with_name n = intern st_default n <| stt_section_strtab := Some (en_offset (st_get_or_create st_default n).2) |>.
Proof. unfold st_with_name, intern. by destruct (st_get_or_create st_default n). Qed.

Lemma st_ok_with_name n : st_ok (st_with_name n).
Proof.
  rewrite st_with_name_eq. pose proof (st_ok_intern st_default n st_ok_default) as Hok.
  split; simpl; apply Hok.
Qed.

Lemma st_reach_ok t : st_reach t -> st_ok t.
Proof.
  induction 1; auto using st_ok_default, st_ok_with_name, st_ok_intern.
Qed.

Lemma st_reach_all t ns : st_reach t -> st_reach (intern_all t ns).
Proof. revert t; induction ns; simpl; intros t Ht; [done|]. apply IHns. by constructor. Qed.

Lemma st_ok_all t ns : st_ok t -> st_ok (intern_all t ns).
Proof. revert t; induction ns; simpl; intros t Ht; [done|]. by apply IHns, st_ok_intern. Qed.

(** ** Interning only appends *)
Lemma intern_prefix t n : exists tl, stt_names (intern t n) = stt_names t ++ tl.
Proof.
  unfold intern, st_get_or_create. destruct (assoc n (stt_names t)) as [[i o]|].
  - exists []. by rewrite app_nil_r.
  - eexists. simpl. done.
Qed.
Lemma intern_all_prefix t ns : exists tl, stt_names (intern_all t ns) = stt_names t ++ tl.
Proof.
  revert t; induction ns as [|n ns IH]; intros t; simpl.
  - exists []. by rewrite app_nil_r.
  - destruct (IH (intern t n)) as [tl Htl]. destruct (intern_prefix t n) as [tl' Htl'].
    exists (tl' ++ tl). rewrite Htl, Htl'. by rewrite app_assoc.
Qed.

Lemma goc_assoc t n t' e : st_get_or_create t n = (t', e) ->
  assoc n (stt_names t') = Some (en_index e, en_offset e).
Proof.
  unfold st_get_or_create. destruct (assoc n (stt_names t)) as [[i o]|] eqn:Ha.
  - intros [= <- <-]. simpl. by rewrite Ha.
  - intros [= <- <-]. simpl. rewrite assoc_app_r by done. simpl. by rewrite decide_True.
Qed.

Lemma intern_all_assoc t ns k v :
  assoc k (stt_names t) = Some v -> assoc k (stt_names (intern_all t ns)) = Some v.
Proof. destruct (intern_all_prefix t ns) as [tl ->]. apply assoc_app_l. Qed.

(** ** Emitted bytes *)
Definition off_le (a b : string * (N * N)) : bool := a.2.2 <=? b.2.2.

Lemma emit_take_lt (l : entries) i j :
  (i < j)%nat -> (j <= length l)%nat -> blen (emit (take i l)) < blen (emit (take j l)).
Proof.
  intros Hij Hj. destruct (lookup_lt_is_Some_2 l i) as [e He]; [lia|].
  assert (take j l = take i l ++ e :: take (j - S i) (drop (S i) l)) as ->.
  { rewrite <- (take_drop i (take j l)) at 1. rewrite take_take.
    replace (i `min` j)%nat with i by lia. f_equal.
    rewrite skipn_firstn_comm. rewrite (drop_S l e i) by done.
    replace (j - i)%nat with (S (j - S i)) by lia. done. }
  rewrite emit_app, blen_app. unfold emit at 3. simpl.
  rewrite blen_app. unfold blen at 3. rewrite ser_name_length. lia.
Qed.

Lemma ok_offsets_lt t i j ei ej : st_ok t ->
  stt_names t !! i = Some ei -> stt_names t !! j = Some ej -> (i < j)%nat -> ei.2.2 < ej.2.2.
Proof.
  destruct ei as [ki [ii oi]], ej as [kj [ij oj]]. simpl. intros Hok Hi Hj Hlt.
  apply (ok_entry t Hok) in Hi as [_ ->]. assert (Hl := Hj). apply lookup_lt_Some in Hl.
  apply (ok_entry t Hok) in Hj as [_ ->]. apply emit_take_lt; lia.
Qed.

Lemma ok_sorted t : st_ok t -> StronglySorted (fun a b => a.2.2 < b.2.2) (stt_names t).
Proof.
  intros Hok. assert (H : forall i j ei ej, stt_names t !! i = Some ei -> stt_names t !! j = Some ej ->
    (i < j)%nat -> ei.2.2 < ej.2.2) by (intros; by eapply ok_offsets_lt).
  clear Hok. revert H. generalize (stt_names t). intros l. induction l as [|e l IH]; intros H; constructor.
  - apply IH. intros i j ei ej Hi Hj Hij. apply (H (S i) (S j)); auto. lia.
  - apply List.Forall_forall. intros x [j Hj]%elem_of_list_In%elem_of_list_lookup.
    apply (H 0%nat (S j)); auto. lia.
Qed.

Lemma StronglySorted_impl {A} (R S : A -> A -> Prop) l :
  (forall a b, R a b -> S a b) -> StronglySorted R l -> StronglySorted S l.
Proof.
  intros HRS. induction 1 as [|x l Hs IH Hall]; constructor; [done|].
  eapply List.Forall_impl; [|exact Hall]. auto.
Qed.

Lemma off_le_total a b : off_le a b = true \/ off_le b a = true.
Proof. unfold off_le. lia. Qed.
Lemma off_le_trans a b c : off_le a b = true -> off_le b c = true -> off_le a c = true.
Proof. unfold off_le. lia. Qed.

(** Sorting any listing of the map gives insertion order. *)
Lemma sorted_any_listing t l : st_ok t -> l ≡ₚ stt_names t -> st_sorted_in l = stt_names t.
Proof.
  intros Hok Hp. pose proof (ok_sorted t Hok) as Hs.
  symmetry. eapply sorted_perm_eq with (R := le_rel off_le).
  - intros a b [i Hi]%elem_of_list_lookup [j Hj]%elem_of_list_lookup Hab Hba.
    unfold le_rel, off_le in *.
    destruct (decide (i = j)) as [->|Hne]; [congruence|].
    assert (i < j \/ j < i)%nat as [Hlt|Hlt] by lia.
    + pose proof (ok_offsets_lt t i j a b Hok Hi Hj Hlt). lia.
    + pose proof (ok_offsets_lt t j i b a Hok Hj Hi Hlt). lia.
  - eapply StronglySorted_impl; [|exact Hs]. unfold le_rel, off_le. intros a b. simpl. lia.
  - apply sort_by_sorted; [apply off_le_total|apply off_le_trans].
  - rewrite <- Hp. symmetry. apply sort_by_perm.
Qed.

Lemma chunk_data_emit t : st_ok t -> st_chunk_data t = emit (stt_names t).
Proof. intros Hok. unfold st_chunk_data, st_sorted_names. by rewrite (sorted_any_listing t) by done. Qed.

Lemma cstr_name bs rest : 0 ∉ bs -> cstr (bs ++ 0 :: rest) = Some bs.
Proof.
  induction bs as [|b bs IH]; simpl; intros Hn; [done|].
  assert (b <> 0) by set_solver. rewrite (proj2 (N.eqb_neq b 0)) by done.
  rewrite IH by set_solver. done.
Qed.

Lemma cstr_at_entry t j k i o : st_ok t -> stt_names t !! j = Some (k, (i, o)) -> nonul k ->
  cstr_at (st_chunk_data t) o = Some (string_bytes k).
Proof.
  intros Hok Hj Hn. rewrite chunk_data_emit by done.
  destruct (ok_entry t Hok j k i o Hj) as [_ Ho].
  unfold cstr_at. rewrite <- (take_drop_middle (stt_names t) j _ Hj) at 1.
  rewrite emit_app. rewrite Ho. unfold blen at 1. rewrite Nat2N.id, drop_app.
  unfold emit. simpl. unfold ser_name. rewrite <- app_assoc. simpl. by apply cstr_name.
Qed.

Lemma read_back t n t1 e ns : st_reach t -> nonul n -> st_get_or_create t n = (t1, e) ->
  cstr_at (st_chunk_data (intern_all t1 ns)) (en_offset e) = Some (string_bytes n).
Proof.
  intros Hr%st_reach_ok Hn Hg.
  assert (Hok : st_ok (intern_all t1 ns)).
  { apply st_ok_all. replace t1 with (intern t n) by (unfold intern; by rewrite Hg). by apply st_ok_intern. }
  pose proof (goc_assoc _ _ _ _ Hg) as Ha. apply (intern_all_assoc _ ns) in Ha.
  apply ok_assoc in Ha as (j & Hj & _ & _); [|done]. by eapply cstr_at_entry.
Qed.

(** ** Stability and injectivity *)
Lemma goc_again t n t1 e ns t2 e2 : st_get_or_create t n = (t1, e) ->
  st_get_or_create (intern_all t1 ns) n = (t2, e2) ->
  t2 = intern_all t1 ns /\ e2 = mkStrEntry (en_index e) (en_offset e) false.
Proof.
  intros Hg%goc_assoc H2. apply (intern_all_assoc _ ns) in Hg.
  unfold st_get_or_create in H2. rewrite Hg in H2. by injection H2 as <- <-.
Qed.

Lemma intern_all_reach_eq t n ns : intern_all (intern t n) ns = intern_all t (n :: ns).
Proof. done. Qed.

Lemma distinct_entries t n m t1 e1 ns t2 e2 : st_reach t -> n <> m ->
  st_get_or_create t n = (t1, e1) -> st_get_or_create (intern_all t1 ns) m = (t2, e2) ->
  en_offset e1 <> en_offset e2 /\ en_index e1 <> en_index e2.
Proof.
  intros Hr Hne H1 H2.
  assert (Hok1 : st_ok t1).
  { replace t1 with (intern t n) by (unfold intern; by rewrite H1). by apply st_ok_intern, st_reach_ok. }
  assert (Hok : st_ok t2).
  { replace t2 with (intern (intern_all t1 ns) m) by (unfold intern; by rewrite H2).
    by apply st_ok_intern, st_ok_all. }
  pose proof (goc_assoc _ _ _ _ H2) as Ha2.
  assert (Ha1 : assoc n (stt_names t2) = Some (en_index e1, en_offset e1)).
  { replace t2 with (intern_all t1 (ns ++ [m])).
    - apply intern_all_assoc. by eapply goc_assoc.
    - unfold intern_all. rewrite fold_left_app. simpl. unfold intern at 1.
      fold (intern_all t1 ns). by rewrite H2. }
  apply ok_assoc in Ha1 as (j1 & Hj1 & Hi1 & _); [|done].
  apply ok_assoc in Ha2 as (j2 & Hj2 & Hi2 & _); [|done].
  assert (j1 <> j2) by congruence.
  split; [|lia].
  assert (j1 < j2 \/ j2 < j1)%nat as [Hlt|Hlt] by lia.
  - pose proof (ok_offsets_lt t2 _ _ _ _ Hok Hj1 Hj2 Hlt). simpl in *. lia.
  - pose proof (ok_offsets_lt t2 _ _ _ _ Hok Hj2 Hj1 Hlt). simpl in *. lia.
Qed.

(** The names of the table in index order are the distinct names in order of
    first occurrence. *)
Lemma first_occ_perm seen seen' ns :
  (forall x, x ∈ seen <-> x ∈ seen') -> first_occ seen ns = first_occ seen' ns.
Proof.
  revert seen seen'; induction ns as [|n ns IH]; intros seen seen' Heq; simpl; [done|].
  destruct (decide (n ∈ seen)), (decide (n ∈ seen')); try (exfalso; set_solver).
  - by apply IH.
  - f_equal. apply IH. set_solver.
Qed.

Lemma intern_all_names t ns :
  (stt_names (intern_all t ns)).*1 = (stt_names t).*1 ++ first_occ (stt_names t).*1 ns.
Proof.
  revert t; induction ns as [|n ns IH]; intros t; simpl.
  - by rewrite app_nil_r.
  - rewrite IH. unfold intern, st_get_or_create.
    destruct (assoc n (stt_names t)) as [[i o]|] eqn:Ha.
    + simpl. rewrite decide_True; [done|].
      apply assoc_Some_elem in Ha. apply elem_of_list_fmap. by exists (n, (i, o)).
    + apply assoc_None_iff in Ha. rewrite decide_False by done.
      simpl. rewrite fmap_app, <- app_assoc. simpl. do 2 f_equal.
      apply first_occ_perm. set_solver.
Qed.

Lemma index_of_name t ns j n : st_reach t ->
  ((stt_names t).*1 ++ first_occ (stt_names t).*1 ns) !! j = Some n ->
  exists e, st_get (intern_all t ns) n = Some e /\ en_index e = N.of_nat j.
Proof.
  intros Hr Hj. pose proof (st_ok_all t ns (st_reach_ok t Hr)) as Hok.
  rewrite <- intern_all_names in Hj. rewrite list_lookup_fmap in Hj.
  destruct (stt_names (intern_all t ns) !! j) as [[k [i o]]|] eqn:Hl; [|done].
  simpl in Hj. injection Hj as ->.
  pose proof (elem_of_list_lookup_2 _ _ _ Hl) as Hin.
  apply assoc_elem_Some in Hin; [|apply Hok].
  exists (mkStrEntry i o false). unfold st_get. rewrite Hin. split; [done|]. simpl.
  by destruct (ok_entry _ Hok _ _ _ _ Hl).
Qed.

Lemma elem_of_first_occ seen ns x : x ∈ seen ∨ x ∈ first_occ seen ns <-> x ∈ seen ∨ x ∈ ns.
Proof.
  revert seen; induction ns as [|n ns IH]; intros seen; simpl; [done|].
  destruct (decide (n ∈ seen)).
  - rewrite IH. set_solver.
  - specialize (IH (n :: seen)). set_solver.
Qed.

Lemma new_iff_first names name :
  en_new (st_get_or_create (intern_all st_default names) name).2 = true <-> name ∉ "" :: names.
Proof.
  assert (Hin : name ∈ (stt_names (intern_all st_default names)).*1 <-> name ∈ "" :: names).
  { rewrite intern_all_names. simpl. pose proof (elem_of_first_occ [""] names name). set_solver. }
  rewrite <- Hin. unfold st_get_or_create.
  destruct (assoc name (stt_names (intern_all st_default names))) as [[i o]|] eqn:Ha; simpl.
  - split; [done|]. intros Hn. exfalso. apply Hn. apply assoc_Some_elem in Ha.
    apply elem_of_list_fmap. by exists (name, (i, o)).
  - apply assoc_None_iff in Ha. done.
Qed.

(** ** Size *)
Lemma size_emitted t : st_reach t ->
  blen (st_chunk_data t) = stt_total_len t /\ st_chunk_data t !! 0%nat = Some 0.
Proof.
  intros Hok%st_reach_ok. rewrite chunk_data_emit by done. split.
  - symmetry. apply Hok.
  - destruct (ok_first t Hok) as [rest ->]. done.
Qed.

(** ** Reverse lookup *)
Lemma name_in_Some_elem l o k : st_name_in l o = Some k -> exists i, (k, (i, o)) ∈ l.
Proof.
  induction l as [|[k' [i' o']] l IH]; simpl; [done|].
  destruct (N.eqb_spec o' o) as [->|Hne].
  - intros [= ->]. exists i'. set_solver.
  - intros H. destruct (IH H) as [i Hi]. exists i. set_solver.
Qed.
Lemma name_in_None l o k i : st_name_in l o = None -> (k, (i, o)) ∉ l.
Proof.
  induction l as [|[k' [i' o']] l IH]; simpl; [set_solver|].
  destruct (N.eqb_spec o' o) as [->|Hne]; [done|]. intros H. specialize (IH H).
  intros [[= -> -> ->]|Hin]%elem_of_cons; done.
Qed.

Lemma reverse_lookup t l o name : st_reach t -> l ≡ₚ stt_names t ->
  st_name_in l o = Some name <-> exists e, st_get t name = Some e /\ en_offset e = o.
Proof.
  intros Hok%st_reach_ok Hp.
  assert (Huniq : forall k k' i i', (k, (i, o)) ∈ l -> (k', (i', o)) ∈ l -> k = k').
  { intros k k' i i' Hk Hk'. rewrite Hp in Hk, Hk'.
    apply elem_of_list_lookup in Hk as [j Hj]. apply elem_of_list_lookup in Hk' as [j' Hj'].
    destruct (decide (j = j')) as [->|Hne]; [congruence|].
    assert (j < j' \/ j' < j)%nat as [Hlt|Hlt] by lia.
    - pose proof (ok_offsets_lt t _ _ _ _ Hok Hj Hj' Hlt). simpl in *. lia.
    - pose proof (ok_offsets_lt t _ _ _ _ Hok Hj' Hj Hlt). simpl in *. lia. }
  split.
  - intros [i Hi]%name_in_Some_elem. rewrite Hp in Hi.
    apply assoc_elem_Some in Hi; [|apply Hok].
    exists (mkStrEntry i o false). unfold st_get. by rewrite Hi.
  - intros (e & Hg & <-). unfold st_get in Hg.
    destruct (assoc name (stt_names t)) as [[i o']|] eqn:Ha; [|done].
    injection Hg as <-. simpl in *.
    apply assoc_Some_elem in Ha. rewrite <- Hp in Ha.
    destruct (st_name_in l o') as [k|] eqn:Hn.
    + pose proof (name_in_Some_elem _ _ _ Hn) as [i' Hi']. f_equal. by eapply Huniq.
    + exfalso. by eapply name_in_None.
Qed.
