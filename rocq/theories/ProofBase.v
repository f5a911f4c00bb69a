(** General lemmas: the result monad, sorting, little-endian encodings. *)
From Coq Require Export ZifyBool ZifyNat ZifyN Lia Sorted.
From Verif Require Export ModelBase ModelTables.
Ltac Zify.zify_post_hook ::= Z.div_mod_to_equations.

(** * Results *)
Lemma bind_Ok {A B} (m : res A) (f : A -> res B) b :
  m ≫= f = Ok b -> exists a, m = Ok a /\ f a = Ok b.
Proof. destruct m; simpl; intros H; try discriminate. eauto. Qed.

Lemma unwrap_Ok {A} (o : option A) a : unwrap o = Ok a <-> o = Some a.
Proof. destruct o; simpl; split; intros H; congruence. Qed.

Lemma index_Ok {A} (l : list A) i a : index l i = Ok a <-> l !! i = Some a.
Proof. unfold index. destruct (l !! i); split; intros H; congruence. Qed.

(** Inverts an equation [m = Ok _] through binds. *)
Ltac inv_res :=
  repeat match goal with
  | H : Ok _ = Ok _ |- _ => injection H as H; subst
  | H : Err _ = Ok _ |- _ => discriminate H
  | H : Panic _ = Ok _ |- _ => discriminate H
  | H : mbind ?f ?m = Ok _ |- _ =>
      let a := fresh "r" in let H1 := fresh "Hr" in
      destruct (bind_Ok m f _ H) as (a & H1 & ?); clear H; cbn beta in *
  | H : unwrap _ = Ok _ |- _ => apply unwrap_Ok in H
  | H : index _ _ = Ok _ |- _ => apply index_Ok in H
  end.

Lemma foldM_app {S A} (f : S -> A -> res S) l1 l2 s :
  foldM f (l1 ++ l2) s = (s' ← foldM f l1 s; foldM f l2 s').
Proof.
  revert s; induction l1 as [|a l1 IH]; intros s; simpl; [done|].
  destruct (f s a); simpl; auto.
Qed.

(** Invariant rule for [foldM]. *)
Lemma foldM_inv {S A} (P : S -> Prop) (f : S -> A -> res S) l s s' :
  (forall s a s', a ∈ l -> P s -> f s a = Ok s' -> P s') ->
  P s -> foldM f l s = Ok s' -> P s'.
Proof.
  revert s; induction l as [|a l IH]; simpl; intros s Hstep HP H; inv_res; [done|].
  eapply IH; [| |eassumption].
  - intros s1 b s2 Hb; apply Hstep; set_solver.
  - eapply Hstep; [|eassumption|eassumption]; set_solver.
Qed.

(** * Sorting *)
Section sorting.
  Context {A : Type} (le : A -> A -> bool).

  Lemma sort_insert_perm x l : sort_insert le x l ≡ₚ x :: l.
  Proof.
    induction l as [|y l IH]; simpl; [done|].
    destruct (le x y); [done|]. rewrite IH. apply Permutation_swap.
  Qed.

  Lemma sort_by_perm l : sort_by le l ≡ₚ l.
  Proof. induction l as [|x l IH]; simpl; [done|]. by rewrite sort_insert_perm, IH. Qed.

  Lemma sort_by_length l : length (sort_by le l) = length l.
  Proof. apply Permutation_length, sort_by_perm. Qed.

  Definition le_rel (a b : A) : Prop := le a b = true.

  Lemma sort_by_id l : StronglySorted le_rel l -> sort_by le l = l.
  Proof.
    induction 1 as [|x l Hs IH Hall]; simpl; [done|].
    rewrite IH. destruct l as [|y l]; simpl; [done|].
    inversion Hall as [|? ? Hxy]; subst. unfold le_rel in Hxy. by rewrite Hxy.
  Qed.

  Hypothesis total : forall a b, le a b = true \/ le b a = true.
  Hypothesis trans : forall a b c, le a b = true -> le b c = true -> le a c = true.

  Lemma sort_insert_sorted x l :
    StronglySorted le_rel l -> StronglySorted le_rel (sort_insert le x l).
  Proof.
    induction 1 as [|y l Hs IH Hall]; simpl; [repeat constructor|].
    destruct (le x y) eqn:Hxy.
    - constructor; [by constructor|]. constructor; [done|].
      eapply List.Forall_impl; [|exact Hall]. intros z Hz. eapply trans; eauto.
    - constructor; [done|].
      assert (Hp : sort_insert le x l ≡ₚ x :: l) by apply sort_insert_perm.
      apply List.Forall_forall. intros z Hz%elem_of_list_In. rewrite Hp in Hz.
      apply elem_of_cons in Hz as [->|Hz].
      + unfold le_rel. destruct (total x y) as [H|H]; congruence.
      + rewrite List.Forall_forall in Hall. apply Hall. by apply elem_of_list_In.
  Qed.

  Lemma sort_by_sorted l : StronglySorted le_rel (sort_by le l).
  Proof.
    induction l as [|x l IH]; simpl; [constructor|]. by apply sort_insert_sorted.
  Qed.
End sorting.

(** Two strongly sorted permutations of a list agree if the order is
    antisymmetric on it. *)
Lemma sorted_perm_eq {A} (R : A -> A -> Prop) (l1 l2 : list A) :
  (forall a b, a ∈ l1 -> b ∈ l1 -> R a b -> R b a -> a = b) ->
  StronglySorted R l1 -> StronglySorted R l2 -> l1 ≡ₚ l2 -> l1 = l2.
Proof.
  intros Hanti Hs1; revert l2. induction Hs1 as [|x l1 Hs1 IH Hall1]; intros l2 Hs2 Hp.
  - by apply Permutation_nil_l in Hp.
  - destruct l2 as [|y l2]; [by apply Permutation_nil_r in Hp|].
    assert (x = y) as ->.
    { assert (Hy : y ∈ x :: l1) by (rewrite Hp; set_solver).
      assert (Hx : x ∈ y :: l2) by (rewrite <- Hp; set_solver).
      inversion Hs2 as [|? ? Hs2' Hall2]; subst.
      rewrite List.Forall_forall in Hall1, Hall2.
      apply elem_of_cons in Hy as [->|Hy]; [done|].
      apply elem_of_cons in Hx as [->|Hx]; [done|].
      apply Hanti; [set_solver|set_solver| |].
      - apply Hall1. by apply elem_of_list_In.
      - apply Hall2. by apply elem_of_list_In. }
    f_equal. apply IH.
    + intros a b Ha Hb. apply Hanti; set_solver.
    + by inversion Hs2.
    + by apply Permutation_cons_inv in Hp.
Qed.

(** * Encodings *)
Lemma le_bytes_length n v : length (le_bytes n v) = n.
Proof. revert v; induction n; intros v; simpl; [done|]. by rewrite IHn. Qed.

Lemma le_bytes_z_length n v : length (le_bytes_z n v) = n.
Proof. apply le_bytes_length. Qed.

Lemma string_bytes_length s : length (string_bytes s) = String.length s.
Proof. induction s; simpl; [done|]. by rewrite IHs. Qed.

Lemma string_bytes_app s1 s2 : string_bytes (String.append s1 s2) = string_bytes s1 ++ string_bytes s2.
Proof.
  induction s1 as [|c s1 IH]; [done|].
  change (String c s1 +:+ s2) with (String c (s1 +:+ s2)). cbn. f_equal. apply IH.
Qed.

Lemma string_bytes_inj s1 s2 : string_bytes s1 = string_bytes s2 -> s1 = s2.
Proof.
  revert s2; induction s1 as [|c s1 IH]; intros [|d s2]; simpl; intros H; try discriminate; [done|].
  injection H as Hc Hs. f_equal; [|by apply IH].
  rewrite <- (ascii_N_embedding c), <- (ascii_N_embedding d). by rewrite Hc.
Qed.

Lemma string_bytes_lt s : Forall (fun b => b < 256) (string_bytes s).
Proof.
  induction s; simpl; constructor; [|done]. apply N_ascii_bounded.
Qed.

Lemma ser_name_length s : length (ser_name s) = S (String.length s).
Proof. unfold ser_name. rewrite app_length, string_bytes_length. simpl. lia. Qed.
