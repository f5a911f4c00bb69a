(** Reading back what the encoders wrote. *)
From Verif Require Export SpecBase ProofBase.

Lemma pow256_S n : 2 ^ (8 * N.of_nat (S n)) = 256 * 2 ^ (8 * N.of_nat n).
Proof.
  replace (8 * N.of_nat (S n)) with (8 + 8 * N.of_nat n) by lia.
  rewrite N.pow_add_r. done.
Qed.

Lemma le_val_le_bytes n v : le_val (le_bytes n v) = v mod 2 ^ (8 * N.of_nat n).
Proof.
  revert v; induction n as [|n IH]; intros v.
  - change (8 * N.of_nat 0) with 0. rewrite N.pow_0_r, N.mod_1_r. done.
  - simpl. rewrite IH, pow256_S.
    rewrite N.mod_mul_r; [done|done|]. apply N.pow_nonzero. done.
Qed.

Lemma le_val_bound l : Forall (fun b => b < 256) l -> le_val l < 2 ^ (8 * N.of_nat (length l)).
Proof.
  induction 1 as [|b l Hb Hl IH]; [by vm_compute|].
  cbn [le_val length]. rewrite pow256_S. lia.
Qed.

Lemma le_bytes_bounds n v : Forall (fun b => b < 256) (le_bytes n v).
Proof.
  revert v; induction n as [|n IH]; intros v; simpl; constructor; [|done]. lia.
Qed.

Lemma rd_app n pre mid post :
  length mid = n -> rd n (pre ++ mid ++ post) (blen pre) = Some (le_val mid).
Proof.
  intros Hn. unfold rd, blen. rewrite Nat2N.id, drop_app.
  rewrite <- Hn. rewrite take_app. by rewrite decide_True.
Qed.

Lemma rd_le_bytes n pre v post :
  rd n (pre ++ le_bytes n v ++ post) (blen pre) = Some (v mod 2 ^ (8 * N.of_nat n)).
Proof. rewrite rd_app by apply le_bytes_length. by rewrite le_val_le_bytes. Qed.

(** Tables of equally sized records. *)
Lemma bind_length {A B} (f : A -> list B) (l : list A) n :
  (forall a, length (f a) = n) -> length (l ≫= f) = (length l * n)%nat.
Proof.
  intros Hf. induction l as [|a l IH]; [done|]. rewrite bind_cons, app_length, Hf, IH. simpl. lia.
Qed.

Lemma bind_split {A B} (f : A -> list B) (l : list A) i a :
  l !! i = Some a -> l ≫= f = (take i l ≫= f) ++ f a ++ (drop (S i) l ≫= f).
Proof.
  intros Hi. rewrite <- (take_drop_middle l i a Hi) at 1. rewrite bind_app. done.
Qed.

Lemma rd_words n ws pre post i v :
  ws !! i = Some v ->
  rd n (pre ++ (ws ≫= le_bytes n) ++ post) (blen pre + N.of_nat n * N.of_nat i)
  = Some (v mod 2 ^ (8 * N.of_nat n)).
Proof.
  intros Hi. rewrite (bind_split _ _ i v) by done.
  replace (pre ++ ((take i ws ≫= le_bytes n) ++ le_bytes n v ++ (drop (S i) ws ≫= le_bytes n)) ++ post)
    with ((pre ++ (take i ws ≫= le_bytes n)) ++ le_bytes n v ++ (drop (S i) ws ≫= le_bytes n) ++ post)
    by (by rewrite <- !app_assoc).
  replace (blen pre + N.of_nat n * N.of_nat i) with (blen (pre ++ (take i ws ≫= le_bytes n))).
  - apply rd_le_bytes.
  - unfold blen. rewrite app_length, (bind_length _ _ n) by apply le_bytes_length.
    rewrite take_length. apply lookup_lt_Some in Hi. lia.
Qed.

(** Signed values. *)
Lemma signed_mod bits v : (0 < bits)%Z ->
  (- 2 ^ (bits - 1) <= v < 2 ^ (bits - 1))%Z ->
  signed bits (Z.to_N (v mod 2 ^ bits)) = v.
Proof.
  intros Hb Hv. unfold signed.
  assert (Hp : (2 ^ bits = 2 * 2 ^ (bits - 1))%Z).
  { rewrite <- Z.pow_succ_r by lia. f_equal. lia. }
  assert (Hpos : (0 < 2 ^ (bits - 1))%Z) by (apply Z.pow_pos_nonneg; lia).
  rewrite Z2N.id by (apply Z.mod_pos_bound; lia).
  destruct (Z.ltb_spec v 0) as [Hneg|Hnn].
  - replace (v mod 2 ^ bits)%Z with (v + 2 ^ bits)%Z.
    + destruct (Z.ltb_spec (v + 2 ^ bits) (2 ^ (bits - 1))); lia.
    + apply Z.mod_unique with (q := (-1)%Z); lia.
  - rewrite Z.mod_small by lia. destruct (Z.ltb_spec v (2 ^ (bits - 1))); lia.
Qed.

Lemma le_val_le_bytes_z n v :
  le_val (le_bytes_z n v) = Z.to_N (v mod 2 ^ (8 * Z.of_nat n)).
Proof.
  unfold le_bytes_z. rewrite le_val_le_bytes. apply N.mod_small.
  assert (Hpos : (0 < 2 ^ (8 * Z.of_nat n))%Z) by (apply Z.pow_pos_nonneg; lia).
  pose proof (Z.mod_pos_bound v _ Hpos).
  assert (Z.of_N (2 ^ (8 * N.of_nat n)) = 2 ^ (8 * Z.of_nat n))%Z.
  { rewrite N2Z.inj_pow. f_equal; lia. }
  lia.
Qed.

Lemma rd_z_le_bytes_z n pre v post : (0 < n)%nat ->
  (- 2 ^ (8 * Z.of_nat n - 1) <= v < 2 ^ (8 * Z.of_nat n - 1))%Z ->
  rd_z n (pre ++ le_bytes_z n v ++ post) (blen pre) = Some v.
Proof.
  intros Hn Hv. unfold rd_z. rewrite rd_app by apply le_bytes_z_length. simpl.
  rewrite le_val_le_bytes_z, signed_mod by lia. done.
Qed.
