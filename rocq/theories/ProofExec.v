(** Memory of a process, and the instructions the processor finds there. *)
From Verif Require Export SpecRun ProofFields.

(** * Memory *)
(** [data] is at [base]. *)
Definition holds (m : memory) (base : N) (data : bytes) : Prop := forall k b, data !! k = Some b -> m (base + N.of_nat k) = Some b.
Lemma peek_spec m a n bs : peek m a n = Some bs <-> length bs = n /\ holds m a bs.
Proof.
  revert a bs. induction n as [|n IH]; intros a bs; simpl.
  - split; [intros [= <-]; split; [done|intros k b Hb; by rewrite lookup_nil in Hb]|]. intros [H _]. by destruct bs.
  - split.
    + intros H. destruct (m a) as [b|] eqn:Eb; [|discriminate H]. cbn [mbind option_bind] in H. destruct (peek m (a + 1) n) as [bs'|] eqn:E; [|discriminate H]. injection H as <-.
      apply IH in E as [El Eh]. split; [simpl; lia|]. intros [|k] b' Hb; cbn in Hb; [injection Hb as <-; rewrite <- Eb; f_equal; lia|]. rewrite <- (Eh k b' Hb). f_equal. lia.
    + intros [Hl Hh]. destruct bs as [|b bs]; [discriminate Hl|]. assert (E : m a = Some b) by (rewrite <- (Hh 0%nat b eq_refl); f_equal; lia). rewrite E. cbn [mbind option_bind].
      assert (E' : peek m (a + 1) n = Some bs); [|by rewrite E'].
      apply IH. split; [simpl in Hl; lia|]. intros k b' Hb. rewrite <- (Hh (S k) b' Hb). f_equal. lia.
Qed.
Lemma holds_drop m a off n (data : bytes) : holds m a data -> holds m (a + N.of_nat off) (take n (drop off data)).
Proof. intros H k b Hb. apply lookup_take_Some in Hb as [Hb _]. rewrite lookup_drop in Hb. rewrite <- (H _ _ Hb). f_equal. lia. Qed.
Lemma holds_peek m a off n (data : bytes) : holds m a data -> (off + n <= length data)%nat -> peek m (a + N.of_nat off) n = Some (take n (drop off data)).
Proof. intros H Hl. apply peek_spec. split; [rewrite take_length, drop_length; lia|by apply holds_drop]. Qed.
Lemma holds_peek_all m a (data : bytes) n : holds m a data -> length data = n -> peek m a n = Some data.
Proof. intros H E. apply peek_spec. by split. Qed.
Lemma rd_Some n (data : bytes) off v : rd n data off = Some v <-> (N.to_nat off + n <= length data)%nat /\ v = le_val (take n (drop (N.to_nat off) data)) \/ n = 0%nat /\ v = 0.
Proof.
  unfold rd. destruct (decide _) as [E|E]; rewrite take_length, drop_length in E.
  - split; [intros [= <-]|intros [[_ ->]|[-> ->]]; done]. destruct n; [right; done|left; split; [lia|done]].
  - split; [done|]. intros [[H _]|[-> _]]; lia.
Qed.
Lemma holds_word m a (data : bytes) off v : holds m a data -> rd 8 data off = Some v -> word m (a + off) = Some v.
Proof.
  intros H Hr. apply rd_Some in Hr as [[Hl ->]|[? _]]; [|discriminate]. unfold word. replace (a + off) with (a + N.of_nat (N.to_nat off)) by lia. by rewrite (holds_peek _ _ _ _ _ H Hl).
Qed.
Lemma poke_in m a (bs : bytes) x : a <= x -> x < a + blen bs -> poke m a bs x = bs !! N.to_nat (x - a).
Proof. intros H1 H2. unfold poke. rewrite (proj2 (N.leb_le _ _) H1), (proj2 (N.ltb_lt _ _) H2). reflexivity. Qed.
Lemma poke_out m a (bs : bytes) x : x < a \/ a + blen bs <= x -> poke m a bs x = m x.
Proof. intros H. unfold poke. destruct (_ && _) eqn:E; [|done]. apply andb_true_iff in E as [E1 E2]. apply N.leb_le in E1. apply N.ltb_lt in E2. lia. Qed.
Lemma poke_holds_new m a (bs : bytes) : holds (poke m a bs) a bs.
Proof. intros k b Hb. rewrite poke_in; [|lia|apply lookup_lt_Some in Hb; unfold blen; lia]. rewrite <- Hb. f_equal. lia. Qed.
Lemma poke_holds_old m a (bs : bytes) base (data : bytes) : holds m base data -> base + blen data <= a \/ a + blen bs <= base -> holds (poke m a bs) base data.
Proof. intros H Hd k b Hb. rewrite poke_out; [by apply H|]. apply lookup_lt_Some in Hb. unfold blen in *. lia. Qed.
Lemma word_bytes_length v : length (word_bytes v) = 8%nat.
Proof. reflexivity. Qed.
Lemma digits_val v n k : le_val ((fun i => (v / 256 ^ N.of_nat i) mod 256) <$> seq k n) = (v / 256 ^ N.of_nat k) mod 256 ^ N.of_nat n.
Proof.
  revert k. induction n as [|n IH]; intros k; [simpl; by rewrite N.mod_1_r|]. rewrite <- cons_seq, fmap_cons. cbn [le_val]. rewrite IH.
  replace (N.of_nat (S n)) with (N.succ (N.of_nat n)) by lia. replace (N.of_nat (S k)) with (N.succ (N.of_nat k)) by lia. rewrite !N.pow_succ_r', N.mod_mul_r by (try apply N.pow_nonzero; done).
  rewrite (N.mul_comm 256 (256 ^ N.of_nat k)), <- N.div_div by (try apply N.pow_nonzero; done). reflexivity.
Qed.
Lemma word_bytes_val v : v < 2^64 -> le_val (word_bytes v) = v.
Proof. intros H. unfold word_bytes. rewrite digits_val. change (256 ^ N.of_nat 0) with 1. rewrite N.div_1_r. apply N.mod_small. exact H. Qed.
Lemma word_new m a v : v < 2^64 -> word (poke m a (word_bytes v)) a = Some v.
Proof. intros H. unfold word. rewrite (holds_peek_all _ _ (word_bytes v)); [|apply poke_holds_new|done]. cbn [fmap option_fmap option_map]. by rewrite word_bytes_val. Qed.

(** * Instructions *)
Lemma fetch_spec p base (data : bytes) off n k b : holds (pr_mem p) base data -> (forall i, (i < length data)%nat -> can_run (pr_phs p) (base + N.of_nat i) = true) ->
  (k < n)%nat -> data !! (off + k)%nat = Some b -> fetch p (base + N.of_nat off) n !! k = Some b.
Proof.
  intros H R. revert off k. induction n as [|n IH]; intros off k Hk Hb; [lia|]. simpl.
  assert (Hl : (off < length data)%nat) by (apply lookup_lt_Some in Hb; lia). destruct (lookup_lt_is_Some_2 _ _ Hl) as [b0 Hb0]. rewrite (H _ _ Hb0), (R _ Hl).
  destruct k as [|k]; [rewrite Nat.add_0_r in Hb; cbn; congruence|]. cbn. replace (base + N.of_nat off + 1) with (base + N.of_nat (S off)) by lia. apply IH; [lia|]. rewrite <- Hb. f_equal. lia.
Qed.
Lemma rd_agree (data l : bytes) off n j v : (forall k b, (k < 7)%nat -> data !! (off + k)%nat = Some b -> l !! k = Some b) ->
  (N.to_nat j + n <= 7)%nat -> rd n data (N.of_nat off + j) = Some v -> rd n l j = Some v.
Proof.
  intros H Hj Hr. apply rd_Some in Hr as [[Hl ->]|[-> ->]]; [|done].
  assert (E : take n (drop (N.to_nat j) l) = take n (drop (N.to_nat (N.of_nat off + j)) data)); [|].
  { apply list_eq. intros i. destruct (decide (i < n)%nat) as [Hi|Hi]; [|rewrite !lookup_take_ge by lia; done]. rewrite !lookup_take, !lookup_drop by done.
    destruct (lookup_lt_is_Some_2 data (N.to_nat (N.of_nat off + j) + i)) as [b Hb]; [lia|]. rewrite Hb. apply H; [lia|]. rewrite <- Hb. f_equal. lia. }
  apply rd_Some. destruct n as [|n]; [right; done|]. left. split; [|by rewrite E]. clear H. apply (f_equal length) in E. rewrite !take_length, !drop_length in E. lia.
Qed.
Lemma rd_z_agree (data l : bytes) off n j v : (forall k b, (k < 7)%nat -> data !! (off + k)%nat = Some b -> l !! k = Some b) ->
  (N.to_nat j + n <= 7)%nat -> rd_z n data (N.of_nat off + j) = Some v -> rd_z n l j = Some v.
Proof.
  intros H Hj Hr. unfold rd_z in *. destruct (rd n data _) as [x|] eqn:E; [|discriminate Hr]. by rewrite (rd_agree _ _ _ _ _ _ H Hj E).
Qed.
Lemma decode_agree (data l : bytes) base off r : (forall k b, (k < 7)%nat -> data !! (off + k)%nat = Some b -> l !! k = Some b) ->
  SpecReloc.decode_at base data (N.of_nat off) = Some r -> SpecReloc.decode_at (base + Z.of_nat off) l 0 = Some r.
Proof.
  intros H. unfold SpecReloc.decode_at. change (0 + 1) with 1. change (0 + 2) with 2. change (0 + 3) with 3.
  assert (HB : (base + Z.of_nat off + Z.of_N 0 = base + Z.of_N (N.of_nat off))%Z) by lia. rewrite HB. clear HB.
  pose proof (fun n j v => rd_agree data l off n j v H) as A. pose proof (fun n j v => rd_z_agree data l off n j v H) as B. clear H.
  destruct (rd 1 data (N.of_nat off)) as [b0|] eqn:E0; [|discriminate]. rewrite (A 1%nat 0 b0); [|simpl; lia|by rewrite N.add_0_r]. cbn [mbind option_bind].
  assert (K : forall n j, (N.to_nat j + n <= 7)%nat -> rd n data (N.of_nat off + j) = None \/ exists v, rd n data (N.of_nat off + j) = Some v /\ rd n l j = Some v).
  { intros n j Hj. destruct (rd n data (N.of_nat off + j)) as [v|] eqn:E; [right; exists v; split; [done|by apply A]|by left]. }
  assert (KZ : forall n j, (N.to_nat j + n <= 7)%nat -> rd_z n data (N.of_nat off + j) = None \/ exists v, rd_z n data (N.of_nat off + j) = Some v /\ rd_z n l j = Some v).
  { intros n j Hj. destruct (rd_z n data (N.of_nat off + j)) as [v|] eqn:E; [right; exists v; split; [done|by apply B]|by left]. }
  clear A B. pose proof (KZ 4%nat 1 ltac:(vm_compute; lia)) as Z1. pose proof (KZ 4%nat 2 ltac:(vm_compute; lia)) as Z2. pose proof (KZ 4%nat 3 ltac:(vm_compute; lia)) as Z3.
  pose proof (K 1%nat 1 ltac:(vm_compute; lia)) as U1. pose proof (K 1%nat 2 ltac:(vm_compute; lia)) as U2. clear K KZ E0.
  case_decide; [destruct Z1 as [D1|(d1 & D1 & D1')]; rewrite D1; [discriminate|]; rewrite D1'; exact id|].
  case_decide; [destruct Z1 as [D1|(d1 & D1 & D1')]; rewrite D1; [discriminate|]; rewrite D1'; exact id|].
  case_decide; [destruct Z1 as [D1|(d1 & D1 & D1')]; rewrite D1; [discriminate|]; rewrite D1'; exact id|]. clear Z1.
  case_decide; [destruct U1 as [M1|(m1 & M1 & M1')]; rewrite M1; [discriminate|]; rewrite M1'; destruct Z2 as [D2|(d2 & D2 & D2')]; cbn [mbind option_bind]; rewrite D2; [discriminate|]; rewrite D2'; exact id|]. clear Z2.
  case_decide; [|discriminate]. destruct U1 as [M1|(m1 & M1 & M1')]; rewrite M1; [discriminate|]; rewrite M1'. destruct U2 as [M2|(m2 & M2 & M2')]; cbn [mbind option_bind]; rewrite M2; [discriminate|]; rewrite M2'.
  destruct Z3 as [D3|(d3 & D3 & D3')]; cbn [mbind option_bind]; rewrite D3; [discriminate|]; rewrite D3'. exact id.
Qed.
Lemma fetch_decode p base (data : bytes) off r : holds (pr_mem p) base data -> (forall i, (i < length data)%nat -> can_run (pr_phs p) (base + N.of_nat i) = true) ->
  SpecReloc.decode_at (Z.of_N base) data off = Some r -> SpecReloc.decode_at (Z.of_N (base + off)) (fetch p (base + off) 7) 0 = Some r.
Proof.
  intros H R Hd. replace off with (N.of_nat (N.to_nat off)) in Hd |- * by lia. replace (Z.of_N (base + N.of_nat (N.to_nat off))) with (Z.of_N base + Z.of_nat (N.to_nat off))%Z by lia.
  apply (decode_agree data); [|exact Hd]. intros k b Hk Hb. by apply (fetch_spec p base data).
Qed.
