(** Proofs about hash functions and hash tables. *)
From Verif Require Export SpecHash ProofEnc.

(** * Hash functions *)

Lemma mask_top v : v < 2^32 -> N.land v 0xf0000000 = 2^28 * (v / 2^28).
Proof.
  intros Hv. change 0xf0000000 with (N.shiftl (N.ones 4) 28).
  rewrite (N.mul_comm (2^28)), <- N.shiftl_mul_pow2, <- N.shiftr_div_pow2.
  apply N.bits_inj; intros n. rewrite N.land_spec.
  destruct (N.ltb_spec n 28) as [Hn|Hn].
  - rewrite !N.shiftl_spec_low by done. by rewrite andb_false_r.
  - rewrite !N.shiftl_spec_high' by done.
    rewrite N.shiftr_spec'. replace (n - 28 + 28) with n by lia.
    destruct (N.ltb_spec (n - 28) 4) as [Hn'|Hn'].
    + rewrite N.ones_spec_low by done. by rewrite andb_true_r.
    + rewrite N.ones_spec_high by done. rewrite andb_false_r. symmetry.
      destruct (decide (v = 0)) as [->|Hv0]; [apply N.bits_0|].
      apply N.bits_above_log2. apply N.log2_lt_pow2; [lia|].
      eapply N.lt_le_trans; [exact Hv|]. apply N.pow_le_mono_r; lia.
Qed.

Lemma clear_top v x : v < 2^32 -> x < 2^28 ->
  N.land (N.lxor v x) (N.lxor (2^28 * (v / 2^28)) 0xffffffff) = N.lxor (v mod 2^28) x.
Proof.
  intros Hv Hx. rewrite (N.mul_comm (2^28)), <- N.shiftl_mul_pow2, <- N.shiftr_div_pow2.
  change 0xffffffff with (N.ones 32). rewrite <- N.land_ones.
  assert (Hhigh : forall n y m, y < 2^m -> m <= n -> N.testbit y n = false).
  { intros n y m Hy Hn. destruct (decide (y = 0)) as [->|Hy0]; [apply N.bits_0|].
    apply N.bits_above_log2. apply N.log2_lt_pow2; [lia|].
    eapply N.lt_le_trans; [exact Hy|]. apply N.pow_le_mono_r; lia. }
  apply N.bits_inj; intros n. rewrite N.land_spec, !N.lxor_spec, N.land_spec.
  destruct (N.ltb_spec n 28) as [Hn|Hn].
  - rewrite N.shiftl_spec_low by done. rewrite !N.ones_spec_low by lia.
    rewrite !andb_true_r. done.
  - rewrite N.shiftl_spec_high', N.shiftr_spec' by lia. replace (n - 28 + 28) with n by lia.
    rewrite (Hhigh n x 28) by done. rewrite (N.ones_spec_high 28) by done.
    rewrite andb_false_r. destruct (N.ltb_spec n 32) as [Hn'|Hn'].
    + rewrite N.ones_spec_low by done. rewrite xorb_false_r. by destruct (N.testbit v n).
    + rewrite (Hhigh n v 32) by done. done.
Qed.

Lemma elf_hash_step_spec h b : elf_hash_step h b = gabi_step h b.
Proof.
  unfold elf_hash_step, gabi_step.
  assert (Hv : u32 (u32 (N.shiftl h 4) + b) = (16 * h + b) mod 2^32).
  { unfold u32. rewrite N.shiftl_mul_pow2. change (2^4) with 16.
    rewrite N.add_mod_idemp_l by done. f_equal. lia. }
  rewrite Hv. set (v := (16 * h + b) mod 2^32).
  assert (Hlt : v < 2^32) by (apply N.mod_lt; done).
  rewrite mask_top by done.
  assert (Hq : v / 2^28 < 16) by (apply N.div_lt_upper_bound; [done|]; change (2^28 * 16) with (2^32); done).
  assert (Hg : N.shiftr (2^28 * (v / 2^28)) 24 = 16 * (v / 2^28)).
  { rewrite N.shiftr_div_pow2. change (2^28) with (2^24 * 16) at 1. rewrite <- N.mul_assoc, N.mul_comm.
    by rewrite N.div_mul. }
  rewrite Hg. destruct (N.eqb_spec (2^28 * (v / 2^28)) 0) as [H0|H0].
  - assert (Hz : v / 2^28 = 0) by lia. rewrite Hz. change (2^28 * 0) with 0.
    rewrite <- (N.lxor_0_r v) at 1. change 0 with (2^28 * 0) at 2. rewrite <- Hz.
    rewrite clear_top by (done || lia). rewrite Hz. done.
  - apply clear_top; [done|]. lia.
Qed.

Lemma fold_left_ext {A B} (f g : A -> B -> A) l a : (forall x y, f x y = g x y) -> fold_left f l a = fold_left g l a.
Proof. intros H. revert a; induction l; intros a0; simpl; [done|]. by rewrite H. Qed.

Lemma elf_hash_spec name : elf_hash name = gabi_hash (string_bytes name).
Proof. apply fold_left_ext, elf_hash_step_spec. Qed.

Lemma lxor_lt a b n : a < 2^n -> b < 2^n -> N.lxor a b < 2^n.
Proof.
  intros Ha Hb. destruct (decide (N.lxor a b = 0)) as [->|Hne]; [lia|].
  apply N.log2_lt_pow2; [lia|].
  eapply N.le_lt_trans; [apply N.log2_lxor|].
  apply N.max_lub_lt.
  - destruct (decide (a = 0)) as [->|]; [|apply N.log2_lt_pow2; lia].
    destruct (decide (n = 0)) as [->|]; [|by apply N.neq_0_lt_0].
    assert (b = 0) as -> by (change (2^0) with 1 in Hb; lia). done.
  - destruct (decide (b = 0)) as [->|]; [|apply N.log2_lt_pow2; lia].
    destruct (decide (n = 0)) as [->|]; [|by apply N.neq_0_lt_0].
    assert (a = 0) as -> by (change (2^0) with 1 in Ha; lia). done.
Qed.

Lemma gabi_step_lt h b : gabi_step h b < 2^28.
Proof.
  unfold gabi_step. set (v := (16 * h + b) mod 2^32).
  assert (Hlt : v < 2^32) by (apply N.mod_lt; done).
  assert (Hq : v / 2^28 < 16) by (apply N.div_lt_upper_bound; [done|]; change (2^28 * 16) with (2^32); done).
  apply lxor_lt; [by apply N.mod_lt|].
  eapply N.lt_trans with (16 * 16); [lia|]. by vm_compute.
Qed.

Lemma gabi_hash_lt l : gabi_hash l < 2^28.
Proof.
  unfold gabi_hash. assert (H : forall a, a < 2^28 -> fold_left gabi_step l a < 2^28).
  { induction l as [|b l IH]; intros a Ha; simpl; [done|]. apply IH, gabi_step_lt. }
  apply H. by vm_compute.
Qed.

Lemma elf_gnu_hash_spec name : elf_gnu_hash name = gnu_hash (string_bytes name).
Proof.
  unfold elf_gnu_hash, gnu_hash.
  assert (H : forall l a a', a = a' mod 2^32 ->
    fold_left elf_gnu_hash_step l a = fold_left (fun h b => 33 * h + b) l a' mod 2^32).
  { induction l as [|b l IH]; intros a a' Ha; simpl; [done|]. apply IH.
    unfold elf_gnu_hash_step, u32. subst a. rewrite N.shiftl_mul_pow2. change (2^5) with 32.
    rewrite N.add_mod_idemp_l by done. rewrite <- N.add_assoc, N.add_mod_idemp_l by done.
    rewrite N.add_assoc.
    replace (a' mod 2^32 * 32 + a' mod 2^32 + b) with (33 * (a' mod 2^32) + b) by lia.
    rewrite <- N.add_mod_idemp_l by done. rewrite N.mul_mod_idemp_r by done.
    by rewrite N.add_mod_idemp_l by done. }
  apply H. done.
Qed.

Lemma gnu_hash_lt l : gnu_hash l < 2^32.
Proof. apply N.mod_lt. done. Qed.

(** * Word tables *)
Lemma w32_words ws rest k v : ws !! N.to_nat k = Some v -> v < 2^32 ->
  w32 ((ws ≫= le_bytes 4) ++ rest) k = Some v.
Proof.
  intros Hk Hv. unfold w32. pose proof (rd_words 4 ws [] rest (N.to_nat k) v Hk) as H.
  change (blen []) with 0 in H. rewrite app_nil_l in H.
  replace (0 + N.of_nat 4 * N.of_nat (N.to_nat k)) with (4 * k) in H by lia.
  rewrite H. change (2 ^ (8 * N.of_nat 4)) with (2^32). by rewrite N.mod_small.
Qed.

Lemma ser_hashtab_words t :
  ser_hashtab t = ([ht_nbuckets t; ht_nchains t] ++ ht_buckets t ++ ht_chains t) ≫= le_bytes 4.
Proof.
  unfold ser_hashtab. change ([ht_nbuckets t; ht_nchains t] ++ ht_buckets t ++ ht_chains t)
    with (ht_nbuckets t :: ht_nchains t :: (ht_buckets t ++ ht_chains t)).
  rewrite !bind_cons. done.
Qed.

(** * The SysV table *)

(** Linked lists threaded through [chains]. *)
Inductive path (chains : list N) : N -> list N -> Prop :=
| path_nil : path chains 0 []
| path_cons i nxt l : i <> 0 -> chains !! N.to_nat i = Some nxt -> path chains nxt l -> path chains i (i :: l).

Lemma path_0 chains l : path chains 0 l -> l = [].
Proof. inversion 1; subst; [done|congruence]. Qed.

(** Indices 1..m-1 whose hash falls in bucket [b]. *)
Definition in_bucket (hashes : list N) (nb b : N) (m : nat) : list N :=
  filter (fun i => (default 0 (hashes !! N.to_nat i)) mod nb = b) (N.of_nat <$> seq 1 (m - 1)).

Lemma elem_in_bucket hashes nb b m i :
  i ∈ in_bucket hashes nb b m <->
  (default 0 (hashes !! N.to_nat i)) mod nb = b /\ 1 <= i /\ i < N.of_nat m.
Proof.
  unfold in_bucket. rewrite elem_of_list_filter, elem_of_list_fmap. split.
  - intros [Hb (j & -> & Hj%elem_of_seq)]. split; [done|]. lia.
  - intros (Hb & H1 & H2). split; [done|]. exists (N.to_nat i). split; [lia|].
    apply elem_of_seq. lia.
Qed.

Lemma in_bucket_S hashes nb b m : (1 <= m)%nat ->
  in_bucket hashes nb b (S m) = in_bucket hashes nb b m ++
    (if decide ((default 0 (hashes !! m)) mod nb = b) then [N.of_nat m] else []).
Proof.
  intros Hm. unfold in_bucket. replace (S m - 1)%nat with ((m - 1) + 1)%nat by lia.
  rewrite seq_app, fmap_app, filter_app. f_equal.
  replace (1 + (m - 1))%nat with m by lia. simpl. rewrite filter_cons, Nat2N.id. by destruct (decide _).
Qed.

Lemma in_bucket_nodup hashes nb b m : NoDup (in_bucket hashes nb b m).
Proof.
  unfold in_bucket. apply NoDup_filter. apply NoDup_fmap; [|apply NoDup_seq].
  intros x y. lia.
Qed.

Lemma path_update_notin chains y l k v :
  path chains y l -> k ∉ l -> path (<[N.to_nat k := v]> chains) y l.
Proof.
  induction 1 as [|i nxt l Hi Hl Hp IH]; intros Hk; [constructor|].
  econstructor; [done| |apply IH; set_solver].
  rewrite list_lookup_insert_ne; [done|]. assert (k <> i) by set_solver. lia.
Qed.

Lemma path_extend chains y l z m :
  path chains y (l ++ [z]) -> NoDup (l ++ [z]) -> m ∉ l ++ [z] -> m <> 0 ->
  chains !! N.to_nat m = Some 0 ->
  path (<[N.to_nat z := m]> chains) y ((l ++ [z]) ++ [m]).
Proof.
  revert y; induction l as [|i l IH]; intros y Hp Hnd Hm Hm0 Hc; simpl in *.
  - inversion Hp as [|? nxt ? Hz Hl Hp']; subst.
    assert (Hlt : (N.to_nat z < length chains)%nat) by (by eapply lookup_lt_Some).
    econstructor; [done|by apply list_lookup_insert|].
    econstructor; [done| |constructor].
    rewrite list_lookup_insert_ne; [done|]. assert (m <> z) by set_solver. lia.
  - inversion Hp as [|? nxt ? Hz Hl Hp']; subst.
    apply NoDup_cons in Hnd as [Hni Hnd].
    econstructor; [done| |apply IH; [done|done|set_solver|done|done]].
    rewrite list_lookup_insert_ne; [done|]. assert (z <> i) by set_solver. lia.
Qed.

Lemma path_walk chains y l z fuel :
  path chains y (l ++ [z]) -> (length l <= fuel)%nat -> ht_walk fuel chains y = Ok z.
Proof.
  revert y fuel; induction l as [|i l IH]; intros y fuel Hp Hf; simpl in *.
  - inversion Hp as [|? nxt ? Hz Hl Hp']; subst. inversion Hp'; subst.
    destruct fuel; simpl; unfold index; rewrite Hl; done.
  - inversion Hp as [|? nxt ? Hz Hl Hp']; subst.
    destruct fuel as [|fuel]; [lia|]. simpl. unfold index. rewrite Hl. simpl.
    destruct (N.eqb_spec nxt 0) as [->|Hn]; [inversion Hp' as [Hnil|]; subst; by destruct l|].
    apply IH; [done|lia].
Qed.

Lemma path_elem_lt chains y l i : path chains y l -> i ∈ l -> (N.to_nat i < length chains)%nat.
Proof.
  induction 1 as [|j nxt l Hj Hl Hp IH]; [set_solver|].
  intros [->|Hin]%elem_of_cons; [by eapply lookup_lt_Some|auto].
Qed.

Record ht_inv (hashes : list N) (nb : N) (m : nat) (st : list N * list N) : Prop := {
  hi_blen : length st.1 = N.to_nat nb;
  hi_clen : length st.2 = length hashes;
  hi_path : forall b, b < nb -> exists y, st.1 !! N.to_nat b = Some y /\ path st.2 y (in_bucket hashes nb b m);
  hi_fresh : forall j, (m <= j)%nat -> (j < length hashes)%nat -> st.2 !! j = Some 0 }.

Lemma in_bucket_length hashes nb b m : (length (in_bucket hashes nb b m) <= m - 1)%nat.
Proof.
  unfold in_bucket. etrans; [apply filter_length|]. by rewrite fmap_length, seq_length.
Qed.

Lemma ht_step_inv hashes nb m h st : 0 < nb -> N.of_nat (length hashes) < 2^32 ->
  hashes !! m = Some h -> ht_inv hashes nb m st ->
  exists st', ht_step nb st (m, h) = Ok st' /\ ht_inv hashes nb (S m) st'.
Proof.
  intros Hnb Hlen Hm [Hbl Hcl Hpath Hfresh]. destruct st as [buckets chains]; simpl in *.
  assert (Hmlt : (m < length hashes)%nat) by (by eapply lookup_lt_Some).
  assert (Hmu : u32 (N.of_nat m) = N.of_nat m) by (apply N.mod_small; lia).
  set (b := h mod nb). assert (Hb : b < nb) by (apply N.mod_lt; lia).
  destruct (Hpath b Hb) as (y & Hy & Hp).
  unfold ht_step. fold b. unfold index. rewrite Hy. simpl.
  destruct m as [|m'].
  - (* the null symbol *)
    change (in_bucket hashes nb b 0) with (@nil N) in Hp. inversion Hp; subst. simpl.
    eexists. split; [done|]. split; simpl.
    + by rewrite insert_length.
    + done.
    + intros c Hc. destruct (Hpath c Hc) as (yc & Hyc & Hpc).
      change (in_bucket hashes nb c 0) with (@nil N) in Hpc. inversion Hpc; subst.
      exists 0. split; [|constructor].
      destruct (decide (c = b)) as [->|Hne].
      * apply list_lookup_insert. rewrite Hbl. lia.
      * rewrite list_lookup_insert_ne by lia. done.
    + intros j Hj Hj'. apply Hfresh; lia.
  - set (m := S m') in *.
    assert (Hdef : default 0 (hashes !! m) = h) by (by rewrite Hm).
    assert (Hnext : in_bucket hashes nb b (S m) = in_bucket hashes nb b m ++ [N.of_nat m]).
    { rewrite in_bucket_S by lia. rewrite Hdef. by rewrite decide_True. }
    assert (Hother : forall c, c <> b -> in_bucket hashes nb c (S m) = in_bucket hashes nb c m).
    { intros c Hc. rewrite in_bucket_S by lia. rewrite Hdef. rewrite decide_False; [|done].
      by rewrite app_nil_r. }
    destruct (N.eqb_spec y 0) as [->|Hy0].
    + apply path_0 in Hp.
      eexists. split; [done|]. rewrite Hmu. split; simpl.
      * by rewrite insert_length.
      * done.
      * intros c Hc. destruct (decide (c = b)) as [->|Hne].
        -- exists (N.of_nat m). split; [apply list_lookup_insert; lia|].
           rewrite Hnext, Hp. simpl.
           econstructor; [lia| |constructor]. rewrite Nat2N.id. apply Hfresh; lia.
        -- destruct (Hpath c Hc) as (yc & Hyc & Hpc). exists yc.
           rewrite list_lookup_insert_ne by lia. by rewrite Hother.
      * intros j Hj Hj'. apply Hfresh; lia.
    + destruct (exists_last (l := in_bucket hashes nb b m)) as (l & z & Hlz).
      { intros Hnil. rewrite Hnil in Hp. inversion Hp. congruence. }
      rewrite Hlz in Hp.
      assert (Hz : z ∈ in_bucket hashes nb b m) by (rewrite Hlz; set_solver).
      apply elem_in_bucket in Hz as (Hzb & Hz1 & Hzm).
      rewrite (path_walk chains y l z) by
        (done || (pose proof (in_bucket_length hashes nb b m); rewrite Hlz, app_length in *; simpl in *; lia)).
      simpl. rewrite Hmu. eexists. split; [done|]. split; simpl.
      * done.
      * by rewrite insert_length.
      * intros c Hc. destruct (decide (c = b)) as [->|Hne].
        -- exists y. split; [done|]. rewrite Hnext, Hlz. apply path_extend; [done| | | |].
           ++ rewrite <- Hlz. apply in_bucket_nodup.
           ++ rewrite <- Hlz. rewrite elem_in_bucket. lia.
           ++ lia.
           ++ rewrite Nat2N.id. apply Hfresh; lia.
        -- destruct (Hpath c Hc) as (yc & Hyc & Hpc). exists yc. split; [done|].
           rewrite Hother by done. apply path_update_notin; [done|].
           rewrite elem_in_bucket. intros (Hzc & _). congruence.
      * intros j Hj Hj'. rewrite list_lookup_insert_ne by lia. apply Hfresh; lia.
Qed.

Lemma imap_pair_cons {A} (a : A) l :
  imap pair (a :: l) = (0%nat, a) :: imap (fun i x => (S i, x)) l.
Proof. done. Qed.

Lemma ht_loop_inv hashes nb : 0 < nb -> N.of_nat (length hashes) < 2^32 ->
  forall suf m st, drop m hashes = suf -> ht_inv hashes nb m st ->
  exists st', foldM (ht_step nb) (imap (fun i x => ((m + i)%nat, x)) suf) st = Ok st' /\
    ht_inv hashes nb (m + length suf) st'.
Proof.
  intros Hnb Hlen. induction suf as [|h suf IH]; intros m st Hd Hi.
  - exists st. simpl. split; [done|]. by rewrite Nat.add_0_r.
  - assert (Hm : hashes !! m = Some h).
    { rewrite <- (Nat.add_0_r m), <- lookup_drop, Hd. done. }
    destruct (ht_step_inv hashes nb m h st Hnb Hlen Hm Hi) as (st1 & Hs & Hi1).
    rewrite imap_cons. simpl. rewrite Nat.add_0_r, Hs. simpl.
    destruct (IH (S m) st1) as (st2 & Hf & Hi2).
    { change (S m) with (1 + m)%nat. rewrite Nat.add_comm, <- drop_drop, Hd. done. }
    { done. }
    exists st2. split.
    + rewrite <- Hf. f_equal. apply imap_ext. intros i x _. simpl. f_equal. lia.
    + by rewrite Nat.add_succ_r.
Qed.

Lemma ht_init_inv hashes nb : ht_inv hashes nb 0
  (replicate (N.to_nat nb) 0, replicate (length hashes) 0).
Proof.
  split; simpl.
  - by rewrite replicate_length.
  - by rewrite replicate_length.
  - intros b Hb. exists 0. split; [apply lookup_replicate_2; lia|constructor].
  - intros j _ Hj. by apply lookup_replicate_2.
Qed.

Lemma ht_build hashes : N.of_nat (length hashes) < 2^32 ->
  exists buckets chains, let nb := N.of_nat (length hashes) / 2 + 1 in
    ht_add_symbols hashes = Ok (mkHashtab nb (N.of_nat (length hashes)) buckets chains) /\
    ht_inv hashes nb (length hashes) (buckets, chains).
Proof.
  intros Hlen. set (n := N.of_nat (length hashes)) in *. set (nb := n / 2 + 1).
  assert (Hnb : 0 < nb) by (unfold nb; lia).
  destruct (ht_loop_inv hashes nb Hnb Hlen hashes 0%nat _ eq_refl (ht_init_inv hashes nb))
    as ([buckets chains] & Hf & Hi).
  simpl in Hi. exists buckets, chains. split; [|done].
  unfold ht_add_symbols. unfold blen. fold n.
  assert (Hun : u32 n = n) by (by apply N.mod_small). rewrite Hun. fold nb.
  change (imap pair hashes) with (imap (fun i x => ((0 + i)%nat, x)) hashes). rewrite Hf.
  simpl. unfold ht_new, blen. destruct Hi as [Hbl Hcl _ _]. simpl in *.
  rewrite Hbl, Hcl. fold n. rewrite Hun. rewrite N2Nat.id. do 2 f_equal.
  apply N.mod_small. unfold nb. lia.
Qed.

(** Reading the serialized table. *)
Section sysv_bytes.
  Context (hashes buckets chains : list N).
  Let n := N.of_nat (length hashes).
  Let nb := n / 2 + 1.
  Let t := mkHashtab nb n buckets chains.
  Hypothesis Hlen : n < 2^32.
  Hypothesis Hi : ht_inv hashes nb (length hashes) (buckets, chains).

  Lemma hb_header : w32 (ser_hashtab t) 0 = Some nb /\ w32 (ser_hashtab t) 1 = Some n.
  Proof.
    rewrite ser_hashtab_words, <- (app_nil_r (mbind _ _)).
    split; apply w32_words; simpl; try done. unfold nb. lia.
  Qed.

  Lemma hb_lookup_bucket b y : b < nb -> buckets !! N.to_nat b = Some y -> y < 2^32 ->
    w32 (ser_hashtab t) (2 + b) = Some y.
  Proof.
    intros Hb Hy Hlt. rewrite ser_hashtab_words, <- (app_nil_r (mbind _ _)).
    apply w32_words; [|done]. replace (N.to_nat (2 + b)) with (S (S (N.to_nat b))) by lia.
    simpl. rewrite lookup_app_l; [done|]. by eapply lookup_lt_Some.
  Qed.

  Lemma hb_lookup_chain i y : chains !! N.to_nat i = Some y -> y < 2^32 ->
    w32 (ser_hashtab t) (2 + nb + i) = Some y.
  Proof.
    intros Hy Hlt. rewrite ser_hashtab_words, <- (app_nil_r (mbind _ _)).
    apply w32_words; [|done].
    replace (N.to_nat (2 + nb + i)) with (S (S (N.to_nat nb + N.to_nat i))) by lia.
    pose proof (hi_blen _ _ _ _ Hi) as Hbl. simpl in *. rewrite lookup_app_r; rewrite Hbl; [|lia].
    replace (N.to_nat nb + N.to_nat i - N.to_nat nb)%nat with (N.to_nat i) by lia. done.
  Qed.

  Lemma path_head_lt y l : path chains y l -> y < 2^32.
  Proof.
    intros Hp. destruct (decide (y = 0)) as [->|Hy]; [done|].
    assert (Hin : y ∈ l) by (inversion Hp; subst; [done|set_solver]).
    pose proof (path_elem_lt _ _ _ _ Hp Hin) as Hlt. pose proof (hi_clen _ _ _ _ Hi) as Hcl.
    simpl in *. unfold n in *. lia.
  Qed.

  Lemma path_visits y l : path chains y l -> sysv_visits (ser_hashtab t) nb y l.
  Proof.
    induction 1 as [|i nxt l Hi0 Hl Hp IH]; [constructor|].
    econstructor; [done| |exact IH]. apply hb_lookup_chain; [done|]. by eapply path_head_lt.
  Qed.

  Lemma hb_visits h : exists y l,
    w32 (ser_hashtab t) (2 + h mod nb) = Some y /\ sysv_visits (ser_hashtab t) nb y l /\
    NoDup l /\
    (forall i, i ∈ l <-> 1 <= i < n /\ default 0 (hashes !! N.to_nat i) mod nb = h mod nb).
  Proof.
    assert (Hb : h mod nb < nb) by (apply N.mod_lt; unfold nb; lia).
    destruct (hi_path _ _ _ _ Hi (h mod nb) Hb) as (y & Hy & Hp).
    exists y, (in_bucket hashes nb (h mod nb) (length hashes)). simpl in *.
    split; [apply hb_lookup_bucket; [done|done|by eapply path_head_lt]|].
    split; [by apply path_visits|]. split; [apply in_bucket_nodup|].
    intros i. rewrite elem_in_bucket. unfold n. tauto.
  Qed.
End sysv_bytes.

Lemma sysv_search_visits data nb accept y l fuel :
  sysv_visits data nb y l -> (length l < fuel)%nat ->
  sysv_search fuel data nb accept y = List.find accept l.
Proof.
  intros Hv; revert fuel. induction Hv as [|y nxt l Hy Hw Hv IH]; intros fuel Hf; simpl in *.
  - destruct fuel; [lia|]. done.
  - destruct fuel as [|fuel]; [lia|]. simpl.
    rewrite (proj2 (N.eqb_neq y 0)) by done. destruct (accept y); [done|].
    rewrite Hw. simpl. apply IH. lia.
Qed.

(** C07, traversal *)
Lemma sysv_table hashes : N.of_nat (length hashes) < 2^32 ->
  exists t nb, ht_add_symbols hashes = Ok t /\ nb <> 0 /\ w32 (ser_hashtab t) 0 = Some nb /\
    forall h, exists y l,
      w32 (ser_hashtab t) (2 + h mod nb) = Some y /\ sysv_visits (ser_hashtab t) nb y l /\ NoDup l /\
      (forall i, i ∈ l <-> 1 <= i < N.of_nat (length hashes) /\
                           default 0 (hashes !! N.to_nat i) mod nb = h mod nb).
Proof.
  intros Hlen. destruct (ht_build hashes Hlen) as (buckets & chains & Hb & Hi).
  eexists _, (N.of_nat (length hashes) / 2 + 1). split; [exact Hb|]. split; [lia|]. split; [by apply hb_header|].
  intros h. by apply hb_visits.
Qed.

(** C07, lookup by name *)
Lemma sysv_finds names : N.of_nat (length names) < 2^32 ->
  exists t, ht_add_symbols (elf_hash <$> names) = Ok t /\
    (forall i name, (1 <= i)%nat -> names !! i = Some name ->
      exists j, sysv_lookup (ser_hashtab t) (fun j => bool_decide (names !! N.to_nat j = Some name)) (elf_hash name) = Some j
                /\ names !! N.to_nat j = Some name) /\
    (forall name, name ∉ drop 1 names ->
      sysv_lookup (ser_hashtab t) (fun j => bool_decide (names !! N.to_nat j = Some name)) (elf_hash name) = None).
Proof.
  intros Hlen. set (hashes := elf_hash <$> names).
  assert (Hl : length hashes = length names) by apply fmap_length.
  assert (Hlen' : N.of_nat (length hashes) < 2^32) by (by rewrite Hl).
  destruct (ht_build hashes Hlen') as (buckets & chains & Hb & Hi).
  set (n := N.of_nat (length hashes)) in *. set (nb := n / 2 + 1) in *.
  eexists. split; [exact Hb|]. set (t := mkHashtab nb n buckets chains).
  assert (Hlook : forall name, exists l,
    sysv_lookup (ser_hashtab t) (fun j => bool_decide (names !! N.to_nat j = Some name)) (elf_hash name)
    = List.find (fun j => bool_decide (names !! N.to_nat j = Some name)) l /\
    (forall i, i ∈ l <-> 1 <= i < n /\ default 0 (hashes !! N.to_nat i) mod nb = elf_hash name mod nb)).
  { intros name. destruct (hb_visits hashes buckets chains Hlen' Hi (elf_hash name)) as (y & l & Hy & Hv & Hnd & Hin).
    exists l. split; [|done]. unfold sysv_lookup.
    destruct (hb_header hashes buckets chains Hlen') as [H0 H1].
    fold n nb t in H0, H1, Hy, Hv, Hin. rewrite H0, H1. cbn [mbind option_bind].
    rewrite Hy. cbn [mbind option_bind].
    apply (sysv_search_visits (ser_hashtab t) nb _ y l (S (N.to_nat n))); [done|].
    assert (Hsub : l ⊆+ (N.of_nat <$> seq 1 (length hashes))).
    { apply NoDup_submseteq; [done|]. intros i Hi'. apply Hin in Hi' as [[Hi1 Hi2] _].
      apply elem_of_list_fmap. exists (N.to_nat i). split; [lia|]. apply elem_of_seq. unfold n in *. lia. }
    apply submseteq_length in Hsub. rewrite fmap_length, seq_length in Hsub. unfold n. lia. }
  split.
  - intros i name Hi1 Hname. destruct (Hlook name) as (l & -> & Hin).
    assert (Hil : N.of_nat i ∈ l).
    { apply Hin. apply lookup_lt_Some in Hname as Hlt. split; [unfold n; lia|].
      rewrite Nat2N.id. unfold hashes. rewrite list_lookup_fmap, Hname. done. }
    destruct (List.find _ l) as [j|] eqn:Hf.
    + exists j. split; [done|]. apply List.find_some in Hf as [_ Hf].
      by apply bool_decide_eq_true in Hf.
    + exfalso. apply elem_of_list_In in Hil.
      pose proof (List.find_none _ _ Hf _ Hil) as Hn. simpl in Hn.
      rewrite Nat2N.id in Hn. apply bool_decide_eq_false in Hn. done.
  - intros name Hnot. destruct (Hlook name) as (l & -> & Hin).
    destruct (List.find _ l) as [j|] eqn:Hf; [|done]. exfalso.
    apply List.find_some in Hf as [Hj Hf]. apply bool_decide_eq_true in Hf.
    apply elem_of_list_In, Hin in Hj as [[Hj1 _] _]. apply Hnot.
    apply elem_of_list_lookup. exists (N.to_nat j - 1)%nat. rewrite lookup_drop.
    replace (1 + (N.to_nat j - 1))%nat with (N.to_nat j) by lia. done.
Qed.
