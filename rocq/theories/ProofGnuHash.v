(** Proofs about the GNU hash table. *)
From Verif Require Export ProofHash.

(** * The bloom filter *)

Definition bit_at (bloom : list N) (i : nat) (b : N) : bool :=
  N.testbit (default 0 (bloom !! i)) b.

Lemma bit_at_alter bloom i k j b :
  bit_at bloom j b = true ->
  bit_at (alter (fun w => N.lor w (N.shiftl 1 k)) i bloom) j b = true.
Proof.
  unfold bit_at. intros H. destruct (decide (i = j)) as [->|Hne].
  - rewrite list_lookup_alter. destruct (bloom !! j) as [w|]; simpl in *; [|done].
    rewrite N.lor_spec, H. done.
  - by rewrite list_lookup_alter_ne.
Qed.

Lemma bit_at_set bloom i k : (i < length bloom)%nat ->
  bit_at (alter (fun w => N.lor w (N.shiftl 1 k)) i bloom) i k = true.
Proof.
  intros Hi. unfold bit_at. rewrite list_lookup_alter.
  destruct (lookup_lt_is_Some_2 bloom i Hi) as [w ->]. cbn -[N.shiftl N.lor N.testbit].
  rewrite N.lor_spec, N.shiftl_spec_high', N.sub_diag by lia. by rewrite orb_true_r.
Qed.

Lemma lor_lt a b n : a < 2^n -> b < 2^n -> N.lor a b < 2^n.
Proof.
  intros Ha Hb. destruct (decide (N.lor a b = 0)) as [->|Hne]; [lia|].
  apply N.log2_lt_pow2; [lia|]. rewrite N.log2_lor.
  destruct (decide (n = 0)) as [->|Hn].
  { change (2^0) with 1 in *. assert (a = 0) as -> by lia. assert (b = 0) as -> by lia. done. }
  apply N.max_lub_lt.
  - destruct (decide (a = 0)) as [->|]; [change (N.log2 0) with 0; lia|apply N.log2_lt_pow2; lia].
  - destruct (decide (b = 0)) as [->|]; [change (N.log2 0) with 0; lia|apply N.log2_lt_pow2; lia].
Qed.

Lemma calculate_bloom_length bloom h c s : length (calculate_bloom bloom h c s) = length bloom.
Proof. unfold calculate_bloom. by rewrite !alter_length. Qed.

Lemma Forall_alter_lt (k : N) i bloom : k < 64 -> Forall (fun w => w < 2^64) bloom ->
  Forall (fun w => w < 2^64) (alter (fun w => N.lor w (N.shiftl 1 k)) i bloom).
Proof.
  intros Hk Hall. apply Forall_alter; [done|]. intros w _ Hw. apply lor_lt; [done|].
  rewrite N.shiftl_1_l. apply N.pow_lt_mono_r; lia.
Qed.

Lemma calculate_bloom_lt bloom h s : Forall (fun w => w < 2^64) bloom ->
  Forall (fun w => w < 2^64) (calculate_bloom bloom h 64 s).
Proof.
  intros H. unfold calculate_bloom. apply Forall_alter_lt; [by apply N.mod_lt|].
  apply Forall_alter_lt; [by apply N.mod_lt|]. done.
Qed.

Definition bloom_has (bloom : list N) (h s : N) : Prop :=
  let i := N.to_nat ((h / 64) mod u32 (blen bloom)) in
  bit_at bloom i (h mod 64) = true /\ bit_at bloom i (N.shiftr h s mod 64) = true.

Lemma bloom_fold syms s bloom : 0 < u32 (blen bloom) -> u32 (blen bloom) = blen bloom ->
  let bl := fold_left (fun bl h => calculate_bloom bl h 64 s) syms bloom in
  length bl = length bloom /\
  (forall h, bloom_has bloom h s \/ h ∈ syms -> bloom_has bl h s).
Proof.
  revert bloom; induction syms as [|g syms IH]; intros bloom H0 Hb; simpl.
  - split; [done|]. intros h [H|H]; [done|set_solver].
  - assert (Hlen : length (calculate_bloom bloom g 64 s) = length bloom) by apply calculate_bloom_length.
    assert (Hbl : blen (calculate_bloom bloom g 64 s) = blen bloom) by (unfold blen; by rewrite Hlen).
    destruct (IH (calculate_bloom bloom g 64 s)) as [H1 H2]; [by rewrite Hbl|by rewrite Hbl|].
    split; [by rewrite H1|]. intros h Hh. apply H2.
    destruct (decide (h = g)) as [->|Hne].
    + left. unfold bloom_has. rewrite Hbl. cbv zeta. unfold calculate_bloom.
      set (i := N.to_nat ((g / 64) mod u32 (blen bloom))).
      assert (Hi : (i < length bloom)%nat).
      { unfold i. assert ((g / 64) mod u32 (blen bloom) < u32 (blen bloom)) by (apply N.mod_lt; lia).
        unfold blen in *. lia. }
      split.
      * apply bit_at_alter, bit_at_set. done.
      * apply bit_at_set. by rewrite alter_length.
    + destruct Hh as [[Ha Hb']|Hh]; [left|right; set_solver].
      unfold bloom_has. rewrite Hbl. cbv zeta. unfold calculate_bloom. split; by do 2 apply bit_at_alter.
Qed.

Lemma bloom_fold_lt syms s bloom : Forall (fun w => w < 2^64) bloom ->
  Forall (fun w => w < 2^64) (fold_left (fun bl h => calculate_bloom bl h 64 s) syms bloom).
Proof.
  revert bloom; induction syms as [|g syms IH]; intros bloom H; simpl; [done|].
  by apply IH, calculate_bloom_lt.
Qed.

(** * Chains *)
Lemma chain_word nb syms k g : syms !! k = Some g -> g < 2^32 ->
  exists c, gt_make_chains nb syms !! k = Some c /\ c < 2^32 /\ c / 2 = g / 2 /\
    N.odd c = match syms !! S k with Some g' => negb (g mod nb =? g' mod nb) | None => true end.
Proof.
  assert (Hset : forall g, g < 2^32 -> N.lor g 1 < 2^32 /\ N.lor g 1 / 2 = g / 2 /\ N.odd (N.lor g 1) = true).
  { intros x Hx. split; [apply lor_lt; [done|by vm_compute]|]. split.
    - rewrite <- !N.div2_div. rewrite !N.div2_spec, N.shiftr_lor. change (N.shiftr 1 1) with 0. apply N.lor_0_r.
    - rewrite <- N.bit0_odd, N.lor_spec. change (N.testbit 1 0) with true. apply orb_true_r. }
  assert (Hclr : forall g, g < 2^32 -> N.land g (N.lxor 1 0xffffffff) < 2^32 /\
     N.land g (N.lxor 1 0xffffffff) / 2 = g / 2 /\ N.odd (N.land g (N.lxor 1 0xffffffff)) = false).
  { intros x Hx. change (N.lxor 1 0xffffffff) with (N.shiftl (N.ones 31) 1).
    assert (Hhalf : N.land x (N.shiftl (N.ones 31) 1) / 2 = x / 2).
    { rewrite <- !N.div2_div. rewrite !N.div2_spec, N.shiftr_land, N.shiftr_shiftl_l by lia.
      rewrite N.sub_diag, N.shiftl_0_r, N.land_ones, N.shiftr_div_pow2. apply N.mod_small. lia. }
    assert (Hodd : N.odd (N.land x (N.shiftl (N.ones 31) 1)) = false).
    { rewrite <- N.bit0_odd, N.land_spec, N.shiftl_spec_low by lia. apply andb_false_r. }
    split; [|done]. lia. }
  revert k; induction syms as [|x syms IH]; intros k Hk Hg; [done|].
  destruct k as [|k]; simpl in Hk.
  - injection Hk as ->. cbn [gt_make_chains]. eexists; split; [done|]. simpl. destruct syms as [|g' tl]; simpl.
    + apply Hset. done.
    + destruct (g mod nb =? g' mod nb); [by apply Hclr|by apply Hset].
  - destruct (IH k Hk Hg) as (c & Hc & Hrest). exists c. split; [|done].
    cbn [gt_make_chains]. done.
Qed.

(** * Reading the section *)
Section gnu_bytes.
  Context (t : gnutab) (syms : list N) (nb : N).
  Hypothesis Hnb : gt_nbuckets t = nb.
  Hypothesis Hnb0 : 0 < nb < 2^32.
  Hypothesis Hoff : gt_sym_offset t = 1.
  Hypothesis Hsize : blen (gt_bloom t) = gt_bloom_size t.
  Hypothesis Hsize32 : gt_bloom_size t < 2^32.
  Hypothesis Hshift32 : gt_bloom_shift t < 2^32.
  Hypothesis Hbuckets : length (gt_buckets t) = N.to_nat nb.
  Hypothesis Hbuckets32 : Forall (fun b => b < 2^32) (gt_buckets t).
  Hypothesis Hbloom64 : Forall (fun w => w < 2^64) (gt_bloom t).
  Hypothesis Hchains : gt_chains t = gt_make_chains nb syms.
  Hypothesis Hsyms32 : Forall (fun g => g < 2^32) syms.
  Let data := ser_gnutab t.

  Lemma gnu_words : data =
    ([gt_nbuckets t; gt_sym_offset t; gt_bloom_size t; gt_bloom_shift t] ≫= le_bytes 4) ++
    (gt_bloom t ≫= le_bytes 8) ++ ((gt_buckets t ++ gt_chains t) ≫= le_bytes 4).
  Proof. unfold data, ser_gnutab. rewrite !bind_cons. change ([] ≫= le_bytes 4) with (@nil N).
    rewrite app_nil_r, <- !app_assoc. done. Qed.

  Lemma gnu_header :
    w32 data 0 = Some nb /\ w32 data 1 = Some 1 /\ w32 data 2 = Some (gt_bloom_size t) /\
    w32 data 3 = Some (gt_bloom_shift t).
  Proof.
    rewrite gnu_words. repeat split; apply w32_words; simpl; try done; try congruence; lia.
  Qed.

  Lemma gnu_bloom_word i w : gt_bloom t !! N.to_nat i = Some w -> rd 8 data (16 + 8 * i) = Some w.
  Proof.
    intros Hw. rewrite gnu_words.
    pose proof (rd_words 8 (gt_bloom t) ([gt_nbuckets t; gt_sym_offset t; gt_bloom_size t; gt_bloom_shift t] ≫= le_bytes 4)
      ((gt_buckets t ++ gt_chains t) ≫= le_bytes 4) (N.to_nat i) w Hw) as H.
    unfold blen in H. rewrite (bind_length _ _ 4) in H by apply le_bytes_length.
    replace (N.of_nat (length [gt_nbuckets t; gt_sym_offset t; gt_bloom_size t; gt_bloom_shift t] * 4)
      + N.of_nat 8 * N.of_nat (N.to_nat i)) with (16 + 8 * i) in H by (cbn [length]; lia).
    rewrite H. f_equal. change (2 ^ (8 * N.of_nat 8)) with (2^64). apply N.mod_small.
    rewrite Forall_lookup in Hbloom64. eauto.
  Qed.

  Lemma gnu_tail k v : (gt_buckets t ++ gt_chains t) !! N.to_nat k = Some v -> v < 2^32 ->
    w32 data (4 + 2 * gt_bloom_size t + k) = Some v.
  Proof.
    intros Hk Hv. unfold w32. rewrite gnu_words.
    set (pre := ([gt_nbuckets t; gt_sym_offset t; gt_bloom_size t; gt_bloom_shift t] ≫= le_bytes 4)
                ++ (gt_bloom t ≫= le_bytes 8)).
    pose proof (rd_words 4 (gt_buckets t ++ gt_chains t) pre [] (N.to_nat k) v Hk) as H.
    rewrite app_nil_r in H. unfold pre in H at 1. rewrite <- app_assoc in H.
    assert (Hlen : blen pre = 16 + 8 * gt_bloom_size t).
    { unfold pre, blen. rewrite app_length, (bind_length _ _ 4), (bind_length _ _ 8) by apply le_bytes_length.
      unfold blen in Hsize. cbn [length]. lia. }
    rewrite Hlen in H.
    replace (16 + 8 * gt_bloom_size t + N.of_nat 4 * N.of_nat (N.to_nat k))
      with (4 * (4 + 2 * gt_bloom_size t + k)) in H by lia.
    rewrite H. f_equal. change (2 ^ (8 * N.of_nat 4)) with (2^32). by apply N.mod_small.
  Qed.

  Lemma gnu_bucket_word b y : gt_buckets t !! N.to_nat b = Some y ->
    w32 data (4 + 2 * gt_bloom_size t + b) = Some y.
  Proof.
    intros Hy. apply gnu_tail.
    - rewrite lookup_app_l; [done|]. by eapply lookup_lt_Some.
    - rewrite Forall_lookup in Hbuckets32. eauto.
  Qed.

  Lemma gnu_chain_word k g : syms !! k = Some g -> exists c,
    w32 data (4 + 2 * gt_bloom_size t + nb + N.of_nat k) = Some c /\ c / 2 = g / 2 /\
    N.odd c = match syms !! S k with Some g' => negb (g mod nb =? g' mod nb) | None => true end.
  Proof.
    intros Hg. assert (Hg32 : g < 2^32) by (rewrite Forall_lookup in Hsyms32; eauto).
    destruct (chain_word nb syms k g Hg Hg32) as (c & Hc & Hc32 & Hrest). exists c. split; [|done].
    rewrite <- N.add_assoc. apply gnu_tail; [|done].
    rewrite lookup_app_r; rewrite Hbuckets; [|lia]. rewrite Hchains.
    replace (N.to_nat (nb + N.of_nat k) - N.to_nat nb)%nat with k by lia. done.
  Qed.

  (** What a walk over the chain words finds: the first accepted symbol of the
      run of consecutive symbols in the same bucket. *)
  Fixpoint gsearch (accept : N -> bool) (h : N) (suf : list N) (y : N) : option N :=
    match suf with
    | [] => None
    | g :: tl =>
        if (g / 2 =? h / 2) && accept y then Some y
        else match tl with
             | [] => None
             | g' :: _ => if g mod nb =? g' mod nb then gsearch accept h tl (y + 1) else None
             end
    end.

  Lemma gnu_search_spec accept h fuel k : (k < length syms)%nat -> (length syms - k <= fuel)%nat ->
    gnu_search fuel data (4 + 2 * gt_bloom_size t + nb) 1 accept h (N.of_nat k + 1)
    = Some (gsearch accept h (drop k syms) (N.of_nat k + 1)).
  Proof.
    revert k; induction fuel as [|fuel IH]; intros k Hk Hf; [lia|].
    destruct (lookup_lt_is_Some_2 syms k Hk) as [g Hg].
    destruct (gnu_chain_word k g Hg) as (c & Hc & Hhalf & Hodd).
    cbn [gnu_search]. replace (N.of_nat k + 1 - 1) with (N.of_nat k) by lia. rewrite Hc.
    cbn [mbind option_bind]. rewrite (drop_S syms g k Hg). cbn [gsearch]. rewrite Hhalf.
    destruct ((g / 2 =? h / 2) && accept (N.of_nat k + 1)); [done|].
    rewrite Hodd. destruct (syms !! S k) as [g'|] eqn:Hg'.
    - rewrite (drop_S syms g' (S k) Hg').
      destruct (g mod nb =? g' mod nb); simpl; [|done].
      specialize (IH (S k)). rewrite (drop_S syms g' (S k) Hg') in IH.
      replace (N.of_nat (S k) + 1) with (N.of_nat k + 1 + 1) in IH by lia. apply IH.
      + by eapply lookup_lt_Some.
      + lia.
    - rewrite lookup_ge_None in Hg'. by rewrite drop_ge.
  Qed.
End gnu_bytes.

Lemma gsearch_found nb accept h suf y j gj :
  suf !! j = Some gj -> gj / 2 = h / 2 -> accept (y + N.of_nat j) = true ->
  (forall i gi, (i <= j)%nat -> suf !! i = Some gi -> gi mod nb = gj mod nb) ->
  exists z, gsearch nb accept h suf y = Some z /\ accept z = true.
Proof.
  revert y j; induction suf as [|g suf IH]; intros y j Hj Hh Hacc Hrun; [done|]. cbn [gsearch].
  destruct ((g / 2 =? h / 2) && accept y) eqn:Hc.
  { exists y. split; [done|]. by apply andb_true_iff in Hc as [_ ?]. }
  destruct j as [|j]; simpl in Hj.
  { injection Hj as ->. rewrite N.add_0_r in Hacc. rewrite Hh, N.eqb_refl, Hacc in Hc. done. }
  destruct suf as [|g' suf]; [done|].
  assert (H0 : g mod nb = gj mod nb) by (apply (Hrun 0%nat); [lia|done]).
  assert (H1 : g' mod nb = gj mod nb) by (apply (Hrun 1%nat); [lia|done]).
  rewrite H0, H1, N.eqb_refl. apply (IH (y + 1) j); [done|done| |].
  - replace (y + 1 + N.of_nat j) with (y + N.of_nat (S j)) by lia. done.
  - intros i gi Hi Hgi. apply (Hrun (S i)); [lia|done].
Qed.

Lemma gsearch_accepts nb accept h suf y z : gsearch nb accept h suf y = Some z ->
  accept z = true /\ y <= z < y + N.of_nat (length suf).
Proof.
  revert y; induction suf as [|g suf IH]; intros y; cbn [gsearch]; [done|].
  destruct ((g / 2 =? h / 2) && accept y) eqn:Hc.
  { intros [= <-]. apply andb_true_iff in Hc as [_ ?]. simpl. split; [done|lia]. }
  destruct suf as [|g' suf]; [done|]. destruct (g mod nb =? g' mod nb); [|done].
  intros H%IH. simpl in *. split; [tauto|lia].
Qed.

(** * Buckets *)
Lemma gt_buckets_spec nb syms : 0 < nb -> N.of_nat (length syms) + 1 < 2^32 ->
  let bs := fold_left (gt_bucket_step nb) (imap pair syms) (replicate (N.to_nat nb) 0) in
  length bs = N.to_nat nb /\ Forall (fun b => b < 2^32) bs /\
  forall b, b < nb -> exists y, bs !! N.to_nat b = Some y /\
    ((y = 0 /\ forall i g, syms !! i = Some g -> g mod nb <> b) \/
     (exists k g, y = N.of_nat k + 1 /\ syms !! k = Some g /\ g mod nb = b /\
                  forall i g', (i < k)%nat -> syms !! i = Some g' -> g' mod nb <> b)).
Proof.
  intros Hnb. induction syms as [|h syms IH] using rev_ind; intros Hlen.
  - simpl. split; [apply replicate_length|]. split.
    + apply Forall_replicate. by vm_compute.
    + intros b Hb. exists 0. split; [apply lookup_replicate_2; lia|]. left. done.
  - rewrite app_length in Hlen. simpl in Hlen. destruct IH as (Hl & H32 & Hb); [lia|].
    rewrite imap_app, fold_left_app. simpl. rewrite Nat.add_0_r.
    set (bs := fold_left (gt_bucket_step nb) (imap pair syms) (replicate (N.to_nat nb) 0)) in *.
    assert (Hu : u32 (N.of_nat (length syms + 1)) = N.of_nat (length syms) + 1).
    { unfold u32. rewrite N.mod_small; lia. }
    split; [by rewrite alter_length|]. split.
    { apply Forall_alter; [done|]. intros x _ Hx. rewrite Hu. destruct (x =? 0); lia. }
    intros b Hlt. destruct (Hb b Hlt) as (y & Hy & Hspec).
    assert (Hlast : (syms ++ [h]) !! length syms = Some h) by (by rewrite list_lookup_middle).
    destruct (decide (b = h mod nb)) as [->|Hne].
    + rewrite list_lookup_alter, Hy. simpl. rewrite Hu. eexists. split; [done|].
      destruct Hspec as [[-> Hnone]|(k & g & -> & Hk & Hg & Hfirst)].
      * right. exists (length syms), h. split; [done|]. split; [done|]. split; [done|].
        intros i g' Hi Hg'. rewrite lookup_app_l in Hg' by done. eauto.
      * right. exists k, g. rewrite (proj2 (N.eqb_neq (N.of_nat k + 1) 0)) by lia.
        apply lookup_lt_Some in Hk as Hkl. split; [done|]. rewrite lookup_app_l by done.
        split; [done|]. split; [done|]. intros i g' Hi Hg'.
        rewrite lookup_app_l in Hg' by lia. eauto.
    + assert (Hne' : N.to_nat (h mod nb) <> N.to_nat b) by lia.
      rewrite list_lookup_alter_ne by done. exists y. split; [done|].
      destruct Hspec as [[-> Hnone]|(k & g & -> & Hk & Hg & Hfirst)].
      * left. split; [done|]. intros i g Hi. apply lookup_app_Some in Hi as [Hi|[_ Hi]]; [eauto|].
        apply list_lookup_singleton_Some in Hi as [_ <-]. congruence.
      * right. exists k, g. apply lookup_lt_Some in Hk as Hkl. split; [done|]. rewrite lookup_app_l by done.
        split; [done|]. split; [done|]. intros i g' Hi Hg'.
        rewrite lookup_app_l in Hg' by lia. eauto.
Qed.

Lemma next_pow2_bounds x : x < 2^26 -> 0 < next_power_of_two x <= 2^26.
Proof.
  intros Hx. unfold next_power_of_two. split; [apply N.neq_0_lt_0, N.pow_nonzero; done|].
  apply N.pow_le_mono_r; [done|]. 
  destruct (decide (x = 0)) as [->|H0]; [by vm_compute|].
  apply N.log2_up_le_pow2; lia.
Qed.

Lemma land_pow2_mod a k : N.land a (2^k - 1) = a mod 2^k.
Proof. rewrite <- N.land_ones. f_equal. rewrite N.ones_equiv. lia. Qed.

(** The table built from the hash of the null symbol and [syms]. *)
Record gnu_built (syms : list N) (nb : N) (t : gnutab) : Prop := {
  gb_nb : gt_nbuckets t = nb;
  gb_nb0 : 0 < nb < 2^32;
  gb_off : gt_sym_offset t = 1;
  gb_size : blen (gt_bloom t) = gt_bloom_size t;
  gb_size32 : gt_bloom_size t < 2^32;
  gb_shift32 : gt_bloom_shift t < 2^32;
  gb_blen : length (gt_buckets t) = N.to_nat nb;
  gb_b32 : Forall (fun b => b < 2^32) (gt_buckets t);
  gb_bl64 : Forall (fun w => w < 2^64) (gt_bloom t);
  gb_chains : gt_chains t = gt_make_chains nb syms;
  gb_syms32 : Forall (fun g => g < 2^32) syms;
  gb_pow : exists k, gt_bloom_size t = 2^k;
  gb_bloom : forall h, h ∈ syms -> bloom_has (gt_bloom t) h (gt_bloom_shift t);
  gb_bucket : forall b, b < nb -> exists y, gt_buckets t !! N.to_nat b = Some y /\
    ((y = 0 /\ forall i g, syms !! i = Some g -> g mod nb <> b) \/
     (exists k g, y = N.of_nat k + 1 /\ syms !! k = Some g /\ g mod nb = b /\
                  forall i g', (i < k)%nat -> syms !! i = Some g' -> g' mod nb <> b)) }.

Lemma gt_build null syms : 12 * N.of_nat (length syms) < 2^32 -> Forall (fun g => g < 2^32) syms ->
  exists t, gt_add_symbols (null :: syms) = Ok t /\
    gnu_built syms ((N.of_nat (length syms) + 1) / 8 + 1) t.
Proof.
  intros Hlen H32. unfold gt_add_symbols.
  assert (Hu : u32 (blen (null :: syms)) = N.of_nat (length syms) + 1).
  { unfold u32, blen. cbn [length]. rewrite N.mod_small; lia. }
  rewrite Hu. rewrite (proj2 (N.eqb_neq _ 0)) by lia.
  replace (N.of_nat (length syms) + 1 - 1) with (N.of_nat (length syms)) by lia.
  rewrite (proj2 (N.leb_gt _ _)) by lia.
  set (nb := (N.of_nat (length syms) + 1) / 8 + 1).
  set (bits := N.of_nat (length syms) * 12).
  assert (Hsz : 0 < next_power_of_two (bits / 64) <= 2^26).
  { apply next_pow2_bounds. apply N.div_lt_upper_bound; [done|]. unfold bits.
    change (64 * 2^26) with (2^32). lia. }
  set (size := next_power_of_two (bits / 64)) in *.
  change (drop 1 (null :: syms)) with syms.
  eexists. split; [done|].
  assert (Hnb : 0 < nb) by (unfold nb; lia).
  destruct (gt_buckets_spec nb syms Hnb) as (Hbl & Hb32 & Hb); [lia|].
  assert (Hrep : blen (replicate (N.to_nat size) 0) = size) by (unfold blen; rewrite replicate_length; lia).
  assert (Hsu : u32 size = size) by (apply N.mod_small; lia).
  destruct (bloom_fold syms 26 (replicate (N.to_nat size) 0)) as [Hbloomlen Hbloom].
  { rewrite Hrep, Hsu. lia. } { by rewrite Hrep, Hsu. }
  assert (Hblen : blen (fold_left (fun bl h => calculate_bloom bl h 64 26) syms (replicate (N.to_nat size) 0)) = size).
  { unfold blen. rewrite Hbloomlen. exact Hrep. }
  split; simpl; try done.
  - unfold nb. lia.
  - lia.
  - apply bloom_fold_lt. apply Forall_replicate. by vm_compute.
  - eexists. unfold size, next_power_of_two. done.
  - intros h Hh. apply Hbloom. by right.
Qed.

Lemma bloom_pass_built syms nb t h : gnu_built syms nb t ->
  exists b, bloom_pass (ser_gnutab t) h = Some b /\ (h ∈ syms -> b = true).
Proof.
  intros [Hnb Hnb0 Hoff Hsz Hsz32 Hsh32 Hbl Hb32 Hbl64 Hch Hs32 [k Hpow] Hbloom Hb].
  destruct (gnu_header t nb) as (H0 & H1 & H2 & H3); try done.
  assert (Hsize0 : 0 < gt_bloom_size t) by (rewrite Hpow; apply N.neq_0_lt_0, N.pow_nonzero; done).
  assert (Hidx : N.land (h / 64) (gt_bloom_size t - 1) = (h / 64) mod gt_bloom_size t).
  { rewrite Hpow. apply land_pow2_mod. }
  assert (Hlt : (N.to_nat ((h / 64) mod gt_bloom_size t) < length (gt_bloom t))%nat).
  { assert ((h / 64) mod gt_bloom_size t < gt_bloom_size t) by (apply N.mod_lt; lia).
    unfold blen in Hsz. lia. }
  destruct (lookup_lt_is_Some_2 _ _ Hlt) as [w Hw].
  unfold bloom_pass. rewrite H2, H3. cbn [mbind option_bind]. rewrite Hidx.
  erewrite gnu_bloom_word by eassumption. cbn [mbind option_bind]. eexists; split; [done|].
  intros Hin. destruct (Hbloom h Hin) as [Ha Hb']. unfold bit_at in Ha, Hb'.
  assert (Hu : u32 (blen (gt_bloom t)) = gt_bloom_size t) by (rewrite Hsz; by apply N.mod_small).
  rewrite Hu, Hw in Ha, Hb'. simpl in Ha, Hb'. rewrite N.shiftr_div_pow2 in Hb'.
  by rewrite Ha, Hb'.
Qed.

(** Symbols of one bucket are adjacent. *)
Definition contiguous (nb : N) (syms : list N) : Prop :=
  forall i j k gi gj gk, (i <= j)%nat -> (j <= k)%nat ->
    syms !! i = Some gi -> syms !! j = Some gj -> syms !! k = Some gk ->
    gi mod nb = gk mod nb -> gj mod nb = gi mod nb.

Lemma gnu_lookup_spec syms nb t accept h : gnu_built syms nb t ->
  exists r, gnu_lookup (ser_gnutab t) accept h = Some r /\
    (forall z, r = Some z -> accept z = true /\ 1 <= z <= N.of_nat (length syms)) /\
    (contiguous nb syms -> forall k, syms !! k = Some h -> accept (N.of_nat k + 1) = true ->
      exists z, r = Some z).
Proof.
  intros Hbuilt. pose proof Hbuilt as [Hnb Hnb0 Hoff Hsz Hsz32 Hsh32 Hbl Hb32 Hbl64 Hch Hs32 Hpow Hbloom Hb].
  destruct (gnu_header t nb) as (H0 & H1 & H2 & H3); try done.
  destruct (bloom_pass_built syms nb t h Hbuilt) as (pass & Hpass & Hin).
  assert (Hlt : h mod nb < nb) by (apply N.mod_lt; lia).
  destruct (Hb (h mod nb) Hlt) as (y & Hy & Hspec).
  unfold gnu_lookup. rewrite H0, H1, H2, Hpass. cbn [mbind option_bind].
  destruct pass.
  2:{ exists None. split; [done|]. split; [done|]. intros _ k Hk. discriminate Hin.
      by eapply elem_of_list_lookup_2. }
  erewrite gnu_bucket_word by eassumption. cbn [mbind option_bind].
  destruct Hspec as [[-> Hnone]|(k0 & g0 & -> & Hk0 & Hg0 & Hfirst)].
  - exists None. split; [done|]. split; [done|]. intros _ k Hk. by apply Hnone in Hk.
  - rewrite (proj2 (N.ltb_ge (N.of_nat k0 + 1) 1)) by lia.
    apply lookup_lt_Some in Hk0 as Hlt0.
    rewrite (gnu_search_spec t syms nb); try done.
    + eexists; split; [done|]. split.
      * intros z Hz%gsearch_accepts. rewrite drop_length in Hz. split; [tauto|lia].
      * intros Hcont k Hk Hacc.
        assert (Hle : (k0 <= k)%nat).
        { destruct (decide (k0 <= k)%nat); [done|]. exfalso. by apply (Hfirst k h); [lia|done|]. }
        destruct (gsearch_found nb accept h (drop k0 syms) (N.of_nat k0 + 1) (k - k0) h) as (z & Hz & _).
        -- rewrite lookup_drop. by replace (k0 + (k - k0))%nat with k by lia.
        -- done.
        -- by replace (N.of_nat k0 + 1 + N.of_nat (k - k0)) with (N.of_nat k + 1) by lia.
        -- intros i gi Hi Hgi. rewrite lookup_drop in Hgi. rewrite <- Hg0.
           eapply (Hcont k0 (k0 + i)%nat k); [lia|lia|done|done|done|done].
        -- eauto.
    + (* the section is longer than its chains *)
      unfold ser_gnutab. rewrite !app_length, bind_app, app_length, Hch.
      rewrite (bind_length _ (gt_make_chains _ _) 4) by apply le_bytes_length.
      assert (Hcl : length (gt_make_chains nb syms) = length syms).
      { clear. induction syms; simpl; [done|]. by rewrite IHsyms. }
      rewrite Hcl. lia.
Qed.

(** C08 *)
Lemma bloom_no_false_negative null syms : 12 * N.of_nat (length syms) < 2^32 ->
  Forall (fun g => g < 2^32) syms ->
  exists t, gt_add_symbols (null :: syms) = Ok t /\
    forall h, h ∈ syms -> bloom_pass (ser_gnutab t) h = Some true.
Proof.
  intros Hlen H32. destruct (gt_build null syms Hlen H32) as (t & Ht & Hb). exists t. split; [done|].
  intros h Hh. destruct (bloom_pass_built _ _ _ h Hb) as (b & -> & Hin). f_equal. auto.
Qed.

(** C09, by name *)
Lemma gnu_finds names null : 12 * N.of_nat (length names) < 2^32 ->
  exists t, gt_add_symbols (null :: (elf_gnu_hash <$> names)) = Ok t /\
    (forall name, name ∉ names -> forall h,
      gnu_lookup (ser_gnutab t) (fun j => bool_decide (names !! (N.to_nat j - 1)%nat = Some name)) h = Some None) /\
    (contiguous ((N.of_nat (length names) + 1) / 8 + 1) (elf_gnu_hash <$> names) ->
     forall i name, names !! i = Some name ->
      exists j, 1 <= j /\ gnu_lookup (ser_gnutab t) (fun j => bool_decide (names !! (N.to_nat j - 1)%nat = Some name))
                  (elf_gnu_hash name) = Some (Some j)
                /\ names !! (N.to_nat j - 1)%nat = Some name).
Proof.
  intros Hlen. set (syms := elf_gnu_hash <$> names).
  assert (Hl : length syms = length names) by apply fmap_length.
  assert (H32 : Forall (fun g => g < 2^32) syms).
  { apply Forall_fmap, Forall_true. intros x. simpl. rewrite elf_gnu_hash_spec. apply gnu_hash_lt. }
  destruct (gt_build null syms) as (t & Ht & Hb); [by rewrite Hl|done|].
  exists t. split; [done|]. rewrite Hl in Hb. split.
  - intros name Hnot h.
    destruct (gnu_lookup_spec syms _ t (fun j => bool_decide (names !! (N.to_nat j - 1)%nat = Some name)) h Hb)
      as (r & -> & Hacc & _). destruct r as [z|]; [|done].
    destruct (Hacc z eq_refl) as [Hz _]. apply bool_decide_eq_true in Hz.
    exfalso. apply Hnot. by eapply elem_of_list_lookup_2.
  - intros Hcont i name Hi.
    destruct (gnu_lookup_spec syms _ t (fun j => bool_decide (names !! (N.to_nat j - 1)%nat = Some name)) (elf_gnu_hash name) Hb)
      as (r & -> & Hacc & Hfound).
    destruct (Hfound Hcont i) as (z & ->).
    + unfold syms. by rewrite list_lookup_fmap, Hi.
    + apply bool_decide_eq_true. by replace (N.to_nat (N.of_nat i + 1) - 1)%nat with i by lia.
    + exists z. destruct (Hacc z eq_refl) as [Hz Hz']. apply bool_decide_eq_true in Hz. split; [lia|done].
Qed.

Lemma contiguous_few names : (length names <= 6)%nat ->
  contiguous ((N.of_nat (length names) + 1) / 8 + 1) (elf_gnu_hash <$> names).
Proof.
  intros Hl. assert ((N.of_nat (length names) + 1) / 8 + 1 = 1) as ->.
  { rewrite N.div_small; lia. }
  intros i j k gi gj gk _ _ _ _ _ _. by rewrite !N.mod_1_r.
Qed.
