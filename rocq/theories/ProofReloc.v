(** Proofs about relocation application. *)
From Verif Require Export SpecReloc ProofElf.

(** * Bytes *)
Lemma write_at_Ok data off bs data' : write_at data off bs = Ok data' ->
  off + blen bs <= blen data /\ length data' = length data /\
  forall k, data' !! N.to_nat k =
    if decide (off <= k < off + blen bs) then bs !! N.to_nat (k - off) else data !! N.to_nat k.
Proof.
  unfold write_at. destruct (N.leb_spec (off + blen bs) (blen data)) as [H|H]; [|done].
  intros [= <-]. split; [done|]. unfold blen in *.
  assert (Htl : length (take (N.to_nat off) data) = N.to_nat off) by (rewrite take_length; lia).
  split.
  - rewrite !app_length, Htl, drop_length. lia.
  - intros k. destruct (decide (off <= k < off + N.of_nat (length bs))) as [Hk|Hk].
    + rewrite lookup_app_r by lia. rewrite Htl. rewrite lookup_app_l by lia. f_equal. lia.
    + destruct (decide (k < off)) as [Hlt|Hge].
      * rewrite lookup_app_l by lia. apply lookup_take. lia.
      * rewrite lookup_app_r by lia. rewrite Htl. rewrite lookup_app_r by lia.
        rewrite lookup_drop. f_equal. lia.
Qed.

Lemma sub_ext n (d d' : bytes) off : (forall k, off <= k < off + N.of_nat n -> d !! N.to_nat k = d' !! N.to_nat k) ->
  take n (drop (N.to_nat off) d) = take n (drop (N.to_nat off) d').
Proof.
  intros H. apply list_eq. intros i. destruct (decide (i < n)%nat) as [Hi|Hi].
  - rewrite !lookup_take by done. rewrite !lookup_drop. specialize (H (off + N.of_nat i)).
    replace (N.to_nat (off + N.of_nat i)) with (N.to_nat off + i)%nat in H by lia. apply H. lia.
  - rewrite !lookup_take_ge by lia. done.
Qed.
Lemma rd_ext n (d d' : bytes) off : (forall k, off <= k < off + N.of_nat n -> d !! N.to_nat k = d' !! N.to_nat k) ->
  rd n d off = rd n d' off.
Proof. intros H. unfold rd. by rewrite (sub_ext n d d' off H). Qed.
Lemma rd_z_ext n (d d' : bytes) off : (forall k, off <= k < off + N.of_nat n -> d !! N.to_nat k = d' !! N.to_nat k) ->
  rd_z n d off = rd_z n d' off.
Proof. intros H. unfold rd_z. by rewrite (rd_ext n d d' off H). Qed.

Lemma rd_of_bytes n (d : bytes) off (bs : bytes) : length bs = n ->
  (forall k, off <= k < off + N.of_nat n -> d !! N.to_nat k = bs !! N.to_nat (k - off)) ->
  rd n d off = Some (le_val bs).
Proof.
  intros Hl H. unfold rd.
  assert (Heq : take n (drop (N.to_nat off) d) = bs).
  { apply list_eq. intros i. destruct (decide (i < n)%nat) as [Hi|Hi].
    - rewrite lookup_take by done. rewrite lookup_drop. specialize (H (off + N.of_nat i)).
      replace (N.to_nat (off + N.of_nat i)) with (N.to_nat off + i)%nat in H by lia.
      rewrite H by lia. f_equal. lia.
    - rewrite lookup_take_ge by lia. symmetry. apply lookup_ge_None_2. lia. }
  rewrite Heq. by rewrite decide_True.
Qed.

Lemma write_rd data off n bs data' : write_at data off bs = Ok data' -> length bs = n ->
  rd n data' off = Some (le_val bs).
Proof.
  intros H Hl. apply write_at_Ok in H as (_ & _ & Hk). apply rd_of_bytes; [done|]. intros k Hr.
  rewrite Hk, decide_True; [done|]. unfold blen. lia.
Qed.

Lemma write_z_rd data off n v data' : (0 < n)%nat -> write_at data off (le_bytes_z n v) = Ok data' ->
  rd n data' off = Some (wrap n v).
Proof.
  intros Hn H. rewrite (write_rd _ _ _ _ _ H (le_bytes_z_length n v)). by rewrite le_val_le_bytes_z.
Qed.

Lemma write_same_off data off bs data' r : write_at data off bs = Ok data' ->
  r.1 <= off -> off + blen bs <= r.2 -> same_off r data data'.
Proof.
  intros H H1 H2. apply write_at_Ok in H as (_ & Hl & Hk). split; [done|]. intros k Hr.
  rewrite Hk, decide_False by lia. done.
Qed.

Lemma same_off_refl r d : same_off r d d.
Proof. by split. Qed.
Lemma same_off_trans r d1 d2 d3 : same_off r d1 d2 -> same_off r d2 d3 -> same_off r d1 d3.
Proof. intros [H1 H2] [H3 H4]. split; [congruence|]. intros k Hk. rewrite H2, H4; done. Qed.

(** * Inverting successful steps *)
Lemma chk_i64_Ok z v : chk_i64 z = Ok v <-> v = z /\ (- 2^63 <= z < 2^63)%Z.
Proof.
  unfold chk_i64. destruct (Z.leb_spec (- 2^63) z), (Z.ltb_spec z (2^63)); simpl;
    split; try (intros [= <-]); try (intros [-> ?]); try done; lia.
Qed.
Lemma to_i32_Ok z v : to_i32 z = Ok v <-> v = z /\ (- 2^31 <= z < 2^31)%Z.
Proof.
  unfold to_i32. destruct (Z.leb_spec (- 2^31) z), (Z.ltb_spec z (2^31)); simpl;
    split; try (intros [= <-]); try (intros [-> ?]); try done; lia.
Qed.
Lemma to_i64_Ok x v : to_i64 x = Ok v <-> v = Z.of_N x /\ x < 2^63.
Proof.
  unfold to_i64. destruct (N.ltb_spec x (2^63)); split; try (intros [= <-]); try (intros [-> ?]); try done; lia.
Qed.

Ltac inv_ok H :=
  repeat match type of H with
  | _ ≫= _ = Ok _ => let x := fresh "x" in let E := fresh "E" in apply bind_Ok in H as (x & E & H)
  end.

Lemma reloc_S_Ok sym dyn s : reloc_S sym dyn = Ok s ->
  exists v, target_value sym dyn = Some v /\ s = Z.of_N v /\ v < 2^63.
Proof.
  unfold reloc_S, target_value, is_undefined. change SHN_UNDEF with 0.
  destruct (s_dynamic sym) as [d|].
  - destruct (N.eqb_spec (st_shndx (s_sym sym)) 0) as [H0|H0].
    + rewrite decide_True by done. intros H. apply bind_Ok in H as (ds & Hds & H).
      apply unwrap_Ok in Hds. rewrite Hds. apply to_i64_Ok in H as [-> ?]. simpl. eauto.
    + rewrite decide_False by done. intros H. apply to_i64_Ok in H as [-> ?]. eauto.
  - intros H. apply to_i64_Ok in H as [-> ?]. destruct (decide _); eauto.
Qed.

Lemma apply_got_Ok data off sym got a p data' : apply_got data off sym got a p = Ok data' ->
  exists g, s_in_got sym = Some g /\ (- 2^31 <= Z.of_N g + got + a - p < 2^31)%Z /\
    write_at data off (le_bytes_z 4 (Z.of_N g + got + a - p)) = Ok data'.
Proof.
  unfold apply_got. intros H. inv_ok H. apply unwrap_Ok in E.
  apply to_i64_Ok in E0 as [-> _]. apply chk_i64_Ok in E1 as [-> _]. apply chk_i64_Ok in E2 as [-> _].
  apply chk_i64_Ok in E3 as [-> _]. apply to_i32_Ok in E4 as [-> Hr]. exists x. split; [done|]. split; [done|].
  exact H.
Qed.

Lemma plt_entry_addr_Ok base i v : plt_entry_addr base i = Ok v -> v = plt_entry_at base i.
Proof. unfold plt_entry_addr, plt_entry_at. intros H. apply to_i64_Ok in H as [-> _]. lia. Qed.

(** All the ways [apply_relocation] can succeed. *)
Inductive applied (addr : N) (data : bytes) (rel : Rela) (sym : symbol) (dyn : symtab) (got plt : N) (S : N)
  (data' : bytes) : Prop :=
| ap_none : r_type (r_info rel) = 0 -> data' = data -> applied addr data rel sym dyn got plt S data'
| ap_field w v : psabi (r_type (r_info rel)) (Z.of_N S) (r_addend rel) (Z.of_N addr + Z.of_N (r_offset rel))
      (slot_of sym got) (entry_of sym plt) = Some (w, v) ->
    r_type (r_info rel) ∈ supported -> ~ relaxed (r_type (r_info rel)) sym ->
    (r_type (r_info rel) <> 11 -> (- 2 ^ (8 * Z.of_nat w - 1) <= v < 2 ^ (8 * Z.of_nat w - 1))%Z) ->
    (exists v', wrap w v' = wrap w v /\ write_at data (r_offset rel) (le_bytes_z w v') = Ok data') ->
    applied addr data rel sym dyn got plt S data'
| ap_got32 g : r_type (r_info rel) = 3 -> s_in_got sym = Some g ->
    let v := (Z.of_N g + Z.of_N got + r_addend rel - (Z.of_N addr + Z.of_N (r_offset rel)))%Z in
    (- 2^31 <= v < 2^31)%Z -> write_at data (r_offset rel) (le_bytes_z 4 v) = Ok data' ->
    applied addr data rel sym dyn got plt S data'
| ap_tpoff : r_type (r_info rel) = 23 ->
    let v := (Z.of_N S + r_addend rel)%Z in
    (- 2^31 <= v < 2^31)%Z -> write_at data (r_offset rel) (le_bytes_z 4 v) = Ok data' ->
    applied addr data rel sym dyn got plt S data'
| ap_branch op m d1 d2 : r_type (r_info rel) = 41 -> s_dynamic sym = None -> 2 <= r_offset rel ->
    let v := (Z.of_N S + r_addend rel - (Z.of_N addr + Z.of_N (r_offset rel)))%Z in
    let start := r_offset rel - 2 in
    (- 2^31 <= v < 2^31)%Z -> slice data start 2 = Ok [0xff; m] ->
    (m = 0x15 /\ op = 0xe8 \/ m = 0x25 /\ op = 0xe9) ->
    write_at data start [op] = Ok d1 -> write_at d1 (start + 1) (le_bytes_z 4 v) = Ok d2 ->
    write_at d2 (start + 5) [0x90] = Ok data' ->
    applied addr data rel sym dyn got plt S data'
| ap_lea instr instr' d1 : r_type (r_info rel) = 42 -> s_dynamic sym = None -> 3 <= r_offset rel ->
    let v := (Z.of_N S + r_addend rel - (Z.of_N addr + Z.of_N (r_offset rel)))%Z in
    let start := r_offset rel - 3 in
    (- 2^31 <= v < 2^31)%Z -> slice data start 3 = Ok instr -> rex_relax instr = Some instr' ->
    write_at data start instr' = Ok d1 -> write_at d1 (start + 3) (le_bytes_z 4 v) = Ok data' ->
    applied addr data rel sym dyn got plt S data'.

Lemma usub_Ok a b v : usub a b = Ok v <-> b <= a /\ v = a - b.
Proof. unfold usub. destruct (N.leb_spec b a); split; try (intros [= <-]); try (intros [? ->]); done || lia. Qed.

Lemma as_i32_wrap z : wrap 4 (as_i32 z) = wrap 4 z.
Proof.
  unfold wrap, as_i32. change (8 * Z.of_nat 4)%Z with 32%Z. f_equal.
  pose proof (Z.mod_pos_bound z (2^32)). destruct (Z.ltb_spec (z mod 2^32) (2^31)).
  - apply Z.mod_mod. done.
  - rewrite <- (Z_mod_plus_full (z mod 2^32 - 2^32) 1 (2^32)). replace (z mod 2 ^ 32 - 2 ^ 32 + 1 * 2 ^ 32)%Z with (z mod 2^32)%Z by lia.
    apply Z.mod_mod. done.
Qed.

Lemma apply_applied addr data rel sym dyn got plt data' :
  apply_relocation addr data rel sym dyn got plt = Ok data' ->
  exists S, target_value sym dyn = Some S /\ applied addr data rel sym dyn got plt S data'.
Proof.
  unfold apply_relocation. intros H. apply bind_Ok in H as (s & Hs & H).
  apply reloc_S_Ok in Hs as (S & Ht & -> & HS). exists S. split; [done|].
  apply bind_Ok in H as ([] & _ & H). apply bind_Ok in H as (p & Hp & H). apply to_i64_Ok in Hp as [-> Hp].
  apply bind_Ok in H as (g0 & Hg & H). apply to_i64_Ok in Hg as [-> _].
  rewrite N2Z.inj_add in H.
  set (ty := r_type (r_info rel)) in *.
  assert (HP : Z.of_N (addr + r_offset rel) = (Z.of_N addr + Z.of_N (r_offset rel))%Z) by lia.
  destruct (N.eqb_spec ty R_X86_64_NONE) as [E|_].
  { injection H as <-. by apply ap_none. }
  destruct (N.eqb_spec ty R_X86_64_64) as [E|_].
  { inv_ok H. apply chk_i64_Ok in E0 as [-> Hr]. eapply (ap_field _ _ _ _ _ _ _ _ _ 8); fold ty; rewrite ?E.
    - done.
    - set_solver.
    - intros [[?|?] _]; done.
    - intros _. exact Hr.
    - eauto. }
  destruct (N.eqb_spec ty R_X86_64_32) as [E|_].
  { inv_ok H. apply chk_i64_Ok in E0 as [-> _]. apply to_i32_Ok in E1 as [-> Hr].
    eapply (ap_field _ _ _ _ _ _ _ _ _ 4); fold ty; rewrite ?E.
    - done.
    - set_solver.
    - intros [[?|?] _]; done.
    - intros _. exact Hr.
    - eauto. }
  destruct (N.eqb_spec ty R_X86_64_32S) as [E|_].
  { inv_ok H. apply chk_i64_Ok in E0 as [-> _].
    eapply (ap_field _ _ _ _ _ _ _ _ _ 4); fold ty; rewrite ?E.
    - done.
    - set_solver.
    - intros [[?|?] _]; done.
    - done.
    - eexists. split; [|exact H]. apply as_i32_wrap. }
  destruct (N.eqb_spec ty R_X86_64_PC32) as [E|_].
  { inv_ok H. apply chk_i64_Ok in E0 as [-> _]. apply chk_i64_Ok in E1 as [-> _]. apply to_i32_Ok in E2 as [-> Hr].
    eapply (ap_field _ _ _ _ _ _ _ _ _ 4); fold ty; rewrite ?E.
    - done.
    - set_solver.
    - intros [[?|?] _]; done.
    - intros _. exact Hr.
    - eauto. }
  destruct (N.eqb_spec ty R_X86_64_GOT32) as [E|_].
  { apply apply_got_Ok in H as (g & Hg & Hr & H). by eapply ap_got32. }
  destruct (N.eqb_spec ty R_X86_64_GOTPCRELX) as [E|_]; cbn [andb] in H.
  { destruct (bool_decide_reflect (s_dynamic sym = None)) as [Hd|Hd].
    - inv_ok H. apply usub_Ok in E0 as [Hoff ->]. apply chk_i64_Ok in E1 as [-> _].
      apply chk_i64_Ok in E2 as [-> _]. apply to_i32_Ok in E3 as [-> Hr].
      destruct (bool_decide_reflect (x3 = [0xff; 0x15])) as [Hx3|Hn1].
      { rewrite Hx3 in E4. inv_ok H. by eapply (ap_branch _ _ _ _ _ _ _ _ _ 0xe8 0x15); eauto. }
      destruct (bool_decide_reflect (x3 = [0xff; 0x25])) as [Hx3|Hn2]; [|done].
      rewrite Hx3 in E4. inv_ok H. by eapply (ap_branch _ _ _ _ _ _ _ _ _ 0xe9 0x25); eauto.
    - apply apply_got_Ok in H as (g & Hg & Hr & H).
      eapply (ap_field _ _ _ _ _ _ _ _ _ 4); fold ty; rewrite ?E.
      + unfold slot_of. rewrite Hg. done.
      + set_solver.
      + intros [_ ?]; done.
      + intros _. exact Hr.
      + eauto. }
  destruct (N.eqb_spec ty R_X86_64_REX_GOTPCRELX) as [E|_].
  { destruct (bool_decide_reflect (s_dynamic sym = None)) as [Hd|Hd].
    - inv_ok H. apply usub_Ok in E0 as [Hoff ->].
      destruct (rex_relax x0) as [instr|] eqn:Hrex; [|done].
      inv_ok H. apply chk_i64_Ok in E2 as [-> _].
      apply chk_i64_Ok in E3 as [-> _]. apply to_i32_Ok in E4 as [-> Hr].
      by eapply ap_lea; eauto.
    - apply apply_got_Ok in H as (g & Hg & Hr & H).
      eapply (ap_field _ _ _ _ _ _ _ _ _ 4); fold ty; rewrite ?E.
      + unfold slot_of. rewrite Hg. done.
      + set_solver.
      + intros [_ ?]; done.
      + intros _. exact Hr.
      + eauto. }
  destruct ((ty =? R_X86_64_TLSGD) || (ty =? R_X86_64_GOTTPOFF)) eqn:E.
  { apply orb_true_iff in E. rewrite !N.eqb_eq in E. destruct (is_tls sym); [|done].
    apply apply_got_Ok in H as (g & Hg & Hr & H).
    eapply (ap_field _ _ _ _ _ _ _ _ _ 4); fold ty.
    - unfold slot_of. rewrite Hg. destruct E as [-> | ->]; done.
    - destruct E as [-> | ->]; set_solver.
    - intros [[Hx|Hx] _]; destruct E as [E|E]; rewrite E in Hx; done.
    - intros _. exact Hr.
    - eauto. }
  clear E.
  destruct (N.eqb_spec ty R_X86_64_TPOFF32) as [E|_].
  { inv_ok H. apply chk_i64_Ok in E0 as [-> _]. apply to_i32_Ok in E1 as [-> Hr]. by eapply ap_tpoff. }
  destruct (N.eqb_spec ty R_X86_64_PLT32) as [E|_]; [|done].
  inv_ok H. apply unwrap_Ok in E0. apply plt_entry_addr_Ok in E1 as ->. apply chk_i64_Ok in E2 as [-> _].
  apply chk_i64_Ok in E3 as [-> _]. apply to_i32_Ok in E4 as [-> Hr].
  eapply (ap_field _ _ _ _ _ _ _ _ _ 4); fold ty; rewrite ?E.
  - unfold entry_of. rewrite E0. done.
  - set_solver.
  - intros [[?|?] _]; done.
  - intros _. exact Hr.
  - eauto.
Qed.

(** * Single relocations *)
Lemma field_value addr data rel sym dyn got plt data' :
  apply_relocation addr data rel sym dyn got plt = Ok data' ->
  r_type (r_info rel) ∈ supported -> ~ relaxed (r_type (r_info rel)) sym ->
  exists S w v, target_value sym dyn = Some S /\
    psabi (r_type (r_info rel)) (Z.of_N S) (r_addend rel) (Z.of_N addr + Z.of_N (r_offset rel))
      (slot_of sym got) (entry_of sym plt) = Some (w, v) /\
    rd w data' (r_offset rel) = Some (wrap w v) /\
    (r_type (r_info rel) <> 11 -> (- 2 ^ (8 * Z.of_nat w - 1) <= v < 2 ^ (8 * Z.of_nat w - 1))%Z).
Proof.
  intros H Hsup Hrel. apply apply_applied in H as (S & HS & H). exists S.
  destruct H as [E _|w v Hp _ _ Hr (v' & Hw & Hv)|g E| E|op m d1 d2 E Hd|instr instr' d1 E Hd].
  - rewrite E in Hsup. set_solver.
  - exists w, v. split; [done|]. split; [done|]. split; [|done]. rewrite <- Hw.
    assert (Hpos : (0 < w)%nat).
    { unfold psabi in Hp. repeat case_match; simplify_option_eq; lia. }
    by eapply write_z_rd.
  - rewrite E in Hsup. set_solver.
  - rewrite E in Hsup. set_solver.
  - destruct Hrel. split; [by left|done].
  - destruct Hrel. split; [by right|done].
Qed.

Lemma frame_one addr data rel sym dyn got plt data' :
  apply_relocation addr data rel sym dyn got plt = Ok data' ->
  same_off (span rel sym) data data'.
Proof.
  intros H. apply apply_applied in H as (S & HS & H).
  destruct H as [E ->|w v Hp Hsup Hnr Hr (v' & Hw & Hv)|g E Hg v Hr Hv|E v Hr Hv|op m d1 d2 E Hd Hoff v start Hr Hsl Hop H1 H2 H3|instr instr' d1 E Hd Hoff v start Hr Hsl Hrex H1 H2].
  - apply same_off_refl.
  - eapply write_same_off; [done|..]; unfold span; rewrite decide_False by done; simpl; [lia|].
    rewrite blen_le_bytes_z.
    assert (Hw8 : w = if decide (r_type (r_info rel) = 1) then 8%nat else 4%nat).
    { unfold psabi in Hp. destruct (decide _) as [E|E]; [rewrite E in Hp; by injection Hp as <- _|].
      repeat case_match; simplify_option_eq; done. }
    assert (H0 : r_type (r_info rel) <> 0) by (intros Hz; rewrite Hz in Hsup; set_solver).
    rewrite (decide_False (P := r_type (r_info rel) = 0)) by done. rewrite Hw8. destruct (decide _); lia.
  - eapply write_same_off; [done|..]; unfold span; rewrite E; simpl.
    + lia.
    + rewrite blen_le_bytes_z. lia.
  - eapply write_same_off; [done|..]; unfold span; rewrite E; simpl.
    + lia.
    + rewrite blen_le_bytes_z. lia.
  - assert (Hspan : span rel sym = (start, r_offset rel + 4)).
    { unfold span. rewrite E. rewrite decide_True by (split; [by left|done]). done. }
    rewrite Hspan. eapply same_off_trans; [eapply write_same_off; [exact H1|..]|].
    1,2: rewrite ?blen_cons, ?blen_nil; simpl; lia.
    eapply same_off_trans; [eapply write_same_off; [exact H2|..]|].
    1,2: rewrite ?blen_le_bytes_z; simpl; lia.
    eapply write_same_off; [exact H3|..]; rewrite ?blen_cons, ?blen_nil; simpl; lia.
  - assert (Hspan : span rel sym = (start, r_offset rel + 4)).
    { unfold span. rewrite E. rewrite decide_True by (split; [by right|done]). done. }
    assert (Hl : blen instr' = 3).
    { unfold rex_relax in Hrex. repeat case_match; simplify_eq; done. }
    rewrite Hspan. eapply same_off_trans; [eapply write_same_off; [exact H1|..]|].
    1,2: rewrite ?Hl; simpl; lia.
    eapply write_same_off; [exact H2|..]; rewrite ?blen_le_bytes_z; simpl; lia.
Qed.

Lemma write_z_rd_z data off n v data' : (0 < n)%nat -> write_at data off (le_bytes_z n v) = Ok data' ->
  (- 2 ^ (8 * Z.of_nat n - 1) <= v < 2 ^ (8 * Z.of_nat n - 1))%Z ->
  rd_z n data' off = Some v.
Proof.
  intros Hn H Hr. unfold rd_z. rewrite (write_z_rd _ _ _ _ _ Hn H). simpl. unfold wrap.
  rewrite signed_mod by lia. done.
Qed.

Lemma rd_in n data off : off + N.of_nat n <= blen data -> is_Some (rd n data off).
Proof.
  intros H. unfold rd. rewrite decide_True; [eauto|]. rewrite take_length, drop_length. unfold blen in H. lia.
Qed.
Lemma rd_z_in n data off : off + N.of_nat n <= blen data -> is_Some (rd_z n data off).
Proof. intros H. unfold rd_z. destruct (rd_in n data off H) as [v ->]. simpl. eauto. Qed.

Lemma rd1_lookup data off b : data !! N.to_nat off = Some b -> rd 1 data off = Some b.
Proof.
  intros H. replace b with (le_val [b]) by (simpl; lia). apply rd_of_bytes; [done|].
  intros k Hk. replace k with off by lia. rewrite H. by replace (N.to_nat (off - off)) with 0%nat by lia.
Qed.

Lemma slice_lookup data off n bs : slice data off n = Ok bs ->
  forall i, i < n -> data !! N.to_nat (off + i) = bs !! N.to_nat i.
Proof.
  unfold slice. destruct (_ <=? _); [|done]. intros [= <-] i Hi.
  rewrite lookup_take by lia. rewrite lookup_drop. f_equal. lia.
Qed.

Lemma write_lookup_in data off bs data' k b : write_at data off bs = Ok data' ->
  bs !! k = Some b -> data' !! N.to_nat (off + N.of_nat k) = Some b.
Proof.
  intros H Hb. apply write_at_Ok in H as (_ & _ & Hk). rewrite Hk. apply lookup_lt_Some in Hb as Hlt.
  rewrite decide_True by (unfold blen; lia). rewrite <- Hb. f_equal. lia.
Qed.
Lemma write_lookup_out data off bs data' k : write_at data off bs = Ok data' ->
  k < off \/ off + blen bs <= k -> data' !! N.to_nat k = data !! N.to_nat k.
Proof.
  intros H Hk. apply write_at_Ok in H as (_ & _ & Hl). rewrite Hl. rewrite decide_False; [done|]. lia.
Qed.
Lemma write_len data off bs data' : write_at data off bs = Ok data' ->
  blen data' = blen data /\ off + blen bs <= blen data.
Proof. intros H. apply write_at_Ok in H as (H1 & H2 & _). unfold blen in *. lia. Qed.

Lemma rex_cases instr instr' : rex_relax instr = Some instr' -> exists r m,
  instr = [r; 0x8b; m] /\ instr' = [r; 0x8d; m] /\ (r = 0x48 \/ r = 0x4c) /\ m / 64 = 0 /\ m mod 8 = 5.
Proof.
  unfold rex_relax. destruct instr as [|r [|b [|m [|]]]]; try done.
  all: repeat match goal with |- context [match ?b with N0 => _ | Npos _ => _ end] => destruct b end; try done.
  all: repeat match goal with |- context [match ?p with xI _ => _ | xO _ => _ | xH => _ end] => destruct p end; try done.
  intros H. exists r, m. destruct (_ && _) eqn:E in H; [|done]. injection H as <-.
  split; [done|]. split; [done|]. apply andb_true_iff in E as [E1 E2].
  rewrite orb_true_iff, !N.eqb_eq in E1. split; [tauto|].
  rewrite !orb_true_iff, !N.eqb_eq in E2.
  destruct E2 as [[[[[[[->| ->]| ->]| ->]| ->]| ->]| ->]| ->]; done.
Qed.

Lemma lea_relax addr data rel sym dyn got plt data' :
  apply_relocation addr data rel sym dyn got plt = Ok data' ->
  r_type (r_info rel) = 42 -> s_dynamic sym = None ->
  exists S reg ea0, target_value sym dyn = Some S /\ 3 <= r_offset rel /\
    decode_at (Z.of_N addr) data (r_offset rel - 3) = Some (MovLoad reg ea0, 7) /\
    decode_at (Z.of_N addr) data' (r_offset rel - 3) = Some (Lea reg (Z.of_N S + r_addend rel + 4), 7).
Proof.
  intros H Hty Hdyn. apply apply_applied in H as (S & HS & H).
  destruct H as [E _|w v Hp Hsup Hnr _ _|g E| E|op m d1 d2 E Hd|instr instr' d1 E Hd Hoff v start Hr Hsl Hrex H1 H2];
    try (rewrite Hty in E; done).
  { destruct Hnr. split; [by right|done]. }
  apply rex_cases in Hrex as (r & m & -> & -> & Hrr & Hm1 & Hm2).
  pose proof (write_len _ _ _ _ H1) as [Hl1 Hb1]. pose proof (write_len _ _ _ _ H2) as [Hl2 Hb2].
  rewrite blen_le_bytes_z in Hb2. change (N.of_nat 4) with 4 in Hb2.
  destruct (rd_z_in 4 data (start + 3)) as [d0 Hd0]; [lia|].
  exists S, (8 * ((r / 4) mod 2) + (m / 8) mod 8), (Z.of_N addr + Z.of_N start + 7 + d0)%Z.
  split; [done|]. split; [done|].
  pose proof (slice_lookup _ _ _ _ Hsl) as Hs.
  pose proof (Hs 0 ltac:(lia)) as Hs0. pose proof (Hs 1 ltac:(lia)) as Hs1. pose proof (Hs 2 ltac:(lia)) as Hs2.
  rewrite N.add_0_r in Hs0.
  assert (Hrd0 : rd 1 data start = Some r) by (apply rd1_lookup; exact Hs0).
  assert (Hrd1 : rd 1 data (start + 1) = Some 0x8b) by (apply rd1_lookup; exact Hs1).
  assert (Hrd2 : rd 1 data (start + 2) = Some m) by (apply rd1_lookup; exact Hs2).
  assert (Hout : forall k, k < 3 -> data' !! N.to_nat (start + k) = d1 !! N.to_nat (start + k)).
  { intros k Hk. eapply write_lookup_out; [exact H2|]. lia. }
  assert (Hrd0' : rd 1 data' start = Some r).
  { apply rd1_lookup. pose proof (Hout 0 ltac:(lia)) as Ho. rewrite N.add_0_r in Ho. rewrite Ho.
    pose proof (write_lookup_in _ _ _ _ 0 r H1 eq_refl) as Hw. rewrite N.add_0_r in Hw. exact Hw. }
  assert (Hrd1' : rd 1 data' (start + 1) = Some 0x8d).
  { apply rd1_lookup. rewrite (Hout 1) by lia. apply (write_lookup_in _ _ _ _ 1 _ H1). done. }
  assert (Hrd2' : rd 1 data' (start + 2) = Some m).
  { apply rd1_lookup. rewrite (Hout 2) by lia. apply (write_lookup_in _ _ _ _ 2 _ H1). done. }
  assert (Hd' : rd_z 4 data' (start + 3) = Some v) by (eapply write_z_rd_z; [lia|exact H2|exact Hr]).
  fold start. unfold decode_at. split.
  - rewrite Hrd0. cbn [mbind option_bind]. rewrite !(decide_False (P := r = _)) by (destruct Hrr; lia).
    rewrite (decide_True (P := 0x48 <= r < 0x50)) by (destruct Hrr; lia).
    rewrite Hrd1, Hrd2, Hd0. cbn [mbind option_bind]. rewrite (decide_True (P := _ /\ _)) by done.
    rewrite decide_True by done. done.
  - rewrite Hrd0'. cbn [mbind option_bind]. rewrite !(decide_False (P := r = _)) by (destruct Hrr; lia).
    rewrite (decide_True (P := 0x48 <= r < 0x50)) by (destruct Hrr; lia).
    rewrite Hrd1', Hrd2', Hd'. cbn [mbind option_bind]. rewrite (decide_True (P := _ /\ _)) by done.
    rewrite decide_False by done. rewrite decide_True by done.
    do 3 f_equal. unfold v, start. lia.
Qed.

Lemma branch_relax addr data rel sym dyn got plt data' :
  apply_relocation addr data rel sym dyn got plt = Ok data' ->
  r_type (r_info rel) = 41 -> s_dynamic sym = None ->
  exists S ea0, target_value sym dyn = Some S /\ 2 <= r_offset rel /\
    (let target := (Z.of_N S + r_addend rel + 3)%Z in
     (decode_at (Z.of_N addr) data (r_offset rel - 2) = Some (CallInd ea0, 6) /\
      decode_at (Z.of_N addr) data' (r_offset rel - 2) = Some (CallRel target, 5)) \/
     (decode_at (Z.of_N addr) data (r_offset rel - 2) = Some (JmpInd ea0, 6) /\
      decode_at (Z.of_N addr) data' (r_offset rel - 2) = Some (JmpRel target, 5))) /\
    rd 1 data' (r_offset rel + 3) = Some 0x90.
Proof.
  intros H Hty Hdyn. apply apply_applied in H as (S & HS & H).
  destruct H as [E _|w v Hp Hsup Hnr _ _|g E| E|op m d1 d2 E Hd Hoff v start Hr Hsl Hop H1 H2 H3|instr instr' d1 E Hd];
    try (rewrite Hty in E; done).
  { destruct Hnr. split; [by left|done]. }
  pose proof (write_len _ _ _ _ H1) as [Hl1 Hb1]. pose proof (write_len _ _ _ _ H2) as [Hl2 Hb2].
  pose proof (write_len _ _ _ _ H3) as [Hl3 Hb3].
  change (blen [op]) with 1 in *. change (blen [0x90]) with 1 in *. rewrite blen_le_bytes_z in Hb2. change (N.of_nat 4) with 4 in Hb2.
  destruct (rd_z_in 4 data (start + 2)) as [d0 Hd0]; [lia|].
  exists S, (Z.of_N addr + Z.of_N start + 6 + d0)%Z. split; [done|]. split; [done|].
  pose proof (slice_lookup _ _ _ _ Hsl) as Hs.
  pose proof (Hs 0 ltac:(lia)) as Hs0. pose proof (Hs 1 ltac:(lia)) as Hs1. rewrite N.add_0_r in Hs0.
  assert (Hrd0 : rd 1 data start = Some 0xff) by (apply rd1_lookup; exact Hs0).
  assert (Hrd1 : rd 1 data (start + 1) = Some m) by (apply rd1_lookup; exact Hs1).
  assert (Hrd0' : rd 1 data' start = Some op).
  { apply rd1_lookup. rewrite (write_lookup_out _ _ _ _ start H3) by lia. rewrite (write_lookup_out _ _ _ _ start H2) by lia.
    pose proof (write_lookup_in _ _ _ _ 0 op H1 eq_refl) as Hw. rewrite N.add_0_r in Hw. exact Hw. }
  assert (Hd' : rd_z 4 data' (start + 1) = Some v).
  { rewrite <- (write_z_rd_z _ _ 4 v _ ltac:(lia) H2 Hr). apply rd_z_ext. intros k Hk.
    rewrite (write_lookup_out _ _ _ _ k H3) by lia. done. }
  split.
  - fold start. unfold decode_at. rewrite Hrd0, Hrd0'. cbn [mbind option_bind].
    destruct Hop as [[-> ->]|[-> ->]]; [left|right]; split.
    1,3: rewrite !decide_False by done; rewrite decide_True by done; rewrite Hrd1, Hd0; cbn [mbind option_bind];
      rewrite ?(decide_False (P := 37 = 21)) by done; rewrite decide_True by done; done.
    + rewrite decide_True by done. rewrite Hd'. cbn [mbind option_bind]. do 3 f_equal. unfold v, start. lia.
    + rewrite decide_False by done. rewrite decide_True by done. rewrite Hd'. cbn [mbind option_bind]. do 3 f_equal. unfold v, start. lia.
  - apply rd1_lookup. replace (r_offset rel + 3) with (start + 5 + N.of_nat 0) by (unfold start; lia).
    by apply (write_lookup_in _ _ _ _ 0 0x90 H3).
Qed.

(** * Whole chunks *)
Definition apply_one (got plt : N) (table dyn : symtab) (addr : option N) (data : bytes) (x : Rela * symref) : res bytes :=
  addr ← unwrap addr; sym ← unwrap (syt_get table x.2); apply_relocation addr data x.1 sym dyn got plt.

Lemma chunk_apply_fold got plt table dyn c c' : chunk_apply_relocations got plt table dyn c = Ok c' ->
  exists data', foldM (apply_one got plt table dyn (c_address c)) (c_relocations c) (c_data c) = Ok data' /\
    c' = c <| c_data := data' |>.
Proof.
  unfold chunk_apply_relocations. intros H. apply bind_Ok in H as (d & Hd & [= <-]). exists d. split; [|done].
  rewrite <- Hd. clear Hd. generalize (c_data c). induction (c_relocations c) as [|[rel r] l IH]; intros d0; [done|].
  simpl. destruct (apply_one _ _ _ _ _ _ _) eqn:E; unfold apply_one in E; simpl in E; rewrite E; simpl; auto.
Qed.

Lemma same_off_on r1 r2 d d' : same_off r1 d d' -> apart r1 r2 -> same_on r2 d d'.
Proof.
  intros [Hl H] Hd. split; [done|]. intros k Hk. apply H. destruct Hd; lia.
Qed.

Lemma fold_same_on got plt table dyn addr l d d' r :
  foldM (apply_one got plt table dyn addr) l d = Ok d' ->
  (forall rel r' sym, (rel, r') ∈ l -> syt_get table r' = Some sym -> apart (span rel sym) r) ->
  same_on r d d'.
Proof.
  revert d; induction l as [|[rel r'] l IH]; intros d H Hdis; simpl in H.
  - injection H as <-. by split.
  - apply bind_Ok in H as (d1 & H1 & H). unfold apply_one in H1. simpl in H1. inv_ok H1.
    apply unwrap_Ok in E0. apply frame_one in H1.
    assert (Hon : same_on r d d1) by (eapply same_off_on; [done|]; eapply Hdis; [|done]; set_solver).
    destruct Hon as [Hl1 Hk1]. destruct (IH d1 H) as [Hl2 Hk2].
    { intros rel2 r2 sym2 Hin. apply Hdis. set_solver. }
    split; [congruence|]. intros k Hk. rewrite Hk1, Hk2; done.
Qed.

(** The [i]th relocation, in isolation, within a successful run over a chunk. *)
Lemma isolated got plt table dyn c c' i rel r sym :
  chunk_apply_relocations got plt table dyn c = Ok c' ->
  c_relocations c !! i = Some (rel, r) -> syt_get table r = Some sym ->
  (forall j rel' r' sym', j <> i -> c_relocations c !! j = Some (rel', r') -> syt_get table r' = Some sym' ->
     apart (span rel' sym') (span rel sym)) ->
  exists addr d d', c_address c = Some addr /\ apply_relocation addr d rel sym dyn got plt = Ok d' /\
    same_on (span rel sym) (c_data c) d /\ same_on (span rel sym) d' (c_data c').
Proof.
  intros H Hi Hsym Hdis. apply chunk_apply_fold in H as (data' & H & ->). simpl.
  rewrite <- (take_drop_middle _ _ _ Hi) in H. rewrite foldM_app in H.
  apply bind_Ok in H as (d & Hpre & H). simpl in H. apply bind_Ok in H as (d' & Hone & Hpost).
  unfold apply_one in Hone. simpl in Hone. inv_ok Hone. apply unwrap_Ok in E, E0. rewrite Hsym in E0. injection E0 as <-.
  exists x, d, d'. split; [done|]. split; [done|]. split.
  - eapply fold_same_on; [exact Hpre|]. intros rel' r' sym' Hin Hs.
    apply elem_of_take in Hin as (j & Hj & Hlt). eapply (Hdis j); [lia|done|done].
  - eapply fold_same_on; [exact Hpost|]. intros rel' r' sym' Hin Hs.
    apply elem_of_list_lookup in Hin as (j & Hj). rewrite lookup_drop in Hj. eapply (Hdis (S i + j)%nat); [lia|done|done].
Qed.

Lemma chunk_frame got plt table dyn c c' : chunk_apply_relocations got plt table dyn c = Ok c' ->
  length (c_data c') = length (c_data c) /\
  forall k, (forall rel r sym, (rel, r) ∈ c_relocations c -> syt_get table r = Some sym ->
               k < (span rel sym).1 \/ (span rel sym).2 <= k) ->
    c_data c' !! N.to_nat k = c_data c !! N.to_nat k.
Proof.
  intros H. apply chunk_apply_fold in H as (data' & H & ->). simpl.
  assert (Hlen : length data' = length (c_data c)).
  { pose proof (fold_same_on got plt table dyn (c_address c) (c_relocations c) (c_data c) data' (0, 0) H) as [Hl _]; [|done].
    intros. right. simpl. lia. }
  split; [done|]. intros k Hk.
  pose proof (fold_same_on got plt table dyn (c_address c) (c_relocations c) (c_data c) data' (k, k + 1) H) as [_ Hs].
  - intros rel r sym Hin Hsy. destruct (Hk rel r sym Hin Hsy); [right|left]; simpl; lia.
  - symmetry. apply Hs. simpl. lia.
Qed.

Lemma psabi_width ty S A P g l w v : psabi ty S A P g l = Some (w, v) ->
  ty <> 0 /\ w = if decide (ty = 1) then 8%nat else 4%nat.
Proof.
  unfold psabi. intros H. destruct (decide (ty = 1)) as [->|E]; [by injection H as <- _|].
  repeat case_match; simplify_option_eq; done.
Qed.

Lemma final_field got plt table dyn c c' i rel r sym :
  chunk_apply_relocations got plt table dyn c = Ok c' ->
  c_relocations c !! i = Some (rel, r) -> syt_get table r = Some sym ->
  (forall j rel' r' sym', j <> i -> c_relocations c !! j = Some (rel', r') -> syt_get table r' = Some sym' ->
     apart (span rel' sym') (span rel sym)) ->
  r_type (r_info rel) ∈ supported -> ~ relaxed (r_type (r_info rel)) sym ->
  exists addr S w v, c_address c = Some addr /\ target_value sym dyn = Some S /\
    psabi (r_type (r_info rel)) (Z.of_N S) (r_addend rel) (Z.of_N addr + Z.of_N (r_offset rel))
      (slot_of sym got) (entry_of sym plt) = Some (w, v) /\
    rd w (c_data c') (r_offset rel) = Some (wrap w v).
Proof.
  intros H Hi Hsym Hdis Hsup Hnr. destruct (isolated _ _ _ _ _ _ _ _ _ _ H Hi Hsym Hdis) as (addr & d & d' & Ha & Happ & _ & Hon).
  destruct (field_value _ _ _ _ _ _ _ _ Happ Hsup Hnr) as (S & w & v & HS & Hp & Hrd & _).
  exists addr, S, w, v. split; [done|]. split; [done|]. split; [done|]. rewrite <- Hrd. symmetry. apply rd_ext.
  intros k Hk. apply Hon. apply psabi_width in Hp as [H0 Hw]. unfold span.
  rewrite decide_False by done. rewrite (decide_False (P := _ = 0)) by done. simpl.
  rewrite Hw in Hk. destruct (decide _); lia.
Qed.

(** * In-range relocations are accepted *)
Lemma write_at_ok data off bs : off + blen bs <= blen data -> exists d, write_at data off bs = Ok d.
Proof. intros H. unfold write_at. rewrite (proj2 (N.leb_le _ _) H). eauto. Qed.
Lemma chk_ok z : (- 2^63 <= z < 2^63)%Z -> chk_i64 z = Ok z.
Proof. intros H. apply chk_i64_Ok. done. Qed.
Lemma i32_ok z : (- 2^31 <= z < 2^31)%Z -> to_i32 z = Ok z.
Proof. intros H. apply to_i32_Ok. done. Qed.
Lemma i64_ok x : x < 2^63 -> to_i64 x = Ok (Z.of_N x).
Proof. intros H. apply to_i64_Ok. done. Qed.
Lemma reloc_S_ok sym dyn S : target_value sym dyn = Some S -> S < 2^63 -> reloc_S sym dyn = Ok (Z.of_N S).
Proof.
  unfold reloc_S, target_value, is_undefined. change SHN_UNDEF with 0. intros H HS.
  destruct (s_dynamic sym) as [d|].
  - destruct (N.eqb_spec (st_shndx (s_sym sym)) 0) as [H0|H0].
    + rewrite decide_True in H by done. destruct (syt_get dyn d) as [ds|]; [|done]. injection H as <-. simpl. by apply i64_ok.
    + rewrite decide_False in H by done. injection H as <-. by apply i64_ok.
  - assert (Some S = Some (st_value (s_sym sym))) as [= ->] by (by destruct (decide _)). by apply i64_ok.
Qed.
Lemma got_ok data off sym got a p g : slot_of sym got = Some g ->
  (0 <= Z.of_N got < 2^62)%Z -> (g < 2^62)%Z -> (- 2^61 <= a < 2^61)%Z -> (0 <= p < 2^62)%Z ->
  (- 2^31 <= g + a - p < 2^31)%Z -> off + 4 <= blen data -> exists d, apply_got data off sym (Z.of_N got) a p = Ok d.
Proof.
  unfold slot_of, apply_got. destruct (s_in_got sym) as [x|]; [|done]. simpl. intros [= <-] H1 H2 H3 H4 H5 H6.
  rewrite i64_ok by lia. simpl. rewrite chk_ok by lia. simpl. rewrite chk_ok by lia. simpl. rewrite chk_ok by lia. simpl.
  rewrite i32_ok by lia. simpl. apply write_at_ok. rewrite blen_le_bytes_z. lia.
Qed.

Lemma accepted addr data rel sym dyn got plt S w v :
  target_value sym dyn = Some S -> r_type (r_info rel) ∈ supported -> ~ relaxed (r_type (r_info rel)) sym ->
  psabi (r_type (r_info rel)) (Z.of_N S) (r_addend rel) (Z.of_N addr + Z.of_N (r_offset rel))
      (slot_of sym got) (entry_of sym plt) = Some (w, v) ->
  (r_type (r_info rel) = 19 \/ r_type (r_info rel) = 22 -> is_tls sym = true) ->
  S < 2^62 -> addr + r_offset rel < 2^62 -> got < 2^62 -> (- 2^61 <= r_addend rel < 2^61)%Z ->
  (forall g, slot_of sym got = Some g -> g < 2^62)%Z -> (forall l, entry_of sym plt = Some l -> l < 2^62)%Z ->
  (- 2 ^ (8 * Z.of_nat w - 1) <= v < 2 ^ (8 * Z.of_nat w - 1))%Z ->
  r_offset rel + N.of_nat w <= blen data ->
  exists data', apply_relocation addr data rel sym dyn got plt = Ok data'.
Proof.
  intros HS Hsup Hnr Hp Htls HS2 HP2 Hg2 HA2 Hslot Hentry Hv Hfit.
  unfold apply_relocation. rewrite (reloc_S_ok _ _ _ HS) by lia. cbn [mbind res_bind].
  rewrite (proj2 (N.leb_gt _ _)) by lia. cbn [mbind res_bind]. rewrite i64_ok by lia. cbn [mbind res_bind].
  rewrite i64_ok by lia. cbn [mbind res_bind]. rewrite N2Z.inj_add.
  unfold relaxed in Hnr.
  set (ty := r_type (r_info rel)) in *. clearbody ty.
  unfold supported in Hsup. rewrite !elem_of_cons, elem_of_nil in Hsup.
  unfold psabi in Hp.
  destruct Hsup as [-> |[-> |[-> |[-> |[-> |[-> |[-> |[-> |[-> |[]]]]]]]]]]; cbn -[Z.pow le_bytes_z write_at write_i32 apply_got blen N.add] in Hp |- *.
  - injection Hp as <- <-. rewrite chk_ok by lia. cbn [mbind res_bind]. apply write_at_ok. rewrite blen_le_bytes_z. done.
  - injection Hp as <- <-. rewrite chk_ok by lia. cbn [mbind res_bind]. rewrite chk_ok by lia. cbn [mbind res_bind].
    rewrite i32_ok by lia. apply write_at_ok. rewrite blen_le_bytes_z. done.
  - unfold entry_of in Hp, Hentry. destruct (s_in_plt sym) as [i|]; [|done]. cbn in Hp. injection Hp as <- <-. cbn.
    specialize (Hentry _ eq_refl). unfold plt_entry_addr, plt_entry_at in *.
    rewrite i64_ok by lia. cbn [mbind res_bind]. rewrite chk_ok by lia. cbn [mbind res_bind].
    rewrite chk_ok by lia. cbn [mbind res_bind]. rewrite i32_ok by lia. cbn [mbind res_bind].
    apply write_at_ok. rewrite blen_le_bytes_z. done.
  - injection Hp as <- <-. rewrite chk_ok by lia. cbn [mbind res_bind]. rewrite i32_ok by lia.
    apply write_at_ok. rewrite blen_le_bytes_z. done.
  - injection Hp as <- <-. rewrite chk_ok by lia. cbn [mbind res_bind]. apply write_at_ok. rewrite blen_le_bytes_z. done.
  - destruct (slot_of sym got) as [g|] eqn:Eg; [|done]. cbn in Hp. injection Hp as <- <-.
    rewrite bool_decide_eq_false_2 by (intros Hd; apply Hnr; split; [by left|done]).
    pose proof (Hslot _ eq_refl). eapply got_ok; [done|lia..].
  - destruct (slot_of sym got) as [g|] eqn:Eg; [|done]. cbn in Hp. injection Hp as <- <-.
    rewrite bool_decide_eq_false_2 by (intros Hd; apply Hnr; split; [by right|done]).
    pose proof (Hslot _ eq_refl). eapply got_ok; [done|lia..].
  - destruct (slot_of sym got) as [g|] eqn:Eg; [|done]. cbn in Hp. injection Hp as <- <-.
    rewrite Htls by tauto. pose proof (Hslot _ eq_refl). eapply got_ok; [done|lia..].
  - destruct (slot_of sym got) as [g|] eqn:Eg; [|done]. cbn in Hp. injection Hp as <- <-.
    rewrite Htls by tauto. pose proof (Hslot _ eq_refl). eapply got_ok; [done|lia..].
Qed.

Lemma decode_at_ext base (d d' : bytes) off n i : decode_at base d off = Some (i, n) ->
  (forall k, off <= k < off + n -> d !! N.to_nat k = d' !! N.to_nat k) -> decode_at base d' off = Some (i, n).
Proof.
  intros H He. rewrite <- H. symmetry. unfold decode_at in *.
  assert (Hn : 5 <= n).
  { repeat (match goal with H : context [?o ≫= _] |- _ => destruct o eqn:?; simpl in H; [|done] end ||
      case_decide || simplify_eq); lia. }
  rewrite <- (rd_ext 1 d d' off) by (intros; apply He; lia).
  destruct (rd 1 d off) as [b0|]; [|done]. cbn [mbind option_bind] in *.
  destruct (decide (b0 = 0xe8)). { rewrite <- (rd_z_ext 4 d d') by (intros; apply He; lia). done. }
  destruct (decide (b0 = 0xe9)). { rewrite <- (rd_z_ext 4 d d') by (intros; apply He; lia). done. }
  destruct (decide (b0 = 0x68)). { rewrite <- (rd_z_ext 4 d d') by (intros; apply He; lia). done. }
  destruct (decide (b0 = 0xff)).
  { assert (Hn6 : 6 <= n).
    { repeat (match goal with H : context [?o ≫= _] |- _ => destruct o eqn:?; simpl in H; [|done] end ||
      case_decide || simplify_eq); lia. }
    rewrite <- (rd_ext 1 d d' (off + 1)) by (intros; apply He; lia).
    rewrite <- (rd_z_ext 4 d d' (off + 2)) by (intros; apply He; lia). done. }
  destruct (decide (72 <= b0 < 80)); [|done].
  assert (Hn6 : 7 <= n).
  { repeat (match goal with H : context [?o ≫= _] |- _ => destruct o eqn:?; simpl in H; [|done] end ||
      case_decide || simplify_eq); lia. }
  rewrite <- (rd_ext 1 d d' (off + 1)) by (intros; apply He; lia).
  rewrite <- (rd_ext 1 d d' (off + 2)) by (intros; apply He; lia).
  rewrite <- (rd_z_ext 4 d d' (off + 3)) by (intros; apply He; lia). done.
Qed.

Lemma same_on_sym r d d' : same_on r d d' -> same_on r d' d.
Proof. intros [H1 H2]. split; [done|]. intros. by rewrite H2. Qed.

Lemma lea_final got plt table dyn c c' i rel r sym :
  chunk_apply_relocations got plt table dyn c = Ok c' ->
  c_relocations c !! i = Some (rel, r) -> syt_get table r = Some sym ->
  (forall j rel' r' sym', j <> i -> c_relocations c !! j = Some (rel', r') -> syt_get table r' = Some sym' ->
     apart (span rel' sym') (span rel sym)) ->
  r_type (r_info rel) = 42 -> s_dynamic sym = None ->
  exists addr S reg ea0, c_address c = Some addr /\ target_value sym dyn = Some S /\
    decode_at (Z.of_N addr) (c_data c) (r_offset rel - 3) = Some (MovLoad reg ea0, 7) /\
    decode_at (Z.of_N addr) (c_data c') (r_offset rel - 3) = Some (Lea reg (Z.of_N S + r_addend rel + 4), 7).
Proof.
  intros H Hi Hsym Hdis Hty Hd.
  destruct (isolated _ _ _ _ _ _ _ _ _ _ H Hi Hsym Hdis) as (addr & d & d' & Ha & Happ & Hon1 & Hon2).
  destruct (lea_relax _ _ _ _ _ _ _ _ Happ Hty Hd) as (S & reg & ea0 & HS & Hoff & D1 & D2).
  exists addr, S, reg, ea0. split; [done|]. split; [done|].
  assert (Hsp : span rel sym = (r_offset rel - 3, r_offset rel + 4)).
  { unfold span. rewrite Hty. rewrite decide_True by (split; [by right|done]). done. }
  rewrite Hsp in Hon1, Hon2. destruct (same_on_sym _ _ _ Hon1) as [_ H1]. destruct Hon2 as [_ H2]. simpl in H1, H2.
  split; eapply decode_at_ext; [exact D1| |exact D2|]; intros k Hk; [apply H1|apply H2]; lia.
Qed.

Lemma tpoff_value addr data rel sym dyn got plt data' :
  apply_relocation addr data rel sym dyn got plt = Ok data' -> r_type (r_info rel) = 23 ->
  exists S, target_value sym dyn = Some S /\ rd_z 4 data' (r_offset rel) = Some (Z.of_N S + r_addend rel)%Z.
Proof.
  intros H Hty. apply apply_applied in H as (S & HS & H). exists S. split; [done|].
  destruct H as [E _|w v Hp Hsup Hnr _ _|g E|E v Hr Hw|op m d1 d2 E Hd|instr instr' d1 E Hd]; try (rewrite Hty in E; done).
  - rewrite Hty in Hsup. set_solver.
  - eapply write_z_rd_z; [lia|exact Hw|exact Hr].
Qed.
