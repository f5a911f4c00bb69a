From Verif Require Import ProofBase ProofReloc SpecApply.

(** Values that are either computed or a crash; never an error. *)
Definition okp {A} (r : res A) (P : Prop) : Prop := (exists a, r = Ok a) /\ P \/ (exists p, r = Panic p) /\ ~ P.
Lemma okp_iff {A} (r : res A) P Q : (P <-> Q) -> okp r P -> okp r Q.
Proof. intros E [[H1 H2]|[H1 H2]]; [left|right]; (split; [exact H1|tauto]). Qed.
(** A checked step that yields [v] under [P]. *)
Lemma okp_step {A B} (r : res A) (v : A) (f : A -> res B) (P Q : Prop) : (P -> r = Ok v) -> (~ P -> exists p, r = Panic p) -> P \/ ~ P -> (P -> okp (f v) Q) -> okp (r ≫= f) (P /\ Q).
Proof.
  intros H1 H2 [D|D] H.
  - rewrite (H1 D). cbn [mbind res_bind]. apply (okp_iff _ Q); [tauto|exact (H D)].
  - destruct (H2 D) as [p ->]. cbn [mbind res_bind]. right. split; [by exists p|tauto].
Qed.
Lemma dec_signed b v : signed b v \/ ~ signed b v.
Proof. unfold signed. destruct (Z_le_dec (- 2 ^ (b - 1)) v); destruct (Z_lt_dec v (2 ^ (b - 1))); [left; lia|right; lia..]. Qed.
Lemma step_i64 {B} x (f : Z -> res B) (Q : Prop) : (x < 2 ^ 63 -> okp (f (Z.of_N x)) Q) -> okp (to_i64 x ≫= f) (x < 2 ^ 63 /\ Q).
Proof.
  apply okp_step; unfold to_i64; [intros H; by rewrite (proj2 (N.ltb_lt _ _) H)|intros H; rewrite (proj2 (N.ltb_ge _ _)) by lia; by eexists|]. destruct (N.ltb_spec x (2 ^ 63)); [by left|right; lia].
Qed.
Lemma step_chk {B} x (f : Z -> res B) (Q : Prop) : (signed 64 x -> okp (f x) Q) -> okp (chk_i64 x ≫= f) (signed 64 x /\ Q).
Proof.
  apply okp_step; unfold chk_i64, signed; change (64 - 1)%Z with 63%Z; [| |apply (dec_signed 64)]; intros H.
  - rewrite (proj2 (Z.leb_le _ _)) by lia. by rewrite (proj2 (Z.ltb_lt _ _)) by lia.
  - destruct (Z.leb_spec (- 2 ^ 63) x); destruct (Z.ltb_spec x (2 ^ 63)); cbn [andb]; try lia; by eexists.
Qed.
Lemma step_i32 {B} x (f : Z -> res B) (Q : Prop) : (signed 32 x -> okp (f x) Q) -> okp (to_i32 x ≫= f) (signed 32 x /\ Q).
Proof.
  apply okp_step; unfold to_i32, signed; change (32 - 1)%Z with 31%Z; [| |apply (dec_signed 32)]; intros H.
  - rewrite (proj2 (Z.leb_le _ _)) by lia. by rewrite (proj2 (Z.ltb_lt _ _)) by lia.
  - destruct (Z.leb_spec (- 2 ^ 31) x); destruct (Z.ltb_spec x (2 ^ 31)); cbn [andb]; try lia; by eexists.
Qed.
Lemma step_some {A B} (x : option A) (f : A -> res B) (Q : A -> Prop) : (forall a, x = Some a -> okp (f a) (Q a)) -> okp (unwrap x ≫= f) (exists a, x = Some a /\ Q a).
Proof.
  destruct x as [a|]; cbn [unwrap mbind res_bind]; intros H; [|right; split; [by eexists|by intros (a & [=] & _)]].
  apply (okp_iff _ (Q a)); [|by apply H]. split; [intros Q1; by exists a|by intros (a' & [= <-] & Q1)].
Qed.
Lemma end_write data off bs : okp (write_at data off bs) (off + N.of_nat (length bs) <= N.of_nat (length data)).
Proof. unfold write_at, blen. destruct (N.leb_spec (off + N.of_nat (length bs)) (N.of_nat (length data))) as [H|H]; [left|right]; (split; [by eexists|lia]). Qed.
Lemma le_len n v : length (le_bytes_z n v) = n.
Proof. unfold le_bytes_z. generalize (Z.to_N (v mod 2 ^ (8 * Z.of_nat n))%Z). induction n as [|n IH]; intros x; cbn [le_bytes length]; [done|]. f_equal. apply IH. Qed.
Lemma end_i32 data off v : okp (write_i32 data off v) (off + 4 <= N.of_nat (length data)).
Proof. pose proof (end_write data off (le_bytes_z 4 v)) as H. rewrite le_len in H. exact H. Qed.
Lemma end_got data off sym got A P : got < 2 ^ 63 -> okp (apply_got data off sym (Z.of_N got) A P) (got_slot sym got A P /\ off + 4 <= N.of_nat (length data)).
Proof.
  intros Hg. unfold apply_got. eapply okp_iff; [|apply step_some; intros g Eg; apply step_i64; intros Hgg; apply step_chk; intros K1; apply step_chk; intros K2; apply step_chk; intros K3; apply step_i32; intros K4; apply end_i32].
  unfold got_slot, relative. split.
  - intros (g & E & H1 & H2 & H3 & H4 & H5 & H6). split; [|exact H6]. exists g. tauto.
  - intros ((g & E & H1 & H2 & H3 & H4) & H6). exists g. assert (signed 64 (Z.of_N g + Z.of_N got + A - P)) by (unfold signed in *; change (64 - 1)%Z with 63%Z in *; change (32 - 1)%Z with 31%Z in *; lia). tauto.
Qed.
Lemma step_S {B} sym dyn (f : Z -> res B) (Q : N -> Prop) : (forall S, value_of sym dyn = Some S -> S < 2 ^ 63 -> okp (f (Z.of_N S)) (Q S)) -> okp (reloc_S sym dyn ≫= f) (exists S, value_of sym dyn = Some S /\ S < 2 ^ 63 /\ Q S).
Proof.
  intros H. assert (K : forall v, value_of sym dyn = Some v -> okp (to_i64 v ≫= f) (exists S, value_of sym dyn = Some S /\ S < 2 ^ 63 /\ Q S)).
  { intros v Ev. eapply okp_iff; [|apply step_i64; intros Hv; exact (H v Ev Hv)]. split; [intros [H1 H2]; by exists v|]. intros (S & E & H1 & H2). rewrite Ev in E. injection E as <-. tauto. }
  unfold reloc_S, value_of, is_undefined in *. change SHN_UNDEF with 0. destruct (s_dynamic sym) as [d|]; [|by apply K]. destruct (st_shndx (s_sym sym) =? 0); [|by apply K].
  destruct (syt_get dyn d) as [ds|]; cbn [unwrap mbind res_bind]; [exact (K _ eq_refl)|]. right. split; [by eexists|]. by intros (S & [=] & _).
Qed.
Lemma step_plt {B} plt i (f : Z -> res B) (Q : Prop) : (plt + 16 * (1 + i) < 2 ^ 63 -> okp (f (Z.of_N (plt + 16 * (1 + i)))) Q) -> okp (plt_entry_addr plt i ≫= f) (plt + 16 * (1 + i) < 2 ^ 63 /\ Q).
Proof. unfold plt_entry_addr. apply step_i64. Qed.
Lemma relax_mov i : length i = 3%nat -> (exists o, rex_relax i = Some o) <-> mov_from_got i.
Proof.
  intros L. destruct i as [|r [|b [|m [|? ?]]]]; try discriminate L. unfold rex_relax, mov_from_got. split.
  - intros (o & H). destruct (N.eq_dec b 0x8b) as [->|Nb].
    2:{ exfalso. revert H Nb. clear. destruct b as [|b]; [discriminate|]. do 8 (destruct b as [b|b|]; try discriminate). all: intros _ H; exact (H eq_refl). }
    destruct ((r =? 72) || (r =? 76)) eqn:Er; cbn [andb] in H; [|discriminate H]. destruct (_ || (m =? 45)) eqn:Em in H; [|discriminate H].
    rewrite !orb_true_iff in Er. rewrite !orb_true_iff in Em. rewrite !N.eqb_eq in Er. rewrite !N.eqb_eq in Em. exists r, m, ((m - 5) / 8). split; [reflexivity|]. split; [exact Er|]. destruct Em as [[[[[[[->| ->]| ->]| ->]| ->]| ->]| ->]| ->]; split; reflexivity.
  - intros (r' & m' & reg & [= <- -> <-] & Hr & Hreg & ->). assert (E : (r =? 72) || (r =? 76) = true) by (rewrite orb_true_iff, !N.eqb_eq; exact Hr). rewrite E. cbn [andb].
    assert (reg = 0 \/ reg = 1 \/ reg = 2 \/ reg = 3 \/ reg = 4 \/ reg = 5 \/ reg = 6 \/ reg = 7) as Hc by lia. clear Hreg. destruct Hc as [->|[->|[->|[->|[->|[->|[->| ->]]]]]]]; eexists; reflexivity.
Qed.
Lemma relax_len i o : rex_relax i = Some o -> length o = 3%nat.
Proof.
  unfold rex_relax. intros H. repeat match type of H with (match ?x with _ => _ end = _) => destruct x; try discriminate H end. all: injection H as <-; reflexivity.
Qed.
Lemma end_ok {A} (a : A) : okp (Ok a) True.
Proof. left. split; [by eexists|done]. Qed.
Lemma end_panic {A} p : okp (Panic p : res A) False.
Proof. right. split; [by eexists|tauto]. Qed.
Lemma step_write {B} data off bs (f : bytes -> res B) (Q : Prop) : (forall d, length d = length data -> okp (f d) Q) -> okp (write_at data off bs ≫= f) (off + N.of_nat (length bs) <= N.of_nat (length data) /\ Q).
Proof.
  intros H. destruct (write_at data off bs) as [d|e|p] eqn:E.
  - assert (L := E). apply write_at_Ok in L as (L1 & L2 & _). cbn [mbind res_bind]. destruct (end_write data off bs) as [[_ K]|[[p K] _]]; [|rewrite E in K; discriminate K]. apply (okp_iff _ Q); [tauto|apply H; exact L2].
  - destruct (end_write data off bs) as [[[d K] _]|[[p K] _]]; rewrite E in K; discriminate K.
  - destruct (end_write data off bs) as [[[d K] _]|[_ K]]; [rewrite E in K; discriminate K|]. right. split; [by eexists|tauto].
Qed.
Lemma step_slice {B} data off n (f : bytes -> res B) (Q : Prop) : (off + n <= N.of_nat (length data) -> okp (f (bytes_at data off n)) Q) -> okp (slice data off n ≫= f) (off + n <= N.of_nat (length data) /\ Q).
Proof.
  apply okp_step; unfold slice, blen; [intros H; by rewrite (proj2 (N.leb_le _ _) H)|intros H; rewrite (proj2 (N.leb_gt _ _)) by lia; by eexists|lia].
Qed.
Lemma step_usub {B} a b (f : N -> res B) (Q : Prop) : (b <= a -> okp (f (a - b)) Q) -> okp (usub a b ≫= f) (b <= a /\ Q).
Proof.
  apply okp_step; unfold usub; [intros H; by rewrite (proj2 (N.leb_le _ _) H)|intros H; rewrite (proj2 (N.leb_gt _ _)) by lia; by eexists|lia].
Qed.
Lemma bytes_len data off n : off + n <= N.of_nat (length data) -> length (bytes_at data off n) = N.to_nat n.
Proof. intros H. unfold bytes_at. rewrite take_length, drop_length. lia. Qed.
Lemma rel_iff z P : (signed 64 z /\ signed 64 (z - P) /\ signed 32 (z - P)) <-> relative z P.
Proof. unfold relative, signed. change (64 - 1)%Z with 63%Z. change (32 - 1)%Z with 31%Z. lia. Qed.
Lemma s32_iff z : (signed 64 z /\ signed 32 z) <-> signed 32 z.
Proof. unfold signed. change (64 - 1)%Z with 63%Z. change (32 - 1)%Z with 31%Z. lia. Qed.
(** The relaxed call or jump. *)
Lemma call_okp data start op v : okp (d ← write_at data start [op]; d ← write_i32 d (start + 1) v; write_at d (start + 5) [0x90]) (start + 6 <= N.of_nat (length data)).
Proof.
  apply (okp_iff _ (start + N.of_nat (length [op]) <= N.of_nat (length data) /\ start + 6 <= N.of_nat (length data))); [cbn [length]; lia|]. apply step_write. intros d1 L1.
  unfold write_i32. apply (okp_iff _ (start + 1 + N.of_nat (length (le_bytes_z 4 v)) <= N.of_nat (length d1) /\ start + 6 <= N.of_nat (length data))); [rewrite le_len, L1; lia|]. apply step_write. intros d2 L2.
  eapply okp_iff; [|apply end_write]. cbn [length]. rewrite L2, L1. lia.
Qed.
(** * C106 *)
Definition cases (ty : N) (X1 R X2 X3 X4 X10 X11 X19 X23 Y X41 X42 : Prop) : Prop :=
  ty = 0 \/ ty = 1 /\ X1 \/ R /\ (ty = 2 /\ X2 \/ ty = 3 /\ X3 \/ ty = 4 /\ X4 \/ ty = 10 /\ X10 \/ ty = 11 /\ X11 \/ (ty = 19 \/ ty = 22) /\ X19 \/ ty = 23 /\ X23 \/ (ty = 41 \/ ty = 42) /\ Y \/ ty = 41 /\ X41 \/ ty = 42 /\ X42).
Section Cases.
Context (X1 R X2 X3 X4 X10 X11 X19 X23 Y X41 X42 : Prop).
Local Notation C ty := (cases ty X1 R X2 X3 X4 X10 X11 X19 X23 Y X41 X42).
Ltac go := unfold cases; split; [intros H; tauto|intros H; repeat match type of H with _ \/ _ => destruct H as [H|H] | _ /\ _ => destruct H as [? H] end; try discriminate; repeat match goal with K : _ \/ _ |- _ => destruct K as [K|K] end; try discriminate; tauto].
Lemma c1 : X1 <-> C 1. Proof. go. Qed.
Lemma c2 : R /\ X2 <-> C 2. Proof. go. Qed.
Lemma c3 : R /\ X3 <-> C 3. Proof. go. Qed.
Lemma c4 : R /\ X4 <-> C 4. Proof. go. Qed.
Lemma c10 : R /\ X10 <-> C 10. Proof. go. Qed.
Lemma c11 : R /\ X11 <-> C 11. Proof. go. Qed.
Lemma c19 : R /\ X19 <-> C 19. Proof. go. Qed.
Lemma c22 : R /\ X19 <-> C 22. Proof. go. Qed.
Lemma c23 : R /\ X23 <-> C 23. Proof. go. Qed.
Lemma c41 : R /\ (Y \/ X41) <-> C 41. Proof. go. Qed.
Lemma c42 : R /\ (Y \/ X42) <-> C 42. Proof. go. Qed.
Lemma cno ty : ty <> 0 -> ty <> 1 -> ty <> 2 -> ty <> 3 -> ty <> 4 -> ty <> 10 -> ty <> 11 -> ty <> 19 -> ty <> 22 -> ty <> 23 -> ty <> 41 -> ty <> 42 -> False <-> C ty.
Proof. unfold cases. tauto. Qed.
End Cases.
Lemma apply_okp addr data rel sym dyn got plt : okp (apply_relocation addr data rel sym dyn got plt) (can_apply addr data rel sym dyn got plt).
Proof.
  unfold apply_relocation, can_apply. cbv zeta. unfold r_type. set (ty := r_info rel mod 2 ^ 32). set (off := r_offset rel). set (A := r_addend rel).
  apply step_S. intros S ES HS.
  destruct (N.leb_spec (2 ^ 64) (addr + off)) as [Hov|Hov]; cbn [mbind res_bind]; [right; split; [by eexists|]; intros (H & _); apply N.lt_nge in H; apply H; etransitivity; [|exact Hov]; apply N.leb_le; reflexivity|]. clear Hov.
  apply step_i64. intros HP. apply step_i64. intros HG. set (P := Z.of_N (addr + off)). clearbody P.
  unfold R_X86_64_NONE, R_X86_64_64, R_X86_64_32, R_X86_64_32S, R_X86_64_PC32, R_X86_64_GOT32, R_X86_64_GOTPCRELX, R_X86_64_REX_GOTPCRELX, R_X86_64_TLSGD, R_X86_64_GOTTPOFF, R_X86_64_TPOFF32, R_X86_64_PLT32.
  clearbody ty. match goal with |- okp _ ?G => match G with ?a \/ ?t1 /\ ?x1 \/ ?r /\ (?t2 /\ ?x2 \/ ?t3 /\ ?x3 \/ ?t4 /\ ?x4 \/ ?t10 /\ ?x10 \/ ?t11 /\ ?x11 \/ ?t19 /\ ?x19 \/ ?t23 /\ ?x23 \/ ?tyy /\ ?y \/ ?t41 /\ ?x41 \/ ?t42 /\ ?x42) => change G with (cases ty x1 r x2 x3 x4 x10 x11 x19 x23 y x41 x42) end end.
  destruct (N.eqb_spec ty 0) as [->|N0]; [left; split; [by eexists|by left]|].
  destruct (N.eqb_spec ty 1) as [->|N1].
  { eapply okp_iff; [apply c1|]. apply step_chk. intros _. pose proof (end_write data off (le_bytes_z 8 (Z.of_N S + A))) as H. rewrite le_len in H. exact H. }
  destruct (N.eqb_spec ty 10) as [->|N10].
  { eapply okp_iff; [apply c10|]. eapply okp_iff; [|apply step_chk; intros _; apply step_i32; intros _; apply end_i32]. pose proof (s32_iff (Z.of_N S + A)). tauto. }
  destruct (N.eqb_spec ty 11) as [->|N11].
  { eapply okp_iff; [apply c11|]. eapply okp_iff; [|apply step_chk; intros _; apply end_i32]. tauto. }
  destruct (N.eqb_spec ty 2) as [->|N2].
  { eapply okp_iff; [apply c2|]. eapply okp_iff; [|apply step_chk; intros _; apply step_chk; intros _; apply step_i32; intros _; apply end_i32]. pose proof (rel_iff (Z.of_N S + A) P). tauto. }
  destruct (N.eqb_spec ty 3) as [->|N3].
  { eapply okp_iff; [apply c3|]. eapply okp_iff; [|apply end_got; exact HG]. tauto. }
  destruct (N.eqb_spec ty 41) as [->|N41].
  { cbn [andb]. eapply okp_iff; [apply c41|]. destruct (decide (s_dynamic sym = None)) as [D|D].
    - rewrite bool_decide_eq_true_2 by exact D. cbn [andb]. pose proof (rel_iff (Z.of_N S + A) P) as HR. set (op := bytes_at data (off - 2) 2).
      eapply okp_iff; [|apply step_usub; intros H2; apply step_chk; intros _; apply step_chk; intros _; apply step_i32; intros _; apply step_slice; intros HL;
        refine (_ : okp _ ((op = [255; 21] \/ op = [255; 37]) /\ off + 4 <= N.of_nat (length data)))].
      + pose proof (N.le_trans (off - 2 + 2) (off + 4) (N.of_nat (length data))). assert (off - 2 + 2 <= off + 4 \/ ~ 2 <= off) by lia. tauto.
      + fold op. destruct (decide (op = [255; 21])) as [O1|O1]; [rewrite bool_decide_eq_true_2 by exact O1; eapply okp_iff; [|apply call_okp]; assert ((off - 2 + 6 <= N.of_nat (length data)) <-> off + 4 <= N.of_nat (length data)) by lia; tauto|].
        rewrite bool_decide_eq_false_2 by exact O1. destruct (decide (op = [255; 37])) as [O2|O2]; [rewrite bool_decide_eq_true_2 by exact O2; eapply okp_iff; [|apply call_okp]; assert ((off - 2 + 6 <= N.of_nat (length data)) <-> off + 4 <= N.of_nat (length data)) by lia; tauto|].
        rewrite bool_decide_eq_false_2 by exact O2. eapply okp_iff; [|apply end_panic]. tauto.
    - rewrite bool_decide_eq_false_2 by exact D. cbn [andb]. eapply okp_iff; [|apply end_got; exact HG]. tauto. }
  cbn [andb]. destruct (N.eqb_spec ty 42) as [->|N42].
  { eapply okp_iff; [apply c42|]. destruct (decide (s_dynamic sym = None)) as [D|D].
    - rewrite bool_decide_eq_true_2 by exact D. pose proof (rel_iff (Z.of_N S + A) P) as HR. set (op := bytes_at data (off - 3) 3).
      eapply okp_iff; [|apply step_usub; intros H2; apply step_slice; intros HL; refine (_ : okp _ (mov_from_got op /\ relative (Z.of_N S + A) P /\ off + 4 <= N.of_nat (length data)))].
      + pose proof (N.le_trans (off - 3 + 3) (off + 4) (N.of_nat (length data))). assert (off - 3 + 3 <= off + 4 \/ ~ 3 <= off) by lia. tauto.
      + fold op. pose proof (relax_mov op (bytes_len _ _ _ HL)) as HM. destruct (rex_relax op) as [o|] eqn:Eo.
        2:{ eapply okp_iff; [|apply end_panic]. split; [tauto|]. intros [M _]. apply HM in M as [o [=]]. }
        assert (M : mov_from_got op) by (apply HM; by exists o). apply relax_len in Eo.
        eapply okp_iff; [|apply step_write; intros d L; refine (_ : okp _ (relative (Z.of_N S + A) P /\ off + 4 <= N.of_nat (length data)))].
        * rewrite Eo. assert (off - 3 + N.of_nat 3 <= N.of_nat (length data)) by lia. tauto.
        * eapply okp_iff; [|apply step_chk; intros _; apply step_chk; intros _; apply step_i32; intros _; apply end_i32]. rewrite L. replace (off - 3 + 3) with off by lia. tauto.
    - rewrite bool_decide_eq_false_2 by exact D. eapply okp_iff; [|apply end_got; exact HG]. tauto. }
  assert (HT : is_tls sym = true <-> st_info (s_sym sym) mod 16 = 6) by (unfold is_tls, st_type, STT_TLS; rewrite N.eqb_eq; change 15 with (N.ones 4); rewrite N.land_ones; reflexivity).
  destruct (N.eqb_spec ty 19) as [->|N19].
  { cbn [orb]. eapply okp_iff; [apply c19|]. destruct (is_tls sym); [eapply okp_iff; [|apply end_got; exact HG]|eapply okp_iff; [|apply end_panic]]; [tauto|]. split; [tauto|]. intros (_ & H & _). apply HT in H. discriminate H. }
  destruct (N.eqb_spec ty 22) as [->|N22].
  { cbn [orb]. eapply okp_iff; [apply c22|]. destruct (is_tls sym); [eapply okp_iff; [|apply end_got; exact HG]|eapply okp_iff; [|apply end_panic]]; [tauto|]. split; [tauto|]. intros (_ & H & _). apply HT in H. discriminate H. }
  cbn [orb]. destruct (N.eqb_spec ty 23) as [->|N23].
  { eapply okp_iff; [apply c23|]. eapply okp_iff; [|apply step_chk; intros _; apply step_i32; intros _; apply end_i32]. pose proof (s32_iff (Z.of_N S + A)). tauto. }
  destruct (N.eqb_spec ty 4) as [->|N4].
  { eapply okp_iff; [apply c4|]. eapply okp_iff; [|apply step_some; intros i Ei; apply step_plt; intros Hi; apply step_chk; intros _; apply step_chk; intros _; apply step_i32; intros _; apply end_i32].
    split.
    - intros (i & E & H1 & H2 & H3 & H4 & H5). split; [exact H5|]. exists i. split; [exact E|]. split; [exact H1|]. apply rel_iff. tauto.
    - intros (H5 & i & E & H1 & H2). apply rel_iff in H2. exists i. tauto. }
  eapply okp_iff; [apply cno; assumption|]. apply end_panic.
Qed.
