(** PLT, .got.plt and the dynamic relocation records. *)
From Verif Require Export ProofTables.

(** * Patching the PLT *)
Definition stub_done (pa ga : N) (d g : bytes) (i k : N) : Prop :=
  let e := 16 * (i + 1) in
  rd_z 4 d (e + 2) = Some (Z.of_N (8 * (i + 3) + ga) - (Z.of_N pa + Z.of_N e) - 6)%Z /\ rd 4 d (e + 7) = Some (u32 k) /\
  rd_z 4 d (e + 12) = Some (- Z.of_N e - 16)%Z /\ rd 8 g (8 * (i + 3)) = Some (pa + e + 6) /\ e + 16 <= 2^31.
Lemma stub_done_ext pa ga d g i k d' g' : stub_done pa ga d g i k -> same_on (16 * (i + 1), 16 * (i + 2)) d d' -> same_on (8 * (i + 3), 8 * (i + 4)) g g' -> stub_done pa ga d' g' i k.
Proof.
  intros (A & B & C & D & E) [_ F] [_ G]. cbn [fst snd] in F, G. unfold stub_done. split_and!.
  - rewrite <- A. symmetry. apply rd_z_ext. intros x Hx. apply F. lia.
  - rewrite <- B. symmetry. apply rd_ext. intros x Hx. apply F. lia.
  - rewrite <- C. symmetry. apply rd_z_ext. intros x Hx. apply F. lia.
  - rewrite <- D. symmetry. apply rd_ext. intros x Hx. apply G. lia.
  - exact E.
Qed.
Definition is_opcode (k : N) : Prop := k < 16 \/ k mod 16 ∈ [0; 1; 6; 11].
Lemma le_bytes_len n v : blen (le_bytes n v) = N.of_nat n.
Proof. unfold blen. by rewrite le_bytes_length. Qed.
Lemma le_bytes_z_len n v : blen (le_bytes_z n v) = N.of_nat n.
Proof. unfold le_bytes_z. apply le_bytes_len. Qed.
Lemma plt_step_done t pa ga d g r off d' g' : patch_plt_step t pa ga (d, g) (r, off) = Ok (d', g') -> exists sym i k,
  syt_get t r = Some sym /\ s_in_plt sym = Some i /\ s_relocation_offset sym = Some k /\
  (off = 8 * (i + 3) -> stub_done pa ga d' g' i k) /\ same_off (16 * (i + 1), 16 * (i + 2)) d d' /\ same_off (off, off + 8) g g' /\
  forall x, is_opcode x -> d' !! N.to_nat x = d !! N.to_nat x.
Proof.
  unfold patch_plt_step. intros H. apply bind_Ok in H as (sym & H1 & H). apply bind_Ok in H as (i & H2 & H). apply bind_Ok in H as (en & H3 & H).
  apply bind_Ok in H as (g1 & H4 & H). apply bind_Ok in H as (rel & H5 & H). apply bind_Ok in H as (d1 & H6 & H). apply bind_Ok in H as (k & H7 & H).
  apply bind_Ok in H as (d2 & H8 & H). apply bind_Ok in H as (pz & H9 & H). apply bind_Ok in H as (d3 & H10 & [= <- <-]).
  apply unwrap_Ok in H1, H2, H7. pose proof (plt_entry_addr_Ok _ _ _ H3) as ->. unfold plt_entry_addr in H3. apply to_i64_Ok in H3 as [_ Hb].
  unfold write_i32 in *. set (e := 16 * (i + 1)). assert (Ee : (plt_entry_at pa i = Z.of_N pa + Z.of_N e)%Z) by (unfold plt_entry_at, e; lia).
  rewrite Ee in *. replace (Z.to_N (Z.of_N pa + Z.of_N e - Z.of_N pa)) with e in * by lia.
  apply to_i32_Ok in H5 as [-> B1]. apply to_i32_Ok in H9 as [-> B2].
  replace (e + 6 + 5 + 1) with (e + 12) in * by lia. replace (e + 6 + 1) with (e + 7) in * by lia.
  assert (S1 : same_off (e + 2, e + 6) d d1) by (eapply write_same_off; [exact H6|cbn [fst snd]; lia|rewrite le_bytes_z_len; cbn [fst snd]; lia]).
  assert (S2 : same_off (e + 7, e + 11) d1 d2) by (eapply write_same_off; [exact H8|cbn [fst snd]; lia|rewrite le_bytes_len; cbn [fst snd]; lia]).
  assert (S3 : same_off (e + 12, e + 16) d2 d3) by (eapply write_same_off; [exact H10|cbn [fst snd]; lia|rewrite le_bytes_z_len; cbn [fst snd]; lia]).
  assert (Sg : same_off (off, off + 8) g g1) by (eapply write_same_off; [exact H4|cbn [fst snd]; lia|rewrite le_bytes_z_len; cbn [fst snd]; lia]).
  exists sym, i, k. split; [exact H1|]. split; [exact H2|]. split; [exact H7|]. split; [|split; [|split]].
  - intros ->. unfold stub_done. fold e. split_and!.
    + rewrite <- (rd_z_ext 4 d1 d3 (e + 2)).
      * rewrite (write_z_rd_z _ _ 4 _ _ ltac:(lia) H6); [f_equal; lia|]. change (8 * Z.of_nat 4 - 1)%Z with 31%Z. lia.
      * intros x Hx. rewrite (proj2 S2) by (cbn [fst snd]; lia). apply (proj2 S3). cbn [fst snd]; lia.
    + rewrite <- (rd_ext 4 d2 d3 (e + 7)) by (intros x Hx; apply (proj2 S3); cbn [fst snd]; lia).
      rewrite (write_rd _ _ 4 _ _ H8) by apply le_bytes_length. f_equal. rewrite le_val_le_bytes. unfold u32. change (2 ^ (8 * N.of_nat 4)) with (2^32). apply N.mod_mod. lia.
    + rewrite (write_z_rd_z _ _ 4 _ _ ltac:(lia) H10); [f_equal; lia|]. change (8 * Z.of_nat 4 - 1)%Z with 31%Z. lia.
    + rewrite (write_z_rd _ _ 8 _ _ ltac:(lia) H4). f_equal. unfold wrap. change (2 ^ (8 * Z.of_nat 8))%Z with (2^64)%Z. rewrite Z.mod_small by lia. lia.
    + lia.
  - split; [rewrite (proj1 S1), (proj1 S2); exact (proj1 S3)|]. cbn. intros x Hx. rewrite (proj2 S1) by (cbn [fst snd]; lia). rewrite (proj2 S2) by (cbn [fst snd]; lia). apply (proj2 S3). cbn [fst snd]; lia.
  - exact Sg.
  - intros x Hx. symmetry. assert (Hc : x < 16 \/ x mod 16 = 0 \/ x mod 16 = 1 \/ x mod 16 = 6 \/ x mod 16 = 11).
    { destruct Hx as [?|Hx]; [by left|]. rewrite !elem_of_cons in Hx. destruct Hx as [?|[?|[?|[?|Hx]]]]; [tauto..|]. by apply elem_of_nil in Hx. }
    clear Hx. assert (Hy : x < e + 2 \/ (e + 6 <= x < e + 7) \/ (e + 11 <= x < e + 12) \/ e + 16 <= x) by (unfold e; lia).
    rewrite (proj2 S1) by (cbn [fst snd]; lia). rewrite (proj2 S2) by (cbn [fst snd]; lia). apply (proj2 S3). cbn [fst snd]; lia.
Qed.

Lemma plt_steps_done t pa ga entries d g d' g' : foldM (patch_plt_step t pa ga) entries (d, g) = Ok (d', g') -> NoDup entries.*2 ->
  (forall r off, (r, off) ∈ entries -> exists sym i, syt_get t r = Some sym /\ s_in_plt sym = Some i /\ off = 8 * (i + 3)) ->
  (forall r off sym i, (r, off) ∈ entries -> syt_get t r = Some sym -> s_in_plt sym = Some i -> exists k, s_relocation_offset sym = Some k /\ stub_done pa ga d' g' i k) /\
  (forall x, is_opcode x -> d' !! N.to_nat x = d !! N.to_nat x).
Proof.
  intros H ND Hs.
  assert (G : (forall r off sym i, (r, off) ∈ entries -> syt_get t r = Some sym -> s_in_plt sym = Some i -> exists k, s_relocation_offset sym = Some k /\ stub_done pa ga (d', g').1 (d', g').2 i k) /\
    (forall x, is_opcode x -> (d', g').1 !! N.to_nat x = d !! N.to_nat x)); [|exact G].
  revert H. apply (foldM_trace (fun pre st => (forall r off sym i, (r, off) ∈ pre -> syt_get t r = Some sym -> s_in_plt sym = Some i -> exists k, s_relocation_offset sym = Some k /\ stub_done pa ga st.1 st.2 i k) /\
    (forall x, is_opcode x -> st.1 !! N.to_nat x = d !! N.to_nat x))).
  { split; [intros r off sym i Hin; by apply elem_of_nil in Hin|reflexivity]. }
  intros pre [r0 o0] post [d1 g1] [d2 g2] -> [I1 I2] H. cbn [fst snd] in *. apply plt_step_done in H as (s0 & i0 & k0 & A1 & A2 & A3 & A4 & A5 & A6 & A7).
  assert (Ho : o0 = 8 * (i0 + 3)).
  { destruct (Hs r0 o0) as (s & i & B1 & B2 & B3); [apply elem_of_app; right; apply elem_of_list_here|]. congruence. }
  split.
  - intros r off sym i Hin Hg Hi. apply elem_of_app in Hin as [Hin|Hin].
    + destruct (I1 _ _ _ _ Hin Hg Hi) as (k & K1 & K2). exists k. split; [exact K1|]. assert (Hoff : off = 8 * (i + 3)).
      { destruct (Hs r off) as (s & i' & B1 & B2 & B3); [apply elem_of_app; by left|]. congruence. }
      assert (Hne : off <> o0).
      { rewrite fmap_app in ND. apply NoDup_app in ND as (_ & ND & _). intros ->. apply (ND o0); [apply elem_of_list_fmap; exists (r, o0); split; [reflexivity|exact Hin]|apply elem_of_list_here]. }
      eapply stub_done_ext; [exact K2| |].
      * eapply same_off_on; [exact A5|]. unfold SpecReloc.apart; cbn [fst snd]. lia.
      * eapply same_off_on; [exact A6|]. unfold SpecReloc.apart; cbn [fst snd]. lia.
    + apply elem_of_list_singleton in Hin. injection Hin as -> ->. rewrite A1 in Hg. injection Hg as <-. rewrite A2 in Hi. injection Hi as <-. exists k0. split; [exact A3|exact (A4 Ho)].
  - intros x Hx. rewrite (A7 _ Hx). exact (I2 _ Hx).
Qed.

(** The opcodes of a fresh PLT. *)
Lemma concat_replicate_lookup {A} (l : list A) n i k : (i < n)%nat -> (k < length l)%nat -> concat (replicate n l) !! (i * length l + k)%nat = l !! k.
Proof.
  revert i; induction n as [|n IH]; intros i Hi Hk; [lia|]. cbn [replicate concat]. destruct i as [|i].
  - apply lookup_app_l. exact Hk.
  - rewrite lookup_app_r by lia. replace (S i * length l + k - length l)%nat with (i * length l + k)%nat by lia. apply IH; [lia|exact Hk].
Qed.
Lemma plt_opcode p i k : i < blen p -> (k < 16)%nat -> plt_data p !! N.to_nat (16 * (i + 1) + N.of_nat k) = plt_entry !! k.
Proof.
  intros Hi Hk. unfold plt_data. rewrite lookup_app_r by (change (length plt_header) with 16%nat; lia). change (length plt_header) with 16%nat.
  replace (N.to_nat (16 * (i + 1) + N.of_nat k) - 16)%nat with (N.to_nat i * length plt_entry + k)%nat by (change (length plt_entry) with 16%nat; lia).
  apply concat_replicate_lookup; [unfold blen in Hi; lia|exact Hk].
Qed.
Lemma plt_header_op p k : (k < 16)%nat -> plt_data p !! k = plt_header !! k.
Proof. intros Hk. unfold plt_data. apply lookup_app_l. exact Hk. Qed.

(** What the processor sees. *)
Lemma stub_decodes pa ga d g i k p : stub_done pa ga d g i k -> (forall x, is_opcode x -> d !! N.to_nat x = plt_data p !! N.to_nat x \/ x < 16) -> i < blen p -> u32 k < 2^31 ->
  let e := 16 * (i + 1) in
  decode_at (Z.of_N pa) d e = Some (JmpInd (Z.of_N (ga + 8 * (i + 3))), 6) /\ decode_at (Z.of_N pa) d (e + 6) = Some (PushImm (Z.of_N (u32 k)), 5) /\
  decode_at (Z.of_N pa) d (e + 11) = Some (JmpRel (Z.of_N pa), 5) /\ rd 8 g (8 * (i + 3)) = Some (pa + e + 6).
Proof.
  intros (A & B & C & D & E) Ho Hi Hk e. fold e in A, B, C, D, E.
  assert (Op : forall y b, plt_entry !! y = Some b -> N.of_nat y ∈ [0; 1; 6; 11] -> rd 1 d (e + N.of_nat y) = Some b).
  { intros y b Hy Hin. assert (y < 16)%nat by (apply lookup_lt_Some in Hy; exact Hy). apply rd1_lookup. destruct (Ho (e + N.of_nat y)) as [->|Hl].
    - right. unfold e. replace ((16 * (i + 1) + N.of_nat y) mod 16) with (N.of_nat y) by lia. exact Hin.
    - unfold e. rewrite plt_opcode by assumption. exact Hy.
    - unfold e in Hl. lia. }
  pose proof (Op 0%nat 0xff eq_refl ltac:(apply (bool_decide_unpack _); vm_compute; exact I)) as O0. pose proof (Op 1%nat 0x25 eq_refl ltac:(apply (bool_decide_unpack _); vm_compute; exact I)) as O1.
  pose proof (Op 6%nat 0x68 eq_refl ltac:(apply (bool_decide_unpack _); vm_compute; exact I)) as O6. pose proof (Op 11%nat 0xe9 eq_refl ltac:(apply (bool_decide_unpack _); vm_compute; exact I)) as O11. clear Op.
  change (N.of_nat 0) with 0 in O0. change (N.of_nat 1) with 1 in O1. change (N.of_nat 6) with 6 in O6. change (N.of_nat 11) with 11 in O11. rewrite N.add_0_r in O0.
  split_and!.
  - unfold decode_at. rewrite O0. cbn [mbind option_bind]. rewrite !decide_False by lia. rewrite decide_True by reflexivity. rewrite O1, A. cbn [mbind option_bind].
    rewrite decide_False by lia. rewrite decide_True by reflexivity. do 3 f_equal. lia.
  - unfold decode_at. rewrite O6. cbn [mbind option_bind]. rewrite !decide_False by lia. rewrite decide_True by reflexivity. replace (e + 6 + 1) with (e + 7) by lia.
    unfold rd_z. rewrite B. cbn [fmap option_fmap option_map mbind option_bind]. do 3 f_equal. unfold signed. change (8 * Z.of_nat 4 - 1)%Z with 31%Z.
    destruct (Z.ltb_spec (Z.of_N (u32 k)) (2^31)); [reflexivity|lia].
  - unfold decode_at. rewrite O11. cbn [mbind option_bind]. rewrite decide_False by lia. rewrite decide_True by reflexivity. replace (e + 11 + 1) with (e + 12) by lia. rewrite C.
    cbn [mbind option_bind]. do 3 f_equal. lia.
  - exact D.
Qed.
Lemma header_decodes pa ga p d0 d : patch_plt_header pa ga (plt_data p) = Ok d0 -> (forall x, x < 16 -> d !! N.to_nat x = d0 !! N.to_nat x) ->
  decode_at (Z.of_N pa) d 0 = Some (PushMem (Z.of_N (ga + 8)), 6) /\ decode_at (Z.of_N pa) d 6 = Some (JmpInd (Z.of_N (ga + 16)), 6).
Proof.
  unfold patch_plt_header. intros H Hx. apply bind_Ok in H as (v1 & H1 & H). apply bind_Ok in H as (d1 & H2 & H). apply bind_Ok in H as (v2 & H3 & H4).
  apply to_i32_Ok in H1 as [-> B1]. apply to_i32_Ok in H3 as [-> B2]. unfold write_i32 in *. change (6 + 2) with 8 in H4.
  assert (S1 : same_off (2, 6) (plt_data p) d1) by (eapply write_same_off; [exact H2|cbn [fst snd]; lia|rewrite le_bytes_z_len; cbn [fst snd]; lia]).
  assert (S2 : same_off (8, 12) d1 d0) by (eapply write_same_off; [exact H4|cbn [fst snd]; lia|rewrite le_bytes_z_len; cbn [fst snd]; lia]).
  assert (Op : forall y b, plt_header !! y = Some b -> N.of_nat y ∈ [0; 1; 6; 7] -> rd 1 d (N.of_nat y) = Some b).
  { intros y b Hy Hin. assert (y < 16)%nat by (apply lookup_lt_Some in Hy; exact Hy). apply rd1_lookup. rewrite !elem_of_cons in Hin.
    assert (Hc : N.of_nat y = 0 \/ N.of_nat y = 1 \/ N.of_nat y = 6 \/ N.of_nat y = 7) by (destruct Hin as [?|[?|[?|[?|Hin]]]]; [tauto..|by apply elem_of_nil in Hin]). clear Hin.
    rewrite (Hx (N.of_nat y)) by lia. rewrite <- (proj2 S2) by (cbn [fst snd]; lia). rewrite <- (proj2 S1) by (cbn [fst snd]; lia). rewrite Nat2N.id, plt_header_op by assumption. exact Hy. }
  pose proof (Op 0%nat 0xff eq_refl ltac:(apply (bool_decide_unpack _); vm_compute; exact I)) as O0. pose proof (Op 1%nat 0x35 eq_refl ltac:(apply (bool_decide_unpack _); vm_compute; exact I)) as O1.
  pose proof (Op 6%nat 0xff eq_refl ltac:(apply (bool_decide_unpack _); vm_compute; exact I)) as O6. pose proof (Op 7%nat 0x25 eq_refl ltac:(apply (bool_decide_unpack _); vm_compute; exact I)) as O7. clear Op.
  change (N.of_nat 0) with 0 in O0. change (N.of_nat 1) with 1 in O1. change (N.of_nat 6) with 6 in O6. change (N.of_nat 7) with 7 in O7.
  assert (R2 : rd_z 4 d 2 = Some (Z.of_N ga - Z.of_N pa + 8 - 6)%Z).
  { rewrite (rd_z_ext 4 d d1 2). { apply (write_z_rd_z _ _ 4 _ _ ltac:(lia) H2). change (8 * Z.of_nat 4 - 1)%Z with 31%Z. lia. }
    intros x Hr. rewrite (Hx x) by lia. symmetry. apply (proj2 S2). cbn [fst snd]; lia. }
  assert (R8 : rd_z 4 d 8 = Some (Z.of_N ga - Z.of_N pa + 2 * 8 - 2 * 6)%Z).
  { rewrite (rd_z_ext 4 d d0 8). { apply (write_z_rd_z _ _ 4 _ _ ltac:(lia) H4). change (8 * Z.of_nat 4 - 1)%Z with 31%Z. lia. }
    intros x Hr. apply Hx. lia. }
  split; unfold decode_at.
  - rewrite O0. cbn [mbind option_bind]. rewrite !decide_False by lia. rewrite decide_True by reflexivity. change (0 + 1) with 1. change (0 + 2) with 2. rewrite O1, R2. cbn [mbind option_bind].
    rewrite !decide_False by lia. rewrite decide_True by reflexivity. do 3 f_equal. lia.
  - rewrite O6. cbn [mbind option_bind]. rewrite !decide_False by lia. rewrite decide_True by reflexivity. change (6 + 1) with 7. change (6 + 2) with 8. rewrite O7, R8. cbn [mbind option_bind].
    rewrite decide_False by lia. rewrite decide_True by reflexivity. do 3 f_equal. lia.
Qed.

(** * The records *)
Lemma rela_type off i ty : ty < 2^32 -> reloc_type (rela off i ty) = ty.
Proof. unfold reloc_type, rela. cbn [r_info]. unfold u64. intros H. change (2^64) with (2^32 * 2^32). rewrite (N.mul_comm i), N.mul_mod_distr_l by lia. lia. Qed.
Lemma rela_small off i ty : i < 2^32 -> rela off i ty = dyn_record off i ty.
Proof. intros H. unfold rela, dyn_record, u64. rewrite N.mod_small by lia. by rewrite N.mul_comm. Qed.
Lemma filter_snoc {A} (P : A -> Prop) `{!forall x, Decision (P x)} (l : list A) x : filter P (l ++ [x]) = filter P l ++ (if decide (P x) then [x] else []).
Proof. rewrite filter_app. reflexivity. Qed.

Section dynrel.
  Context (ix : gmap N nat) (m0 : gmap N symbol) (d0 : symtab).
  Context (Hinj : forall n n' s s' d, m0 !! n = Some s -> m0 !! n' = Some s' -> s_dynamic s = Some d -> s_dynamic s' = Some d -> n = n').
  Definition dyn_index (d : symref) : option N := N.of_nat <$> ix !! ref_st_name d.
  Definition glob_rec (n : N) : option Rela := s ← m0 !! n; d ← s_dynamic s; i ← dyn_index d; off ← s_in_got s; Some (rela off i 6).
  Definition plt_rec (n : N) : option Rela := s ← m0 !! n; d ← s_dynamic s; i ← dyn_index d; off ← s_in_got_plt s; Some (rela off i 7).
  Definition copy_ref (n : N) : option symref := s ← m0 !! n; d ← s_dynamic s; ds ← syt_get d0 d; if is_object ds then Some d else None.
  Definition copy_rec (x : symref * N) : Rela := rela x.2 (default 0 (dyn_index x.1)) 5.
  Definition area (r : symref) : N := default 0 ((fun s => st_size (s_sym s)) <$> syt_get d0 r).
  Definition cleared (s : symbol) : symbol := s <| s_relocation_offset := None |>.
  Definition valued (v : N) (s : symbol) : symbol := s <| s_sym := s_sym s <| st_value := v |> |>.

  Record dr_inv (pre : list N) (st : dynrel_state) : Prop := {
    dri_static : forall n, cleared <$> dr_symbols st !! n = cleared <$> m0 !! n;
    dri_new : forall n, n ∉ pre -> dr_symbols st !! n = m0 !! n;
    dri_plt : dr_plt_rels st = omap plt_rec pre;
    dri_pos : forall pre1 n pre2 rel, pre = pre1 ++ n :: pre2 -> plt_rec n = Some rel ->
      s_relocation_offset <$> dr_symbols st !! n = Some (Some (blen (omap plt_rec pre1)));
    dri_glob : filter (fun r => reloc_type r = 6) (dr_dyn_rels st) = omap glob_rec pre;
    dri_types : forall r, r ∈ dr_dyn_rels st -> reloc_type r = 5 \/ reloc_type r = 6;
    dri_copy : filter (fun r => reloc_type r = 5) (dr_dyn_rels st) = copy_rec <$> cr_slots (dr_copyrel st);
    dri_refs : (cr_slots (dr_copyrel st)).*1 = omap copy_ref pre;
    dri_ix : forall r, r ∈ (cr_slots (dr_copyrel st)).*1 -> is_Some (dyn_index r);
    dri_in : forall j r off, cr_slots (dr_copyrel st) !! j = Some (r, off) -> off + area r <= cr_size (dr_copyrel st);
    dri_apart : forall j r off j' r' off', (j < j')%nat -> cr_slots (dr_copyrel st) !! j = Some (r, off) -> cr_slots (dr_copyrel st) !! j' = Some (r', off') -> off + area r <= off';
    dri_value : forall r off, (r, off) ∈ cr_slots (dr_copyrel st) -> syt_get (dr_dynsym st) r = valued off <$> syt_get d0 r;
    dri_other : forall r, r ∉ (cr_slots (dr_copyrel st)).*1 -> syt_get (dr_dynsym st) r = syt_get d0 r;
    dri_found : forall n s d, n ∈ pre -> m0 !! n = Some s -> s_dynamic s = Some d -> is_Some (dyn_index d) /\ is_Some (syt_get d0 d) }.

  Lemma dr_inv_start nr : dr_inv [] (mkDynrel m0 d0 (mkCopyrel nr []) [] []).
  Proof.
    split; cbn; try done.
    - intros [|] ? ? ? E; discriminate E.
    - intros r Hr. by apply elem_of_nil in Hr.
    - intros r Hr. by apply elem_of_nil in Hr.
    - intros r off Hr. by apply elem_of_nil in Hr.
    - intros n s d Hr. by apply elem_of_nil in Hr.
  Qed.

  (** The middle of a step: the record of a copied object. *)
  Lemma dr_step_inv pre n post st st' : NoDup (pre ++ n :: post) -> dr_inv pre st -> dynrel_step ix st n = Ok st' -> dr_inv (pre ++ [n]) st'.
  Proof using Hinj.
    intros ND I H. assert (Hn : n ∉ pre).
    { apply NoDup_app in ND as (_ & ND & _). intros Hin. apply (ND n Hin). apply elem_of_list_here. }
    unfold dynrel_step in H. rewrite (dri_new _ _ I n Hn) in H.
    assert (Hskip : (plt_rec n = None /\ glob_rec n = None /\ copy_ref n = None) -> (forall s d, m0 !! n = Some s -> s_dynamic s = Some d -> False) -> st' = st -> dr_inv (pre ++ [n]) st').
    { intros (E1 & E2 & E3) E4 ->. destruct I as [A1 A2 A3 A4 A5 A6 A7 A8 A8' A9 A10 A11 A12 A13]. split; try assumption; rewrite ?omap_app; cbn [omap list_omap]; rewrite ?E1, ?E2, ?E3, ?app_nil_r; try assumption.
      - intros k Hk. apply A2. intros Hk'. apply Hk. apply elem_of_app. by left.
      - intros pre1 k pre2 rel E Hr. destruct (decide (k = n)) as [->|Hne]; [rewrite E1 in Hr; discriminate Hr|].
        destruct pre2 as [|x pre3 _] using rev_ind.
        + apply app_inj_tail in E as [_ E]. congruence.
        + rewrite app_comm_cons, app_assoc in E. apply app_inj_tail in E as [-> ->]. exact (A4 _ _ _ _ eq_refl Hr).
      - intros k s d Hk Hs Hd. apply elem_of_app in Hk as [Hk|Hk]; [exact (A13 _ _ _ Hk Hs Hd)|]. apply elem_of_list_singleton in Hk. subst k. exfalso. exact (E4 _ _ Hs Hd). }
    destruct (m0 !! n) as [sym|] eqn:Em.
    2: { injection H as <-. apply Hskip; [|intros s d Hs; discriminate Hs|reflexivity]. unfold plt_rec, glob_rec, copy_ref. rewrite Em. done. }
    destruct (s_dynamic sym) as [d|] eqn:Ed.
    2: { injection H as <-. apply Hskip; [|intros s d Hs Hd; injection Hs as <-; rewrite Ed in Hd; discriminate Hd|reflexivity]. unfold plt_rec, glob_rec, copy_ref. rewrite Em. cbn [mbind option_bind]. rewrite Ed. done. }
    clear Hskip. apply bind_Ok in H as (i & Hi & H). apply unwrap_Ok in Hi. cbv zeta in H.
    assert (Hix : dyn_index d = Some (N.of_nat i)) by (unfold dyn_index; rewrite Hi; reflexivity).
    set (st1 := match s_in_got sym with Some offset => st <| dr_dyn_rels := dr_dyn_rels st ++ [rela offset (N.of_nat i) R_X86_64_GLOB_DAT] |> | None => st end) in H.
    apply bind_Ok in H as (ds & Hds & H). apply unwrap_Ok in Hds.
    assert (Hnew : d ∉ (cr_slots (dr_copyrel st)).*1).
    { rewrite (dri_refs _ _ I). intros Hin. apply elem_of_list_omap in Hin as (k & Hk & Hck). apply Hn. unfold copy_ref in Hck.
      destruct (m0 !! k) as [sk|] eqn:Ek; [|discriminate Hck]. cbn [mbind option_bind] in Hck. destruct (s_dynamic sk) as [dk|] eqn:Edk; [|discriminate Hck]. cbn [mbind option_bind] in Hck.
      destruct (syt_get d0 dk) as [dsk|]; [|discriminate Hck]. cbn [mbind option_bind] in Hck. destruct (is_object dsk); [|discriminate Hck]. injection Hck as ->.
      by rewrite (Hinj _ _ _ _ _ Em Ek Ed Edk). }
    assert (Hd0 : syt_get d0 d = Some ds).
    { rewrite <- (dri_other _ _ I d Hnew), <- Hds. unfold st1. destruct (s_in_got sym); reflexivity. }
    assert (Eg : glob_rec n = (fun off => rela off (N.of_nat i) 6) <$> s_in_got sym).
    { unfold glob_rec. rewrite Em. cbn [mbind option_bind]. rewrite Ed. cbn [mbind option_bind]. rewrite Hix. by destruct (s_in_got sym). }
    assert (Ep : plt_rec n = (fun off => rela off (N.of_nat i) 7) <$> s_in_got_plt sym).
    { unfold plt_rec. rewrite Em. cbn [mbind option_bind]. rewrite Ed. cbn [mbind option_bind]. rewrite Hix. by destruct (s_in_got_plt sym). }
    assert (Ec : copy_ref n = if is_object ds then Some d else None).
    { unfold copy_ref. rewrite Em. cbn [mbind option_bind]. rewrite Ed. cbn [mbind option_bind]. rewrite Hd0. reflexivity. }
    assert (S1 : dr_symbols st1 = dr_symbols st /\ dr_plt_rels st1 = dr_plt_rels st /\ dr_copyrel st1 = dr_copyrel st /\ dr_dynsym st1 = dr_dynsym st /\
      filter (fun r => reloc_type r = 6) (dr_dyn_rels st1) = omap glob_rec (pre ++ [n]) /\ filter (fun r => reloc_type r = 5) (dr_dyn_rels st1) = filter (fun r => reloc_type r = 5) (dr_dyn_rels st) /\
      forall r, r ∈ dr_dyn_rels st1 -> reloc_type r = 5 \/ reloc_type r = 6).
    { rewrite omap_app. cbn [omap list_omap]. rewrite Eg. unfold st1. destruct (s_in_got sym) as [off|]; cbn [fmap option_fmap option_map].
      - split_and!; [reflexivity..| | |].
        + cbn [dr_dyn_rels set]. change (dr_dyn_rels (st <| dr_dyn_rels := ?x |>)) with x. rewrite filter_snoc. change R_X86_64_GLOB_DAT with 6. rewrite decide_True by (apply rela_type; lia). by rewrite (dri_glob _ _ I).
        + change (dr_dyn_rels (st <| dr_dyn_rels := ?x |>)) with x. rewrite filter_snoc. change R_X86_64_GLOB_DAT with 6. rewrite decide_False by (rewrite rela_type by lia; lia). by rewrite app_nil_r.
        + change (dr_dyn_rels (st <| dr_dyn_rels := ?x |>)) with x. change R_X86_64_GLOB_DAT with 6. intros r Hr. apply elem_of_app in Hr as [Hr|Hr]; [exact (dri_types _ _ I _ Hr)|]. apply elem_of_list_singleton in Hr. subst r. right. apply rela_type; lia.
      - rewrite app_nil_r. split_and!; [reflexivity..|exact (dri_glob _ _ I)|reflexivity|exact (dri_types _ _ I)]. }
    destruct S1 as (S1 & S2 & S3 & S4 & S5 & S6 & S7). clearbody st1.
    set (st2 := if is_object ds then let '(cr, offset) := cr_insert (dr_copyrel st1) d (st_size (s_sym ds)) in
              st1 <| dr_copyrel := cr |> <| dr_dyn_rels := dr_dyn_rels st1 ++ [rela offset (N.of_nat i) R_X86_64_COPY] |>
                 <| dr_dynsym := syt_modify (dr_dynsym st1) d (fun s => s <| s_sym := s_sym s <| st_value := offset |> |>) |> else st1) in H.
    assert (S : dr_symbols st2 = dr_symbols st /\ dr_plt_rels st2 = dr_plt_rels st /\
      filter (fun r => reloc_type r = 6) (dr_dyn_rels st2) = omap glob_rec (pre ++ [n]) /\ filter (fun r => reloc_type r = 5) (dr_dyn_rels st2) = copy_rec <$> cr_slots (dr_copyrel st2) /\
      (forall r, r ∈ dr_dyn_rels st2 -> reloc_type r = 5 \/ reloc_type r = 6) /\ (cr_slots (dr_copyrel st2)).*1 = omap copy_ref (pre ++ [n]) /\
      (forall r, r ∈ (cr_slots (dr_copyrel st2)).*1 -> is_Some (dyn_index r)) /\
      (forall j r off, cr_slots (dr_copyrel st2) !! j = Some (r, off) -> off + area r <= cr_size (dr_copyrel st2)) /\
      (forall j r off j' r' off', (j < j')%nat -> cr_slots (dr_copyrel st2) !! j = Some (r, off) -> cr_slots (dr_copyrel st2) !! j' = Some (r', off') -> off + area r <= off') /\
      (forall r off, (r, off) ∈ cr_slots (dr_copyrel st2) -> syt_get (dr_dynsym st2) r = valued off <$> syt_get d0 r) /\
      (forall r, r ∉ (cr_slots (dr_copyrel st2)).*1 -> syt_get (dr_dynsym st2) r = syt_get d0 r)).
    { rewrite (omap_app copy_ref pre [n]). cbn [omap list_omap]. rewrite Ec. unfold st2. destruct (is_object ds).
      - unfold cr_insert. cbn [dr_symbols dr_plt_rels dr_dyn_rels dr_copyrel dr_dynsym set]. rewrite S3, S4.
        set (cr := dr_copyrel st) in *. cbn.
        assert (Har : area d = st_size (s_sym ds)) by (unfold area; rewrite Hd0; reflexivity).
        split_and!.
        + exact S1.
        + exact S2.
        + rewrite filter_snoc. change R_X86_64_COPY with 5. rewrite decide_False by (rewrite rela_type by lia; lia). by rewrite app_nil_r.
        + rewrite filter_snoc. change R_X86_64_COPY with 5. rewrite decide_True by (apply rela_type; lia). rewrite fmap_app, S6, (dri_copy _ _ I). f_equal. cbn. unfold copy_rec. cbn [fst snd]. by rewrite Hix.
        + intros r Hr. apply elem_of_app in Hr as [Hr|Hr]; [exact (S7 _ Hr)|]. apply elem_of_list_singleton in Hr. subst r. left. apply rela_type; lia.
        + rewrite fmap_app. unfold cr. by rewrite (dri_refs _ _ I).
        + intros r Hr. rewrite fmap_app in Hr. apply elem_of_app in Hr as [Hr|Hr]; [exact (dri_ix _ _ I _ Hr)|]. apply elem_of_list_singleton in Hr. cbn in Hr. subst r. rewrite Hix. eauto.
        + intros j r off Hj. apply lookup_app_Some in Hj as [Hj|[_ Hj]].
          * pose proof (dri_in _ _ I _ _ _ Hj). fold cr in H0. lia.
          * apply list_lookup_singleton_Some in Hj as [_ Hj]. injection Hj as <- <-. lia.
        + intros j r off j' r' off' Hlt Hj Hj'. apply lookup_app_Some in Hj' as [Hj'|[Hge Hj']].
          * rewrite lookup_app_l in Hj by (apply lookup_lt_Some in Hj'; lia). exact (dri_apart _ _ I _ _ _ _ _ _ Hlt Hj Hj').
          * apply list_lookup_singleton_Some in Hj' as [Hz Hj']. injection Hj' as <- <-. rewrite lookup_app_l in Hj by lia. exact (dri_in _ _ I _ _ _ Hj).
        + intros r off Hin. rewrite syt_get_modify. apply elem_of_app in Hin as [Hin|Hin].
          * rewrite decide_False; [exact (dri_value _ _ I _ _ Hin)|]. intros ->. apply Hnew. apply elem_of_list_fmap. exists (d, off). split; [reflexivity|exact Hin].
          * apply elem_of_list_singleton in Hin. injection Hin as -> ->. rewrite decide_True by reflexivity. rewrite (dri_other _ _ I d Hnew). reflexivity.
        + intros r Hr. rewrite fmap_app in Hr. rewrite syt_get_modify. rewrite decide_False.
          * apply (dri_other _ _ I). intros Hin. apply Hr. apply elem_of_app. by left.
          * intros ->. apply Hr. apply elem_of_app. right. apply elem_of_list_here.
      - rewrite app_nil_r, S3, S4, S1, S2, S5, S6. split_and!; [reflexivity|reflexivity|reflexivity|exact (dri_copy _ _ I)|exact S7|exact (dri_refs _ _ I)|exact (dri_ix _ _ I)|exact (dri_in _ _ I)|exact (dri_apart _ _ I)|exact (dri_value _ _ I)|exact (dri_other _ _ I)]. }
    clearbody st2. destruct S as (T1 & T2 & T3 & T4 & T5 & T6 & T7 & T8 & T9 & T10 & T11).
    assert (Hfound : forall k s dd, k ∈ pre ++ [n] -> m0 !! k = Some s -> s_dynamic s = Some dd -> is_Some (dyn_index dd) /\ is_Some (syt_get d0 dd)).
    { intros k s dd Hk Hs Hdd. apply elem_of_app in Hk as [Hk|Hk]; [exact (dri_found _ _ I _ _ _ Hk Hs Hdd)|]. apply elem_of_list_singleton in Hk. subst k. rewrite Em in Hs. injection Hs as <-. rewrite Ed in Hdd. injection Hdd as <-. split; [rewrite Hix|rewrite Hd0]; eauto. }
    injection H as <-. destruct (s_in_got_plt sym) as [off|] eqn:Eoff.
    - cbn [fmap option_fmap option_map] in Ep. split; cbn [dr_symbols dr_plt_rels dr_dyn_rels dr_copyrel dr_dynsym set]; try assumption.
      + intros k. cbn. rewrite T1. destruct (decide (k = n)) as [->|Hk]; [rewrite lookup_alter|rewrite lookup_alter_ne by (intros E; by apply Hk); apply (dri_static _ _ I)].
        rewrite (dri_new _ _ I n Hn), Em. reflexivity.
      + intros k Hk. cbn. rewrite T1, lookup_alter_ne; [apply (dri_new _ _ I); intros Hk'; apply Hk; apply elem_of_app; by left|]. intros <-. apply Hk. apply elem_of_app. right. apply elem_of_list_here.
      + cbn. rewrite T2, omap_app, (dri_plt _ _ I). cbn [omap list_omap]. by rewrite Ep.
      + intros pre1 k pre2 rel E Hr. cbn. rewrite T1, T2. destruct pre2 as [|x pre3 _] using rev_ind.
        * apply app_inj_tail in E as [-> ->]. rewrite lookup_alter, (dri_new _ _ I k Hn), Em. cbn. by rewrite (dri_plt _ _ I).
        * rewrite app_comm_cons, app_assoc in E. apply app_inj_tail in E as [-> ->]. rewrite lookup_alter_ne; [exact (dri_pos _ _ I _ _ _ _ eq_refl Hr)|]. intros ->. apply Hn. apply elem_of_app. right. apply elem_of_list_here.
    - cbn [fmap option_fmap option_map] in Ep. split; try assumption; rewrite ?T1, ?T2.
      + exact (dri_static _ _ I).
      + intros k Hk. apply (dri_new _ _ I). intros Hk'. apply Hk. apply elem_of_app. by left.
      + rewrite omap_app. cbn [omap list_omap]. rewrite Ep, app_nil_r. exact (dri_plt _ _ I).
      + intros pre1 k pre2 rel E Hr. destruct pre2 as [|x pre3 _] using rev_ind.
        * apply app_inj_tail in E as [-> ->]. rewrite Ep in Hr. discriminate Hr.
        * rewrite app_comm_cons, app_assoc in E. apply app_inj_tail in E as [-> ->]. exact (dri_pos _ _ I _ _ _ _ eq_refl Hr).
  Qed.
  Lemma dr_fold ks st : NoDup ks -> foldM (dynrel_step ix) ks (mkDynrel m0 d0 (mkCopyrel 0 []) [] []) = Ok st -> dr_inv ks st.
  Proof using Hinj. intros ND. apply (foldM_trace dr_inv); [apply dr_inv_start|]. intros pre n post s s' ->. by apply dr_step_inv with post. Qed.
End dynrel.

(** * The listing of the got_plt map does not matter *)
Lemma foldM_perm {S A} (f : S -> A -> res S) (k k' : list A) : k ≡ₚ k' ->
  (forall x y, x ∈ k -> y ∈ k -> x <> y -> forall s s1 s2, f s x = Ok s1 -> f s1 y = Ok s2 -> exists s1', f s y = Ok s1' /\ f s1' x = Ok s2) ->
  forall s s', NoDup k -> foldM f k s = Ok s' -> foldM f k' s = Ok s'.
Proof.
  induction 1 as [|x k k' Hp IH|x y k|k1 k2 k3 H1 IH1 H2 IH2]; intros HC s s' ND H.
  - exact H.
  - cbn [foldM] in *. apply bind_Ok in H as (s1 & E & H). rewrite E. cbn [mbind res_bind]. apply NoDup_cons in ND as [_ ND]. apply IH; [|exact ND|exact H]. intros a b Ha Hb. apply HC; by right.
  - cbn [foldM] in *. apply bind_Ok in H as (s1 & E1 & H). apply bind_Ok in H as (s2 & E2 & H).
    destruct (HC y x) with (s := s) (s1 := s1) (s2 := s2) as (s3 & E3 & E4); [by left|right; by left| |exact E1|exact E2|].
    + intros ->. apply NoDup_cons in ND as [Hn _]. apply Hn. by left.
    + rewrite E3. cbn [mbind res_bind]. rewrite E4. cbn [mbind res_bind]. exact H.
  - apply IH2; [|by rewrite <- H1|apply IH1; [exact HC|exact ND|exact H]]. intros a b Ha Hb. apply HC; by rewrite H1.
Qed.
Definition wr (d : bytes) (x : N * bytes) : res bytes := write_at d x.1 x.2.
Definition clear_of (x y : N * bytes) : Prop := x.1 + blen x.2 <= y.1 \/ y.1 + blen y.2 <= x.1.
Lemma wr_comm d x y d1 d2 : clear_of x y -> wr d x = Ok d1 -> wr d1 y = Ok d2 -> exists d1', wr d y = Ok d1' /\ wr d1' x = Ok d2.
Proof.
  unfold wr, clear_of. destruct x as [ox bx], y as [oy bny]. cbn [fst snd]. intros Hc Hx Hy. pose proof (write_len _ _ _ _ Hx) as [L1 B1]. pose proof (write_len _ _ _ _ Hy) as [L2 B2].
  destruct (write_at_ok d oy bny) as [e1 He1]; [unfold blen in *; lia|]. pose proof (write_len _ _ _ _ He1) as [L3 _].
  destruct (write_at_ok e1 ox bx) as [e2 He2]; [unfold blen in *; lia|]. pose proof (write_len _ _ _ _ He2) as [L4 _].
  exists e1. split; [exact He1|]. rewrite He2. f_equal. apply list_eq. intros i. rewrite <- (Nat2N.id i). generalize (N.of_nat i). clear i. intros k.
  apply write_at_Ok in Hx as (_ & _ & Kx), Hy as (_ & _ & Ky), He1 as (_ & _ & K1), He2 as (_ & _ & K2). rewrite K2, K1, Ky, Kx.
  repeat (case_decide; try lia); reflexivity.
Qed.
Lemma wrs_comm_one d x ys d1 d2 : Forall (clear_of x) ys -> wr d x = Ok d1 -> foldM wr ys d1 = Ok d2 -> exists d1', foldM wr ys d = Ok d1' /\ wr d1' x = Ok d2.
Proof.
  intros F. revert d d1. induction F as [|y ys Hc F IH]; intros d d1 Hx H; cbn [foldM] in *.
  - injection H as ->. eauto.
  - apply bind_Ok in H as (d3 & Hy & H). destruct (wr_comm _ _ _ _ _ Hc Hx Hy) as (e & E1 & E2). rewrite E1. cbn [mbind res_bind]. exact (IH _ _ E2 H).
Qed.
Lemma wrs_comm d xs ys d1 d2 : Forall (fun x => Forall (clear_of x) ys) xs -> foldM wr xs d = Ok d1 -> foldM wr ys d1 = Ok d2 -> exists d1', foldM wr ys d = Ok d1' /\ foldM wr xs d1' = Ok d2.
Proof.
  intros F. revert d d1 d2. induction F as [|x xs Hc F IH]; intros d d1 d2 Hx Hy; cbn [foldM] in *.
  - injection Hx as ->. eauto.
  - apply bind_Ok in Hx as (d3 & H3 & Hx). destruct (IH _ _ _ Hx Hy) as (e & E1 & E2). destruct (wrs_comm_one _ _ _ _ _ Hc H3 E1) as (f & F1 & F2). exists f. split; [exact F1|]. rewrite F2. cbn [mbind res_bind]. exact E2.
Qed.
(** What a step writes depends on the symbol only. *)
Lemma plt_step_plan t pa ga x sym i : syt_get t x.1 = Some sym -> s_in_plt sym = Some i -> exists b1 b2 b3 b4, blen b1 = 4 /\ blen b2 = 4 /\ blen b3 = 4 /\ blen b4 = 8 /\
  forall d g d' g', patch_plt_step t pa ga (d, g) x = Ok (d', g') ->
    foldM wr [(16 * (i + 1) + 2, b1); (16 * (i + 1) + 7, b2); (16 * (i + 1) + 12, b3)] d = Ok d' /\ wr g (x.2, b4) = Ok g' /\
    forall e h e' h', foldM wr [(16 * (i + 1) + 2, b1); (16 * (i + 1) + 7, b2); (16 * (i + 1) + 12, b3)] e = Ok e' -> wr h (x.2, b4) = Ok h' -> patch_plt_step t pa ga (e, h) x = Ok (e', h').
Proof.
  destruct x as [r off]. cbn [fst snd]. intros Hg Hi.
  exists (le_bytes_z 4 (Z.of_N (off + ga) - plt_entry_at pa i - 6)), (le_bytes 4 (u32 (default 0 (s_relocation_offset sym)))), (le_bytes_z 4 (Z.of_N pa - (plt_entry_at pa i + 16))), (le_bytes_z 8 (plt_entry_at pa i + 6)).
  rewrite !le_bytes_z_len, le_bytes_len. split_and!; try reflexivity. intros d g d' g' H.
  assert (H0 := H). unfold patch_plt_step in H. apply bind_Ok in H as (sym' & H1 & H). apply bind_Ok in H as (i' & H2 & H). apply bind_Ok in H as (en & H3 & H).
  apply bind_Ok in H as (g1 & H4 & H). apply bind_Ok in H as (rel & H5 & H). apply bind_Ok in H as (d1 & H6 & H). apply bind_Ok in H as (k & H7 & H).
  apply bind_Ok in H as (d2 & H8 & H). apply bind_Ok in H as (pz & H9 & H). apply bind_Ok in H as (d3 & H10 & [= <- <-]).
  apply unwrap_Ok in H1, H2, H7. rewrite Hg in H1. injection H1 as <-. rewrite Hi in H2. injection H2 as <-. pose proof (plt_entry_addr_Ok _ _ _ H3) as ->.
  assert (H5' := H5). assert (H9' := H9). apply to_i32_Ok in H5 as [-> _]. apply to_i32_Ok in H9 as [-> _]. rewrite H7. cbn [from_option id].
  assert (Ee : Z.to_N (plt_entry_at pa i - Z.of_N pa) = 16 * (i + 1)) by (unfold plt_entry_at; lia). rewrite Ee in *. unfold write_i32 in *.
  replace (16 * (i + 1) + 6 + 1) with (16 * (i + 1) + 7) in * by lia. replace (16 * (i + 1) + 6 + 5 + 1) with (16 * (i + 1) + 12) in * by lia.
  cbn [foldM wr fst snd mbind res_bind]. unfold wr. cbn [fst snd]. split; [|split].
  - rewrite H6. cbn [mbind res_bind]. rewrite H8. cbn [mbind res_bind]. rewrite H10. reflexivity.
  - exact H4.
  - clear H0 H4 H6 H8 H10. intros e h e' h' He Hh. apply bind_Ok in He as (e1 & E1 & He). apply bind_Ok in He as (e2 & E2 & He). apply bind_Ok in He as (e3 & E3 & [= <-]).
    unfold patch_plt_step, write_i32. rewrite Hg. cbn [unwrap mbind res_bind]. rewrite Hi. cbn [unwrap mbind res_bind]. rewrite H3. cbn [mbind res_bind]. rewrite Hh. cbn [mbind res_bind].
    rewrite H5'. cbn [mbind res_bind]. rewrite Ee, E1. cbn [mbind res_bind]. rewrite H7. cbn [unwrap mbind res_bind].
    replace (16 * (i + 1) + 6 + 1) with (16 * (i + 1) + 7) by lia. replace (16 * (i + 1) + 6 + 5 + 1) with (16 * (i + 1) + 12) by lia. rewrite E2. cbn [mbind res_bind]. rewrite H9'. cbn [mbind res_bind]. rewrite E3. reflexivity.
Qed.
Lemma plt_steps_perm t pa ga entries entries' s s' : entries ≡ₚ entries' -> NoDup entries.*2 ->
  (forall r off, (r, off) ∈ entries -> exists sym i, syt_get t r = Some sym /\ s_in_plt sym = Some i /\ off = 8 * (i + 3)) ->
  foldM (patch_plt_step t pa ga) entries s = Ok s' -> foldM (patch_plt_step t pa ga) entries' s = Ok s'.
Proof.
  intros Hp ND Hs. apply (foldM_perm _ _ _ Hp); [|exact (NoDup_fmap_1 _ _ ND)].
  intros [rx ox] [ry oy] Hx Hy Hne [d g] [d1 g1] [d2 g2] H1 H2.
  destruct (Hs _ _ Hx) as (sx & ix & X1 & X2 & X3). destruct (Hs _ _ Hy) as (sy & iy & Y1 & Y2 & Y3).
  assert (Ho : ox <> oy).
  { intros ->. apply Hne. apply elem_of_list_lookup in Hx as [i Hi], Hy as [j Hj]. assert (i = j); [|congruence].
    eapply (NoDup_lookup _ _ _ oy ND); rewrite list_lookup_fmap; [rewrite Hi|rewrite Hj]; reflexivity. }
  destruct (plt_step_plan t pa ga (rx, ox) sx ix X1 X2) as (a1 & a2 & a3 & a4 & A1 & A2 & A3 & A4 & PX).
  destruct (plt_step_plan t pa ga (ry, oy) sy iy Y1 Y2) as (b1 & b2 & b3 & b4 & B1 & B2 & B3 & B4 & PY).
  destruct (PX _ _ _ _ H1) as (W1 & G1 & QX). destruct (PY _ _ _ _ H2) as (W2 & G2 & QY). cbn [fst snd] in *.
  assert (HF : Forall (fun x => Forall (clear_of x) [(16 * (iy + 1) + 2, b1); (16 * (iy + 1) + 7, b2); (16 * (iy + 1) + 12, b3)]) [(16 * (ix + 1) + 2, a1); (16 * (ix + 1) + 7, a2); (16 * (ix + 1) + 12, a3)]).
  { rewrite !Forall_cons, !Forall_nil. assert (ix <> iy) by lia. split_and!; try exact I; unfold clear_of; cbn [fst snd]; rewrite ?A1, ?A2, ?A3, ?B1, ?B2, ?B3; lia. }
  destruct (wrs_comm _ _ _ _ _ HF W1 W2) as (e & E1 & E2).
  assert (Hc : clear_of (ox, a4) (oy, b4)) by (unfold clear_of; cbn [fst snd]; rewrite A4, B4; lia). destruct (wr_comm _ _ _ _ _ Hc G1 G2) as (h & F1 & F2).
  exists (e, h). split; [exact (QY _ _ _ _ E1 F1)|exact (QX _ _ _ _ E2 F2)].
Qed.
