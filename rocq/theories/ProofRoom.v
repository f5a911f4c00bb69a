(** How far the layout of sections of known sizes reaches. *)
From Verif Require Export ProofPlt.

(** * Segments and addresses *)
Definition total (l : list section) : N := foldr (fun s k => memsz s + k) 0 l.
Lemma total_app l k : total (l ++ k) = total l + total k.
Proof. induction l as [|s l IH]; cbn [total foldr app]; [reflexivity|]. change (memsz s + total (l ++ k) = memsz s + total l + total k). lia. Qed.
Lemma total_perm l k : l ≡ₚ k -> total l = total k.
Proof. induction 1 as [|x l k H IH|x y l|a b c H1 IH1 H2 IH2]; cbn [total foldr]; [reflexivity| | |congruence]; fold (total l) in *; try fold (total k) in *; lia. Qed.
Lemma total_indexed l : total (indexed l) = total l.
Proof.
  unfold indexed. assert (G : forall f, total (imap (fun i s => s <| sc_index := f i |>) l) = total l); [|apply G].
  induction l as [|s l IH]; intros f; [reflexivity|]. rewrite imap_cons. cbn [total foldr]. change (memsz s + total (imap (fun i s => s <| sc_index := f (S i) |>) l) = memsz s + total l). by rewrite IH.
Qed.
Lemma loads_few f l : count_load_headers f l <= N.of_nat (length l).
Proof. revert f; induction l as [|s l IH]; intros f; cbn [count_load_headers length]; [lia|]. cbv zeta. destruct (_ =? _); [specialize (IH f); lia|]. specialize (IH (sh_flags (sc_sh s))). destruct (has_flag _ _); lia. Qed.
Record reach (va0 x0 : N) (pre : list section) (st : layout) : Prop := {
  re_phs : (length (ly_phs st) + length (option_list (ly_cur st)) <= 2 * length pre)%nat;
  re_end : ly_p_vaddr st + default 0 (ly_first st) <= va0 + x0 + total pre + 4096 * N.of_nat (length pre) }.
Lemma reach_step names va0 x0 pre st s st' s' : reach va0 x0 pre st -> layout_step names st s = Ok (st', s') -> reach va0 x0 (pre ++ [s]) st'.
Proof.
  intros [I1 I2] H. destruct (step_spec _ _ _ _ _ H) as (st1 & Hp & t & _ & Ht).
  assert (G : (length (ly_phs st1) + length (option_list (ly_cur st1)) <= 2 * length pre + 1)%nat /\ ly_p_vaddr st1 + default 0 (ly_first st1) <= va0 + x0 + total (pre ++ [s]) + 4096 * N.of_nat (length (pre ++ [s]))).
  { rewrite total_app, app_length. cbn [total foldr length]. assert (Hc : length (closed st) = (length (ly_phs st) + length (option_list (ly_cur st)))%nat) by (unfold closed; destruct (ly_cur st); [rewrite app_length|]; cbn; lia).
    destruct (up_spec (ly_p_vaddr st)) as (_ & _ & U).
    destruct Hp as [x Hf Ha Hx|Hf Ha|ph Hf Hcur|Hf Hcur]; cbn [ly_phs ly_cur ly_p_vaddr ly_first option_list length default from_option id] in *; [|..|rewrite Hcur in I1; cbn in I1|rewrite Hcur in I1; cbn in I1]; try subst x; (split; [unfold option_list in *; cbn in *; lia|lia]). }
  destruct G as [G1 G2]. destruct t as [t|]; [destruct Ht as (ph & -> & _)|subst st'].
  - split; [|exact G2]. rewrite app_length. cbn [ly_phs ly_cur set length] in *. cbn. cbn in G1. lia.
  - split; [|exact G2]. rewrite app_length. cbn [length]. lia.
Qed.
Lemma reach_all names va0 x0 l st' l' : mapM_st (layout_step names) l (mkLayout 0 va0 (Some x0) 0 None []) = Ok (st', l') -> reach va0 x0 l st'.
Proof.
  intros H. apply (mapM_st_trace (fun pre _ st => reach va0 x0 pre st)) in H; [exact H| |].
  - split; cbn; lia.
  - intros pre pre' post s a s' a' _ HI Hs. by eapply reach_step.
Qed.

(** * The PLT and its table are loaded *)
Lemma ref_alloc st : Forall (fun s => sc_id s = 6%nat \/ sc_id s = 7%nat -> alloc s = true) (ref_sections st).
Proof.
  set (g := fun s => (sc_id s, alloc s)).
  assert (H : forall x, Forall (fun y : nat * bool => y.1 = 6%nat \/ y.1 = 7%nat -> y.2 = true) x -> g <$> ref_sections st = x -> Forall (fun s => sc_id s = 6%nat \/ sc_id s = 7%nat -> alloc s = true) (ref_sections st)).
  { intros x Hx E. rewrite <- E in Hx. apply (proj1 (Forall_fmap g _ (ref_sections st))) in Hx. exact Hx. }
  destruct st; (eapply H; [|vm_compute; reflexivity]).
  all: repeat (constructor; [cbn; first [reflexivity|intros [E|E]; discriminate E]|]); constructor.
Qed.

Section room.
  Context {wd : world} {lo : lib_oracle} {l : linker} {fuel : nat} {w0 wr ws w1 : writer} {extra : N} {secs : list section} {w3 w4 : writer}.
  Context (V : valid_oracle (lo_writer lo)) (P : plain_inputs wd l) (PL : plain_libs wd l) (Sm : stt_total_len (w_dynstr wr) < 2 ^ 32).
  Context (Er : resolve wd lo l fuel = Ok wr) (Hw0 : writer_new (lk_options l) = Ok w0) (HI : winv (length (w_sections w0)) w0 wr).
  Context (Sz : sizing (lo_writer lo) wr ws w1 extra).
  Context (Es : sort_sections (lo_writer lo) (w_sections w1) = Ok secs) (E3 : generate_program_headers (w1 <| w_sections := secs |>) = Ok w3) (E4 : add_dyn_entries w3 = Ok w4).
  Collection lay := wd lo l fuel w0 wr ws w1 extra secs w3 w4 V P PL Sm Er Hw0 HI Sz Es E3 E4.

  Lemma start_alloc i s : i = 6%nat \/ i = 7%nat -> w_sections wr !! i = Some s -> alloc s = true.
  Proof using lay.
    intros Hi Hs. pose proof (wi_ids _ _ _ HI _ _ Hs) as Hid.
    assert (Hn : (14 <= length (w_sections w0))%nat). { destruct (writer_new_ref _ _ Hw0) as (Hsig & _). apply (f_equal length) in Hsig. rewrite !fmap_length in Hsig. rewrite Hsig. destruct (opt_hash_style _); apply Nat.leb_le; vm_compute; reflexivity. }
    destruct (resolve_pinv _ _ _ _ _ P Er) as (w0' & H0 & HP & _). rewrite Hw0 in H0. apply Ok_inj in H0. subst w0'.
    rewrite (pv_fixed _ _ _ _ _ HP i) in Hs by lia. rewrite (writer_new_sections _ _ Hw0), list_lookup_fmap in Hs.
    pose proof (ref_alloc (opt_hash_style (lk_options l))) as HF. rewrite Forall_forall in HF.
    destruct (ref_sections (opt_hash_style (lk_options l)) !! i) as [r|] eqn:Er'; [|discriminate Hs]. cbn in Hs. apply (inj Some) in Hs.
    specialize (HF r (elem_of_list_lookup_2 _ _ _ Er')). clear Er'. assert (Hr : sc_id r = i). { rewrite <- Hid, <- Hs. unfold with_loader. destruct (_ =? _)%nat; reflexivity. }
    unfold with_loader in Hs. rewrite Hr in *. change id_interp with 4%nat in Hs. rewrite (proj2 (Nat.eqb_neq i 4)) in Hs by lia. subst s. exact (HF Hi).
  Qed.
  Lemma sized_alloc i s : i = 6%nat \/ i = 7%nat -> w_sections w1 !! i = Some s -> alloc s = true.
  Proof using lay.
    intros Hi Hs. rewrite (sz_secs _ _ _ _ _ Sz), list_lookup_fmap in Hs. destruct (w_sections ws !! i) as [a|] eqn:E; [|discriminate Hs]. cbn in Hs. apply (inj Some) in Hs.
    destruct (Forall2_lookup_r _ _ _ _ _ (scan_secs _ _ (sz_scan _ _ _ _ _ Sz)) E) as (b & Hb & K & _). destruct (sized_sig _ _ (sized_fn (lo_writer lo) ws (w_hash w1) (w_gnu_hash w1) (blen (w_dyn_rels w1)) (blen (w_plt_rels w1)) extra a)) as (_ & _ & _ & _ & _ & _ & Fl & _). rewrite Hs in Fl.
    unfold alloc. rewrite Fl, K. exact (start_alloc _ _ Hi Hb).
  Qed.
  Lemma roomy : (length (w_sections w1) <= 580)%nat -> total (w_sections w1) <= 2^30 ->
    (length (w_program_headers w4) <= 1170)%nat /\ forall i, i = 6%nat \/ i = 7%nat -> sh_addr (hdr_of i (w_sections w4)) + sh_size (hdr_of i (w_sections w4)) <= 2^31.
  Proof using lay.
    intros Hn Ht. destruct (sort_spec _ _ _ Es) as (null & rest & Q1 & Q2). destruct (add_dyn_spec _ _ E4) as (es & _ & Ew4).
    assert (Hsecs : w_sections (w1 <| w_sections := secs |>) = (null <| sc_index := 0 |>) :: indexed (o_sort (lo_writer lo) rest)) by (cbn [w_sections set]; rewrite Q2; reflexivity).
    destruct (gph_spec _ _ _ _ Hsecs E3) as (st & rest' & HL & Ew3). destruct (winv_const _ _ _ _ Hw0 HI) as (C1 & C2 & C3 & C4 & C5 & _).
    pose proof (sz_frame _ _ _ _ _ Sz) as Hf'. unfold frame in Hf'. injection Hf' as F1 F2 F3 F4 F5 F6 F7 F8 F9. cbn [w_shstrtab w_file_offset w_p_vaddr w_eh w_program_headers set] in HL.
    change (w_file_offset (w1 <| w_sections := secs |>)) with (w_file_offset w1) in HL. change (w_p_vaddr (w1 <| w_sections := secs |>)) with (w_p_vaddr w1) in HL. change (w_eh (w1 <| w_sections := secs |>)) with (w_eh w1) in HL.
    change (w_program_headers (w1 <| w_sections := secs |>)) with (w_program_headers w1) in HL. rewrite F5, F3, F2, F1, C1, C2, C3, C5 in HL.
    pose proof (reach_all _ _ _ _ _ _ HL) as [R1 R2]. pose proof (range_inv_all _ _ _ _ _ _ _ HL) as RI. pose proof (layout_only _ _ _ _ _ HL) as F.
    unfold count_program_headers in R2. cbn [drop] in R2. rewrite drop_0 in R2. pose proof (loads_few 0 (indexed (o_sort (lo_writer lo) rest))) as LF. rewrite total_indexed, (total_perm _ _ (proj1 (vo_sort _ V rest))) in R2.
    assert (Ll : length (indexed (o_sort (lo_writer lo) rest)) = length rest) by (unfold indexed; rewrite imap_length; exact (Permutation_length (proj1 (vo_sort _ V rest)))). rewrite Ll in *.
    rewrite Q1 in Hn, Ht. cbn [length] in Hn. assert (Ht' : total rest <= 2^30) by (change (total (null :: rest)) with (memsz null + total rest) in Ht; lia).
    change (e_phentsize initial_ehdr) with 56 in R2. change EHDR_SIZE with 64 in R2. split.
    - rewrite Ew4, Ew3. cbn [w_program_headers set]. change (S (length (ly_phs st)) <= 1170)%nat. lia.
    - intros i Hi. destruct (laid_section V P PL Sm Er Hw0 HI Sz Es E3 E4 i ltac:(lia)) as (s1 & s4 & H1 & H2 & _). unfold hdr_of. rewrite H2.
      assert (Hin : s4 ∈ null <| sc_index := 0 |> :: rest' /\ sc_id s4 = i).
      { assert (Ew : w_sections w4 = null <| sc_index := 0 |> :: rest') by (rewrite Ew4, Ew3; reflexivity). rewrite Ew in H2. clear -H2. induction (null <| sc_index := 0 |> :: rest') as [|a r IH]; [discriminate H2|]. cbn [get_section] in H2. destruct (Nat.eqb_spec (sc_id a) i) as [Ea|Ea]; [injection H2 as <-; split; [left|exact Ea]|]. destruct (IH H2) as [? ?]. split; [by right|done]. }
      destruct Hin as [Hin Hid]. apply elem_of_cons in Hin as [->|Hin].
      + exfalso. assert (N0 : sc_id null = 0%nat) by (apply (sized_ids V P PL Sm Er Hw0 HI Sz 0%nat); rewrite Q1; reflexivity). change (sc_id null = i) in Hid. lia.
      + assert (Al : alloc s4 = true).
        { apply elem_of_list_lookup in Hin as [k Hk]. destruct (Forall2_lookup_r _ _ _ _ _ F Hk) as (a & Ha & O1). rewrite (op_alloc _ _ O1). apply indexed_lookup in Ha as (b & Hb & ->). rewrite (op_id _ _ O1) in Hid. change (sc_id b = i) in Hid. change (alloc b = true).
          assert (Hb' : b ∈ rest) by (rewrite <- (proj1 (vo_sort _ V rest)); by eapply elem_of_list_lookup_2). apply elem_of_list_lookup in Hb' as [j Hj].
          assert (Hj' : w_sections w1 !! S j = Some b) by (rewrite Q1; exact Hj). pose proof (sized_ids V P PL Sm Er Hw0 HI Sz _ _ Hj') as Hb'. apply (sized_alloc (S j)); [rewrite <- Hb', Hid; exact Hi|exact Hj']. }
        destruct (ri_mem _ _ _ _ RI s4 Hin Al) as [_ B]. change (addr s4 + memsz s4 <= 2^31). lia.
  Qed.
End room.
