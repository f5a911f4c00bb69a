(** Filling in the PLT does not crash. *)
From Verif Require Import ProofBind.
From Verif Require Export ProofCrash.

Section plt.
  Context {wd : world} {lo : lib_oracle} {l : linker} {fuel : nat} {w0 wr ws w1 : writer} {extra : N}.
  Context (V : valid_oracle (lo_writer lo)) (P : plain_inputs wd l) (PL : plain_libs wd l) (Sm : stt_total_len (w_dynstr wr) < 2 ^ 32).
  Context (Er : resolve wd lo l fuel = Ok wr) (Hw0 : writer_new (lk_options l) = Ok w0) (HI : winv (length (w_sections w0)) w0 wr).
  Context (Sz : sizing (lo_writer lo) wr ws w1 extra).
  Collection all := wd lo l fuel w0 wr ws w1 extra V P PL Sm Er Hw0 HI Sz.

  (** ** The entries *)
  Lemma tabs : tinv wr.
  Proof using all. exact (resolve_tables wd l PL _ _ _ Er). Qed.
  Lemma fresh_slots : no_slots wr.
  Proof using all.
    destruct (winv_const _ _ _ _ Hw0 HI) as (_ & _ & _ & _ & _ & E1 & E2 & E3 & _). split; [exact E1|]. split; [exact E2|]. split; [exact E3|].
    intros r sym Hr. destruct (ti_fresh _ tabs _ _ Hr) as (? & ? & ? & _). done.
  Qed.
  Lemma scanned_fields : w_dynsym ws = w_dynsym wr /\ w_copyrel ws = mkCopyrel 0 [] /\ w_dyn_rels ws = [] /\ w_plt_rels ws = [] /\ ProofStatic.keeps sym_static (w_symtab wr) (w_symtab ws).
  Proof using all.
    destruct (scan_flat _ _ (sz_scan _ _ _ _ _ Sz)) as (sn & _ & E). destruct (winv_const _ _ _ _ Hw0 HI) as (_ & _ & _ & _ & _ & _ & _ & _ & E1 & E2 & E3).
    split_and!; [rewrite E; reflexivity|rewrite E; exact E1|rewrite E; exact E2|rewrite E; exact E3|]. exact (keeps_scan sym_static _ _ (sz_scan _ _ _ _ _ Sz)).
  Qed.
  Lemma linked n s r : syt_symbols (w_symtab ws) !! n = Some s -> s_dynamic s = Some r ->
    exists m d, r = RNamed m /\ syt_symbols (w_dynsym wr) !! m = Some d /\ ProofTables.same_name (w_strtab wr) (w_dynstr wr) n m.
  Proof using all.
    intros Hs Hd. destruct scanned_fields as (_ & _ & _ & _ & K). destruct (keeps_lookup _ _ _ _ _ K Hs) as (s0 & H0 & E). unfold sym_static in E. injection E as _ _ _ _ _ _ _ E.
    eapply (ti_link _ tabs); [exact H0|]. by rewrite <- E.
  Qed.
  Lemma linked_inj n n' s s' d : syt_symbols (w_symtab ws) !! n = Some s -> syt_symbols (w_symtab ws) !! n' = Some s' -> s_dynamic s = Some d -> s_dynamic s' = Some d -> n = n'.
  Proof using all.
    intros H1 H2 D1 D2. destruct (linked _ _ _ H1 D1) as (m & _ & -> & _ & N1). destruct (linked _ _ _ H2 D2) as (m' & _ & [= <-] & _ & N2).
    destruct (ti_reach _ tabs) as [R1 R2]. eapply same_name_inj; [exact (st_reach_ok _ R1)|exact (st_reach_ok _ R2)|exact Sm|exact N1|exact N2].
  Qed.
  Lemma entries_ready : exists ks, w_plt ws = plt_of ks /\ w_got_plt ws = got_plt_of ks /\
    forall i r, ks !! i = Some r -> exists s, syt_get (w_symtab w1) r = Some s /\ s_in_plt s = Some (N.of_nat i) /\ is_Some (s_relocation_offset s).
  Proof using all.
    destruct (scan_plt _ _ (sz_scan _ _ _ _ _ Sz) fresh_slots) as (ks & ND & Hks & Hin & Hout & E1 & E2). exists ks. split; [exact E1|]. split; [exact E2|].
    destruct scanned_fields as (F1 & F2 & F3 & F4 & K). destruct (sz_rels _ _ _ _ _ Sz) as (dr & Hf & G1 & _). rewrite F1, F2, F3, F4 in Hf.
    assert (I : dr_inv (dyn_sym_indices (syt_sorted (o_dyn (lo_writer lo)) (w_dynsym wr))) (syt_symbols (w_symtab ws)) (w_dynsym wr) (o_sym (lo_writer lo) (keys (syt_symbols (w_symtab ws)))) dr)
      by (eapply dr_fold; [exact linked_inj|rewrite (vo_sym _ V); unfold keys; apply NoDup_elements|exact Hf]).
    intros i r Hi. assert (Hr : r ∈ ks) by (eapply elem_of_list_lookup_2; exact Hi). apply Hks in Hr as (_ & s0 & d & Hs0 & Hd).
    destruct r as [n|a b]; [|rewrite (ti_sec _ tabs _ _ _ Hs0) in Hd; discriminate Hd]. destruct (Hin _ _ Hi) as (s & Hs & P1 & P2). cbn in Hs, Hs0.
    destruct (keeps_lookup _ _ _ _ _ K Hs) as (s0' & Hs0' & E). rewrite Hs0 in Hs0'. injection Hs0' as <-. unfold sym_static in E. assert (Hd' : s_dynamic s = Some d) by congruence.
    assert (Hk : n ∈ o_sym (lo_writer lo) (keys (syt_symbols (w_symtab ws)))) by (rewrite (vo_sym _ V); unfold keys; rewrite elem_of_elements; apply elem_of_dom; eauto).
    destruct (dri_found _ _ _ _ _ I _ _ _ Hk Hs Hd') as [[j Hj] _]. apply elem_of_list_split in Hk as (pre & post & Ek).
    assert (Hrec : plt_rec (dyn_sym_indices (syt_sorted (o_dyn (lo_writer lo)) (w_dynsym wr))) (syt_symbols (w_symtab ws)) n = Some (rela ((N.of_nat i + 3) * 8) j 7)).
    { unfold plt_rec. rewrite Hs. cbn [mbind option_bind]. rewrite Hd'. cbn [mbind option_bind]. rewrite Hj. cbn [mbind option_bind]. rewrite P2. reflexivity. }
    pose proof (dri_pos _ _ _ _ _ I _ _ _ _ Ek Hrec) as Hpos. pose proof (dri_static _ _ _ _ _ I n) as Hst. rewrite Hs in Hst.
    destruct (dr_symbols dr !! n) as [s1|] eqn:E3; [|discriminate Hst]. cbn in Hst, Hpos. apply (inj Some) in Hst, Hpos. exists s1. split; [rewrite G1; exact E3|].
    split; [|rewrite Hpos; eauto]. apply (f_equal s_in_plt) in Hst. cbn in Hst. congruence.
  Qed.

  (** ** The sections *)
  Lemma own_start i s : (0 < i < 14)%nat -> i <> 4%nat -> w_sections wr !! i = Some s -> sc_id s = i /\ own i (sc_synth s) (sh_type (sc_sh s)) /\ sc_chunks s = [].
  Proof using all.
    intros Hi N4 Hs. pose proof (wi_ids _ _ _ HI _ _ Hs) as Hid. split; [exact Hid|].
    assert (Hn : (14 <= length (w_sections w0))%nat). { destruct (writer_new_ref _ _ Hw0) as (Hsig & _). apply (f_equal length) in Hsig. rewrite !fmap_length in Hsig. rewrite Hsig. destruct (opt_hash_style _); apply Nat.leb_le; vm_compute; reflexivity. }
    destruct (resolve_pinv _ _ _ _ _ P Er) as (w0' & H0 & HP & _). rewrite Hw0 in H0. apply Ok_inj in H0. subst w0'.
    rewrite (pv_fixed _ _ _ _ _ HP i) in Hs by lia. rewrite (writer_new_sections _ _ Hw0), list_lookup_fmap in Hs.
    pose proof (ref_shapes (opt_hash_style (lk_options l))) as HF. rewrite Forall_forall in HF.
    destruct (ref_sections (opt_hash_style (lk_options l)) !! i) as [r|] eqn:Er'; [|discriminate Hs]. cbn in Hs. apply (inj Some) in Hs.
    specialize (HF r (elem_of_list_lookup_2 _ _ _ Er')). clear Er'. unfold shape, shape_ok in HF. destruct HF as (Ho & H8 & He & Hh).
    assert (Hr : sc_id r = i). { rewrite <- Hid, <- Hs. unfold with_loader. destruct (_ =? _)%nat; reflexivity. }
    unfold with_loader in Hs. rewrite Hr in *. change id_interp with 4%nat in Hs. rewrite (proj2 (Nat.eqb_neq _ _) N4) in Hs. subst s. split; [exact Ho|].
    destruct He as [E|[He Hm]]; [contradiction|]. destruct (sc_chunks r); [reflexivity|discriminate He].
  Qed.

  Lemma sized_ids i s : w_sections w1 !! i = Some s -> sc_id s = i.
  Proof using all.
    intros Hs. rewrite (sz_secs _ _ _ _ _ Sz), list_lookup_fmap in Hs. destruct (w_sections ws !! i) as [a|] eqn:E; [|discriminate Hs]. cbn in Hs. apply (inj Some) in Hs.
    destruct (Forall2_lookup_r _ _ _ _ _ (scan_secs _ _ (sz_scan _ _ _ _ _ Sz)) E) as (b & Hb & K & _). rewrite <- Hs, (proj1 (sized_sig _ _ (sized_fn _ _ _ _ _ _ _ a))), K. exact (wi_ids _ _ _ HI _ _ Hb).
  Qed.
  Lemma sized_own i s : (0 < i < 14)%nat -> i <> 4%nat -> w_sections w1 !! i = Some s ->
    exists sy sz, (own i sy 11 \/ own i sy 0) /\ (sc_chunks s, memsz s) = made (lo_writer lo) ws (w_hash w1) (w_gnu_hash w1) (blen (w_dyn_rels w1)) (blen (w_plt_rels w1)) extra i sy sz.
  Proof using all.
    intros Hi N4 Hs. rewrite (sz_secs _ _ _ _ _ Sz), list_lookup_fmap in Hs. destruct (w_sections ws !! i) as [a|] eqn:E; [|discriminate Hs]. cbn in Hs. apply (inj Some) in Hs.
    destruct (Forall2_lookup_r _ _ _ _ _ (scan_secs _ _ (sz_scan _ _ _ _ _ Sz)) E) as (b & Hb & K & _ & L). destruct (own_start _ _ Hi N4 Hb) as (I1 & I2 & I3). rewrite I3 in L.
    assert (Ia : sc_id a = i) by (rewrite K; exact I1). assert (Oa : own (sc_id a) (sc_synth a) (sh_type (sc_sh a))) by (rewrite Ia, K; exact I2).
    destruct (size_made (lo_writer lo) ws (w_hash w1) (w_gnu_hash w1) (blen (w_dyn_rels w1)) (blen (w_plt_rels w1)) extra a Oa) as [M1 M2]. rewrite Hs, Ia in M1, M2.
    exists (sc_synth a), (memsz a). split.
    - rewrite Ia in Oa. destruct Oa as [Q1 Q2]. destruct (decide (i = 9%nat)) as [->|N9]; [left|right]; (split; [exact Q1|]); [done|]. split; [discriminate|by intros].
    - destruct (sc_chunks a); [|discriminate L]. rewrite M1, M2. cbn [app]. by destruct (made _ _ _ _ _ _ _ _ _ _).
  Qed.
  Lemma sized_plt s : w_sections w1 !! 7%nat = Some s -> sc_chunks s = [chunk_new (plt_data (w_plt ws))] /\ memsz s = (blen (w_plt ws) + 1) * 16.
  Proof using all.
    intros Hs. destruct (sized_own 7 s ltac:(lia) ltac:(discriminate) Hs) as (sy & sz & Ho & E). assert (sy = Some KPlt) as -> by (destruct Ho as [[E' _]|[E' _]]; exact E'). cbn [made] in E. by injection E as -> ->.
  Qed.
  Lemma sized_got_plt s : w_sections w1 !! 6%nat = Some s -> sc_chunks s = [chunk_new (zeros (8 * (blen (w_got_plt ws) + 3)))] /\ memsz s = 8 * (blen (w_got_plt ws) + 3).
  Proof using all.
    intros Hs. destruct (sized_own 6 s ltac:(lia) ltac:(discriminate) Hs) as (sy & sz & Ho & E). assert (sy = None) as -> by (destruct Ho as [[E' _]|[E' _]]; exact E'). cbn [made] in E. injection E as -> ->.
    split; [reflexivity|]. unfold zeros, blen. rewrite replicate_length. lia.
  Qed.
  Lemma sized_there i : (i < 14)%nat -> is_Some (w_sections w1 !! i).
  Proof using all.
    intros Hi. apply lookup_lt_is_Some_2. rewrite (sz_secs _ _ _ _ _ Sz), fmap_length, <- (Forall2_length _ _ _ (scan_secs _ _ (sz_scan _ _ _ _ _ Sz))).
    assert (L : (14 <= length (w_sections w0))%nat). { destruct (writer_new_ref _ _ Hw0) as (Hsig & _). apply (f_equal length) in Hsig. rewrite !fmap_length in Hsig. rewrite Hsig. destruct (opt_hash_style _); apply Nat.leb_le; vm_compute; reflexivity. }
    assert (Hlt : (i < length (w_sections w0))%nat) by lia. apply lookup_lt_is_Some_2 in Hlt as [s0 E2]. destruct (wi_fixed _ _ _ HI _ _ E2) as (s1 & Hs1 & _). by eapply lookup_lt_Some.
  Qed.

  (** ** The layout *)
  Context {secs : list section} {w3 w4 : writer}.
  Context (Es : sort_sections (lo_writer lo) (w_sections w1) = Ok secs) (E3 : generate_program_headers (w1 <| w_sections := secs |>) = Ok w3) (E4 : add_dyn_entries w3 = Ok w4).
  Collection lay := all secs w3 w4 Es E3 E4.
  Lemma laid_secs : w_symtab w4 = w_symtab w1 /\ w_got_plt w4 = w_got_plt w1 /\ exists null rest null' rest', w_sections w1 = null :: rest /\ w_sections w4 = null' :: rest' /\ sc_id null' = sc_id null /\ Forall2 only_placed (indexed (o_sort (lo_writer lo) rest)) rest'.
  Proof using lay.
    destruct (sort_spec _ _ _ Es) as (null & rest & Q1 & Q2). destruct (add_dyn_spec _ _ E4) as (es & _ & ->).
    assert (Hsecs : w_sections (w1 <| w_sections := secs |>) = (null <| sc_index := 0 |>) :: indexed (o_sort (lo_writer lo) rest)) by (cbn [w_sections set]; rewrite Q2; reflexivity).
    destruct (gph_spec _ _ _ _ Hsecs E3) as (st & rest' & HL & ->). split; [reflexivity|]. split; [reflexivity|]. exists null, rest, (null <| sc_index := 0 |>), rest'.
    split; [exact Q1|]. split; [reflexivity|]. split; [reflexivity|]. exact (layout_only _ _ _ _ _ HL).
  Qed.
  Lemma laid_section i : (0 < i < 14)%nat -> exists s1 s4, w_sections w1 !! i = Some s1 /\ get_section i (w_sections w4) = Some s4 /\ memsz s4 = memsz s1 /\ c_data <$> sc_chunks s4 = c_data <$> sc_chunks s1.
  Proof using lay.
    intros Hi. destruct laid_secs as (_ & _ & null & rest & null' & rest' & Q1 & Q2 & Q3 & F). destruct (sized_there i ltac:(lia)) as [s1 Hs1].
    assert (Back : forall s4, s4 ∈ rest' -> sc_id s4 = i -> memsz s4 = memsz s1 /\ c_data <$> sc_chunks s4 = c_data <$> sc_chunks s1).
    { intros s4 H4 Hid. apply elem_of_list_lookup in H4 as [k Hk]. destruct (Forall2_lookup_r _ _ _ _ _ F Hk) as (a & Ha & [O1 O2]). apply indexed_lookup in Ha as (b & Hb & ->).
      assert (Hin : b ∈ rest) by (rewrite <- (proj1 (vo_sort _ V rest)); by eapply elem_of_list_lookup_2). apply elem_of_list_lookup in Hin as [j Hj].
      assert (Hj' : w_sections w1 !! S j = Some b) by (rewrite Q1; exact Hj). pose proof (sized_ids _ _ Hj') as Hb'. rewrite O1 in Hid. cbn in Hid. rewrite Hb' in Hid. rewrite <- Hid, Hj' in Hs1. injection Hs1 as ->.
      split; [rewrite O1; reflexivity|]. clear -O2. cbn [sc_chunks set] in O2. induction O2 as [|c c' la lb Hc O2 IH]; [reflexivity|]. rewrite !fmap_cons, IH. by rewrite Hc. }
    destruct i as [|i]; [lia|]. pose proof Hs1 as Hs1'. rewrite Q1 in Hs1'. cbn in Hs1'. assert (Hin : s1 ∈ o_sort (lo_writer lo) rest) by (rewrite (proj1 (vo_sort _ V rest)); by eapply elem_of_list_lookup_2).
    apply elem_of_list_lookup in Hin as [k Hk]. assert (Hk' : indexed (o_sort (lo_writer lo) rest) !! k = Some (s1 <| sc_index := N.of_nat (S k) |>)) by (unfold indexed; rewrite list_lookup_imap, Hk; reflexivity).
    destruct (Forall2_lookup_l _ _ _ _ _ F Hk') as (s' & Hs' & [O1 _]). assert (Hid : sc_id s' = S i) by (rewrite O1; exact (sized_ids _ _ Hs1)).
    assert (G : exists s4, get_section (S i) (w_sections w4) = Some s4 /\ s4 ∈ rest' /\ sc_id s4 = S i).
    { assert (N0 : sc_id null' = 0%nat) by (rewrite Q3; apply (sized_ids 0%nat); rewrite Q1; reflexivity). rewrite Q2. cbn [get_section]. rewrite N0. cbn [Nat.eqb]. assert (Hx : s' ∈ rest') by (by eapply elem_of_list_lookup_2). clear -Hx Hid.
      induction rest' as [|a r IH]; [by apply elem_of_nil in Hx|]. cbn [get_section]. destruct (Nat.eqb_spec (sc_id a) (S i)) as [Ea|Ea]; [exists a; split; [reflexivity|]; split; [left|exact Ea]|].
      apply elem_of_cons in Hx as [->|Hx]; [contradiction|]. destruct (IH Hx) as (s4 & G1 & G2 & G3). exists s4. split; [exact G1|]. split; [by right|exact G3]. }
    destruct G as (s4 & G1 & G2 & G3). destruct (Back _ G2 G3) as [B1 B2]. exists s1, s4. split; [exact Hs1|]. split; [exact G1|]. split; [exact B1|exact B2].
  Qed.

  (** ** Filling in *)
  Lemma to_i32_in z : (- 2^31 <= z < 2^31)%Z -> to_i32 z = Ok z.
  Proof. intros [Ha Hb]. unfold to_i32. rewrite (proj2 (Z.leb_le _ _) Ha), (proj2 (Z.ltb_lt _ _) Hb). reflexivity. Qed.
  Lemma write_in data off bs : off + N.of_nat (length bs) <= N.of_nat (length data) -> exists d, write_at data off bs = Ok d /\ length d = length data.
  Proof. intros H. destruct (write_at_ok data off bs H) as [d Hd]. exists d. split; [exact Hd|]. by apply write_at_Ok in Hd as (_ & ? & _). Qed.
  Lemma header_in a g data : a < 2^31 -> g + 24 <= 2^31 -> (16 <= length data)%nat -> exists d, patch_plt_header a g data = Ok d /\ length d = length data.
  Proof.
    intros Ha Hg Hl. unfold patch_plt_header, write_i32. cbv zeta. rewrite !to_i32_in by lia. cbn [mbind res_bind]. match goal with |- context [write_at data ?x ?b] => destruct (write_in data x b) as (d & -> & L) end; [rewrite le_bytes_z_length; lia|].
    cbn [mbind res_bind]. match goal with |- context [write_at d ?x ?b] => destruct (write_in d x b) as (d' & -> & L') end; [rewrite le_bytes_z_length; lia|]. exists d'. split; [reflexivity|lia].
  Qed.
  Lemma step_in t a g n i r s pd gd : syt_get t r = Some s -> s_in_plt s = Some (N.of_nat i) -> is_Some (s_relocation_offset s) -> (i < n)%nat ->
    N.of_nat (length pd) = 16 * (N.of_nat n + 1) -> N.of_nat (length gd) = 8 * (N.of_nat n + 3) -> a + 16 * (N.of_nat n + 1) <= 2^31 -> g + 8 * (N.of_nat n + 3) <= 2^31 ->
    exists pd' gd', patch_plt_step t a g (pd, gd) (r, (N.of_nat i + 3) * 8) = Ok (pd', gd') /\ length pd' = length pd /\ length gd' = length gd.
  Proof.
    intros H1 H2 [ro H3] Hi Lp Lg Ba Bg. unfold patch_plt_step. rewrite H1. cbn [unwrap mbind res_bind]. rewrite H2. cbn [unwrap mbind res_bind]. unfold plt_entry_addr, to_i64. rewrite (proj2 (N.ltb_lt _ _)) by lia. cbn [mbind res_bind].
    set (z := Z.of_N (a + 16 * (1 + N.of_nat i))). assert (Ez : z = (Z.of_N a + 16 * (1 + Z.of_nat i))%Z) by lia. clearbody z.
    destruct (write_in gd ((N.of_nat i + 3) * 8) (le_bytes_z 8 (z + 6))) as (gd' & -> & L1); [rewrite le_bytes_z_length; lia|]. cbn [mbind res_bind]. cbv zeta.
    rewrite !to_i32_in by lia. cbn [mbind res_bind]. unfold write_i32. set (o := Z.to_N (z - Z.of_N a)). assert (Eo : o = 16 * (1 + N.of_nat i)) by lia. clearbody o.
    match goal with |- context [write_at pd ?x ?b] => destruct (write_in pd x b) as (p1 & -> & L2) end; [rewrite le_bytes_z_length; lia|]. cbn [mbind res_bind]. rewrite H3. cbn [unwrap mbind res_bind].
    match goal with |- context [write_at p1 ?x ?b] => destruct (write_in p1 x b) as (p2 & -> & L3) end; [rewrite le_bytes_length; lia|]. cbn [mbind res_bind].
    match goal with |- context [write_at p2 ?x ?b] => destruct (write_in p2 x b) as (p3 & -> & L4) end; [rewrite le_bytes_z_length; lia|]. cbn [mbind res_bind]. exists p3, gd'. split; [reflexivity|lia].
  Qed.
  Lemma steps_in t a g n (l0 : list (symref * N)) : a + 16 * (N.of_nat n + 1) <= 2^31 -> g + 8 * (N.of_nat n + 3) <= 2^31 ->
    (forall x, x ∈ l0 -> exists i r s, x = (r, (N.of_nat i + 3) * 8) /\ (i < n)%nat /\ syt_get t r = Some s /\ s_in_plt s = Some (N.of_nat i) /\ is_Some (s_relocation_offset s)) ->
    forall pd gd, N.of_nat (length pd) = 16 * (N.of_nat n + 1) -> N.of_nat (length gd) = 8 * (N.of_nat n + 3) -> exists y, foldM (patch_plt_step t a g) l0 (pd, gd) = Ok y.
  Proof.
    intros Ba Bg. induction l0 as [|x l0 IH]; intros Hx pd gd Lp Lg; [by eexists|]. destruct (Hx x) as (i & r & s & -> & Q1 & Q2 & Q3 & Q4); [left|].
    destruct (step_in t a g n i r s pd gd Q2 Q3 Q4 Q1 Lp Lg Ba Bg) as (pd' & gd' & E & L1 & L2). cbn [foldM]. rewrite E. cbn [mbind res_bind]. apply IH; [|by rewrite L1|by rewrite L2]. intros y Hy. apply Hx. by right.
  Qed.

  Lemma filled : sh_addr (hdr_of id_plt (w_sections w4)) + sh_size (hdr_of id_plt (w_sections w4)) <= 2^31 ->
    sh_addr (hdr_of id_got_plt (w_sections w4)) + sh_size (hdr_of id_got_plt (w_sections w4)) <= 2^31 -> exists w5, patch_plt_and_got_plt w4 = Ok w5.
  Proof using lay.
    destruct entries_ready as (ks & K1 & K2 & K3). destruct laid_secs as (T1 & T2 & _). destruct (sz_got _ _ _ _ _ Sz) as (_ & T3 & _).
    destruct (laid_section 7 ltac:(lia)) as (p1 & p4 & P1 & P2 & P3 & P4). destruct (laid_section 6 ltac:(lia)) as (g1 & g4 & G1 & G2 & G3 & G4).
    destruct (sized_plt _ P1) as [P5 P6]. destruct (sized_got_plt _ G1) as [G5 G6]. rewrite P5 in P4. rewrite G5 in G4.
    assert (Lk : blen (plt_of ks) = N.of_nat (length ks)) by (unfold blen, plt_of; by rewrite imap_length). assert (Lg : blen (got_plt_of ks) = N.of_nat (length ks)) by (unfold blen, got_plt_of; by rewrite imap_length).
    unfold patch_plt_and_got_plt, patch_plt_and_got_plt_in, hdr_of. change id_plt with 7%nat. change id_got_plt with 6%nat. rewrite P2, G2. cbn [unwrap mbind res_bind fmap option_fmap option_map default from_option id]. cbv zeta.
    destruct (sc_chunks p4) as [|pc [|? ?]]; [discriminate P4| |discriminate P4]. cbn in P4. injection P4 as P4. destruct (sc_chunks g4) as [|gc [|? ?]]; [discriminate G4| |discriminate G4]. cbn in G4. injection G4 as G4.
    unfold memsz in P3, P6, G3, G6. rewrite P3, P6, G3, G6, K1, K2, Lk, Lg. intros Ba Bg. cbn [index lookup list_lookup mbind res_bind].
    assert (Lp : N.of_nat (length (c_data pc)) = 16 * (N.of_nat (length ks) + 1)) by (rewrite P4, K1; etransitivity; [exact (plt_data_length (plt_of ks))|rewrite Lk; lia]).
    assert (Lq : N.of_nat (length (c_data gc)) = 8 * (N.of_nat (length ks) + 3)) by (rewrite G4; unfold zeros; rewrite replicate_length, K2, Lg; lia).
    destruct (header_in (sh_addr (sc_sh p4)) (sh_addr (sc_sh g4)) (c_data pc)) as (d & -> & Ld); [lia|lia|lia|]. cbn [mbind res_bind].
    destruct (steps_in (w_symtab w4) (sh_addr (sc_sh p4)) (sh_addr (sc_sh g4)) (length ks) (w_got_plt w4)) with (pd := d) (gd := c_data gc) as [[pd gd] Ey]; [lia|lia| |by rewrite Ld|exact Lq|].
    - rewrite T2, T3, K2, T1. intros x Hx. unfold got_plt_of in Hx. apply elem_of_list_lookup in Hx as [i Hi]. rewrite list_lookup_imap in Hi. destruct (ks !! i) as [r|] eqn:Er'; [|discriminate Hi]. cbn in Hi. injection Hi as <-.
      destruct (K3 _ _ Er') as (s & S1 & S2 & S3). exists i, r, s. split; [reflexivity|]. split; [by eapply lookup_lt_Some|]. done.
    - destruct (w_got_plt w4) as [|x xs]; [by eexists|]. rewrite Ey. cbn [mbind res_bind]. by eexists.
  Qed.
End plt.
