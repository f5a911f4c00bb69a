(** Where the sections and segments of a finished link are. *)
From Verif Require Export ProofOut.

Lemma decl_flags a b : decl a = decl b -> flags a = flags b.
Proof. unfold decl. congruence. Qed.
Lemma decl_align a b : decl a = decl b -> align a = align b.
Proof. unfold decl. congruence. Qed.
Lemma decl_name a b : decl a = decl b -> sh_name (sc_sh a) = sh_name (sc_sh b).
Proof. unfold decl. congruence. Qed.
Lemma decl_type a b : decl a = decl b -> sh_type (sc_sh a) = sh_type (sc_sh b).
Proof. unfold decl. congruence. Qed.
Lemma decl_id a b : decl a = decl b -> sc_id a = sc_id b.
Proof. unfold decl. congruence. Qed.
Lemma decl_synth a b : decl a = decl b -> sc_synth a = sc_synth b.
Proof. unfold decl. congruence. Qed.
Lemma decl_alloc a b : decl a = decl b -> alloc a = alloc b.
Proof. intros H. unfold alloc. by rewrite (decl_flags _ _ H). Qed.
Lemma decl_nobits a b : decl a = decl b -> is_nobits a = is_nobits b.
Proof. intros H. unfold is_nobits. by rewrite (decl_type _ _ H). Qed.
Lemma decl_perms a b : decl a = decl b -> perms a = perms b.
Proof. intros H. apply perms_flags. by apply decl_flags. Qed.
Lemma decl_before a b a' b' : decl a = decl a' -> decl b = decl b' -> sec_before a b -> sec_before a' b'.
Proof.
  intros Ha Hb. unfold sec_before. by rewrite (decl_flags _ _ Ha), (decl_flags _ _ Hb), (decl_align _ _ Ha), (decl_align _ _ Hb).
Qed.

Lemma indexed_decl l : decl <$> indexed l = decl <$> l.
Proof.
  unfold indexed. rewrite fmap_imap. apply list_eq. intros i. rewrite list_lookup_imap, list_lookup_fmap. by destruct (l !! i).
Qed.
Lemma indexed_lookup l i s : indexed l !! i = Some s -> exists s0, l !! i = Some s0 /\ s = s0 <| sc_index := N.of_nat (S i) |>.
Proof. unfold indexed. rewrite list_lookup_imap. destruct (l !! i) as [s0|]; [|done]. intros [= <-]. eauto. Qed.

Lemma fmap_decl_lookup (l k : list section) i s : decl <$> l = decl <$> k -> l !! i = Some s -> exists s', k !! i = Some s' /\ decl s' = decl s.
Proof.
  intros H Hi. assert (Hk : (decl <$> k) !! i = Some (decl s)) by (rewrite <- H, list_lookup_fmap, Hi; done).
  rewrite list_lookup_fmap in Hk. destruct (k !! i) as [s1|]; [|done]. cbn in Hk. apply (inj Some) in Hk. eauto.
Qed.
Lemma fmap_decl_elem (l k : list section) s : decl <$> l ≡ₚ decl <$> k -> s ∈ l -> exists s', s' ∈ k /\ decl s' = decl s.
Proof.
  intros H Hi. assert (Hk : decl s ∈ decl <$> k) by (rewrite <- H; by apply elem_of_list_fmap_1).
  apply elem_of_list_fmap in Hk as (s' & E & Hs'). eauto.
Qed.

(** * The initial sections *)
Definition ref_row (st : hash_style) (s : section) : N * N * bool * option synth * N :=
  (sh_type (sc_sh s), flags s, bool_decide (st_name_at (ref_names st) (sh_name (sc_sh s)) = Some ".interp"), sc_synth s, align s).
Definition ref_common : list (N * N * bool * option synth * N) :=
  [(0, 0, false, None, 0); (3, 0, false, Some KShstr, 1); (3, 0, false, Some KStr, 1); (3, 2, false, Some KDynstr, 1);
   (1, 2, true, None, 1); (1, 3, false, None, 8); (1, 3, false, None, 8); (1, 6, false, Some KPlt, 8);
   (2, 0, false, Some KSym, 8); (11, 2, false, Some KDynsym, 8); (6, 3, false, None, 8); (4, 2, false, None, 8);
   (4, 2, false, None, 8); (8, 3, false, Some KCopyRel, 64)].
Definition ref_hash_row : N * N * bool * option synth * N := (5, 2, false, Some KHash, 4).
Definition ref_gnu_row : N * N * bool * option synth * N := (0x6ffffff6, 2, false, Some KGnuHash, 4).
Lemma ref_rows st : ref_row st <$> ref_sections st =
  ref_common ++ match st with HSysv => [ref_hash_row] | HGnu => [ref_gnu_row] | HBoth => [ref_hash_row; ref_gnu_row] end.
Proof. destruct st; vm_compute; reflexivity. Qed.
Lemma ref_name_interp st : exists o, stt_names (ref_names st) !! 4%nat = Some (".interp", (4, o)).
Proof. destruct st; eexists; vm_compute; reflexivity. Qed.
Lemma ref_names_known st : Forall (fun s => is_Some (st_name_at (ref_names st) (sh_name (sc_sh s)))) (ref_sections st).
Proof.
  assert (H : forallb (fun s => if st_name_at (ref_names st) (sh_name (sc_sh s)) then true else false) (ref_sections st) = true)
    by (destruct st; vm_compute; reflexivity).
  rewrite forallb_forall in H. apply List.Forall_forall. intros s Hs. specialize (H s Hs). cbv beta in H. revert H. generalize (st_name_at (ref_names st) (sh_name (sc_sh s))). intros [n|] H; [by exists n|discriminate H].
Qed.

Lemma name_in_app a b o : st_name_in (a ++ b) o = match st_name_in a o with Some n => Some n | None => st_name_in b o end.
Proof. induction a as [|[k [i x]] a IH]; simpl; [done|]. by destruct (x =? o). Qed.

Lemma on_ne id f s : sc_id s <> id -> on id f s = s.
Proof. intros H. unfold on. by rewrite (proj2 (Nat.eqb_neq _ _) H). Qed.

Section place.
  Context {wd : world} {lo : lib_oracle} {l : linker} {fuel : nat} {w : writer} {secs : list section}
    {w0 wr ws w1 : writer} {extra : N} {null : section} {rest rest' : list section} {st : layout} {w3 w4 w5 w6 w7 : writer}
    {null' : section} {out : list section}.
  Context (O : outcome wd lo l fuel w secs w0 wr ws w1 extra null rest rest' st w3 w4 w5 w6 w7 null' out).
  Context (V : valid_oracle (lo_writer lo)).

  Lemma fixed_row i row : ref_common !! i = Some row -> exists s r, w_sections wr !! i = Some s /\ sc_id s = i /\
    ref_sections (opt_hash_style (lk_options l)) !! i = Some r /\
    ref_row (opt_hash_style (lk_options l)) r = row /\ sec_sig s = sec_sig r /\ align r <= align s.
  Proof using O.
    intros Hi. destruct (writer_new_ref _ _ (oc_new O)) as (Hsig & Hal & _).
    pose proof (oc_winv O) as HI.
    assert (Hr : (ref_row (opt_hash_style (lk_options l)) <$> ref_sections (opt_hash_style (lk_options l))) !! i = Some row).
    { rewrite ref_rows. apply lookup_app_l_Some. exact Hi. }
    rewrite list_lookup_fmap in Hr. destruct (ref_sections _ !! i) as [r|] eqn:Er; [|discriminate Hr]. cbn in Hr. apply (inj Some) in Hr.
    assert (Hs : (sec_sig <$> w_sections w0) !! i = Some (sec_sig r)) by (rewrite Hsig, list_lookup_fmap, Er; reflexivity).
    assert (Ha : (align <$> w_sections w0) !! i = Some (align r)) by (rewrite Hal, list_lookup_fmap, Er; reflexivity).
    rewrite list_lookup_fmap in Hs. rewrite list_lookup_fmap in Ha. destruct (w_sections w0 !! i) as [s0|] eqn:E0; [|discriminate Hs]. cbn in Hs, Ha. apply (inj Some) in Hs. apply (inj Some) in Ha.
    destruct (wi_fixed _ _ _ HI _ _ E0) as (s & Es & G1 & G2 & _). exists s, r. split; [exact Es|].
    split; [exact (wi_ids _ _ _ HI _ _ Es)|]. split; [reflexivity|]. split; [exact Hr|]. split; [congruence|lia].
  Qed.
  Lemma n0_ge : (14 <= length (w_sections w0))%nat.
  Proof using O.
    destruct (writer_new_ref _ _ (oc_new O)) as (Hsig & _). apply (f_equal length) in Hsig. rewrite !fmap_length in Hsig.
    pose proof (f_equal length (ref_rows (opt_hash_style (lk_options l)))) as H. rewrite fmap_length, app_length in H. change (length ref_common) with 14%nat in H. lia.
  Qed.

  (** ** Declarations from input to output *)
  Lemma rest_decls : decl null :: (decl <$> rest) = decl <$> w_sections wr.
  Proof using O. pose proof (oc_decls O) as H. apply F2_same_decl in H. exact H. Qed.
  Lemma placed_all : Forall2 only_placed (indexed (o_sort (lo_writer lo) rest)) rest'.
  Proof using O. exact (layout_only _ _ _ _ _ (oc_layout O)). Qed.
  Lemma out_decls : decl <$> out = decl <$> o_sort (lo_writer lo) rest.
  Proof using O.
    transitivity (decl <$> rest').
    - apply F2_same_decl. eapply Forall2_impl; [exact (oc_out O)|]. by intros a b [H _].
    - rewrite <- (indexed_decl (o_sort (lo_writer lo) rest)). apply F2_same_decl. eapply Forall2_impl; [exact placed_all|]. apply placed_decl.
  Qed.
  Lemma rest'_decls : decl <$> rest' = decl <$> out.
  Proof using O. symmetry. apply F2_same_decl. eapply Forall2_impl; [exact (oc_out O)|]. by intros a b [H _]. Qed.
  Lemma out_perm : decl <$> out ≡ₚ decl <$> rest.
  Proof using O V. rewrite out_decls. apply fmap_Permutation. apply (vo_sort _ V). Qed.
  Lemma out_input s : s ∈ out -> exists i sr, (0 < i)%nat /\ w_sections wr !! i = Some sr /\ decl s = decl sr.
  Proof using O V.
    intros Hs. destruct (fmap_decl_elem _ _ _ out_perm Hs) as (s' & Hs' & E). apply elem_of_list_lookup in Hs' as [i Hi].
    assert (H : (decl <$> w_sections wr) !! S i = Some (decl s)). { rewrite <- rest_decls. simpl. rewrite list_lookup_fmap, Hi. simpl. by rewrite E. }
    rewrite list_lookup_fmap in H. destruct (w_sections wr !! S i) as [sr|] eqn:Es; [|done]. cbn in H. apply (inj Some) in H.
    exists (S i), sr. split; [lia|]. done.
  Qed.
  Lemma input_out i sr : (0 < i)%nat -> w_sections wr !! i = Some sr -> exists s, s ∈ out /\ decl s = decl sr.
  Proof using O V.
    intros Hi Hs. destruct i as [|i]; [lia|].
    assert (H : (decl null :: (decl <$> rest)) !! S i = Some (decl sr)) by (rewrite rest_decls, list_lookup_fmap, Hs; done).
    simpl in H. rewrite list_lookup_fmap in H. destruct (rest !! i) as [s|] eqn:Er; [|done]. cbn in H. apply (inj Some) in H.
    destruct (fmap_decl_elem rest out s) as (s' & Hs' & E); [by rewrite out_perm|by eapply elem_of_list_lookup_2|]. exists s'. split; [done|congruence].
  Qed.
  Lemma wr_ids : sc_id <$> w_sections wr = seq 0 (length (w_sections wr)).
  Proof using O.
    apply list_eq. intros i. rewrite list_lookup_fmap. destruct (w_sections wr !! i) as [s|] eqn:E.
    - simpl. rewrite (wi_ids _ _ _ (oc_winv O) _ _ E). rewrite lookup_seq_lt; [done|]. by apply lookup_lt_is_Some_1; eexists.
    - symmetry. apply lookup_seq_ge. by apply lookup_ge_None_1.
  Qed.
  (** Each section is written once. *)
  Lemma ids_perm : sc_id <$> out ≡ₚ seq 1 (length (w_sections wr) - 1).
  Proof using O V.
    pose (f := fun d : nat * option sid * option synth * N * N * N * N => match d with (i, _, _, _, _, _, _) => i end).
    assert (Hf : forall k : list section, f <$> (decl <$> k) = sc_id <$> k) by (intros k; rewrite <- list_fmap_compose; apply list_fmap_ext; by intros).
    rewrite <- Hf, out_perm, Hf. pose proof wr_ids as H. rewrite <- (Hf (w_sections wr)), <- rest_decls, fmap_cons, Hf in H.
    change (f (decl null)) with (sc_id null) in H. destruct (length (w_sections wr)) as [|n]; [done|]. simpl in H. simpl. rewrite Nat.sub_0_r.
    apply (inj2 cons) in H as [_ ->]. done.
  Qed.
  Lemma out_nodup i j a b : out !! i = Some a -> out !! j = Some b -> sc_id a = sc_id b -> i = j.
  Proof using O V.
    intros Ha Hb E. assert (HN : NoDup (sc_id <$> out)) by (rewrite ids_perm; apply NoDup_seq).
    eapply NoDup_lookup; [exact HN| |]; rewrite list_lookup_fmap; [by rewrite Ha|rewrite Hb; simpl; by rewrite E].
  Qed.
  Lemma fixed_out i row : (0 < i)%nat -> ref_common !! i = Some row -> exists s, s ∈ out /\ sc_id s = i /\
    sh_type (sc_sh s) = row.1.1.1.1 /\ flags s = row.1.1.1.2 /\ sc_synth s = row.1.2 /\ row.2 <= align s /\
    st_name_at (w_shstrtab wr) (sh_name (sc_sh s)) = st_name_at (ref_names (opt_hash_style (lk_options l))) (sh_name (sc_sh s)) /\
    (st_name_at (w_shstrtab wr) (sh_name (sc_sh s)) = Some ".interp" <-> row.1.1.2 = true).
  Proof using O V.
    intros H0 Hi. destruct (fixed_row _ _ Hi) as (sr & r & Es & Hid & Er & Hrow & Hsig & Hal).
    destruct (input_out _ _ H0 Es) as (s & Hs & E). exists s. split; [done|].
    split; [by rewrite (decl_id _ _ E)|]. subst row. unfold ref_row. cbn [fst snd].
    assert (Hn : sh_name (sc_sh s) = sh_name (sc_sh r)) by (rewrite (decl_name _ _ E); unfold sec_sig in Hsig; congruence).
    split; [rewrite (decl_type _ _ E); unfold sec_sig in Hsig; congruence|].
    split; [rewrite (decl_flags _ _ E); unfold sec_sig in Hsig; congruence|].
    split; [rewrite (decl_synth _ _ E); unfold sec_sig in Hsig; congruence|].
    split; [by rewrite (decl_align _ _ E)|].
    assert (Hat : st_name_at (w_shstrtab wr) (sh_name (sc_sh s)) = st_name_at (ref_names (opt_hash_style (lk_options l))) (sh_name (sc_sh s))).
    { destruct (wi_prefix _ _ _ (oc_winv O)) as [tl Ht]. destruct (writer_new_ref _ _ (oc_new O)) as (_ & _ & Hnm & _).
      unfold st_name_at at 1. rewrite Ht, name_in_app, Hnm. fold (st_name_at (ref_names (opt_hash_style (lk_options l))) (sh_name (sc_sh s))).
      pose proof (ref_names_known (opt_hash_style (lk_options l))) as HK. rewrite List.Forall_forall in HK.
      destruct (HK r) as [n Hn']; [apply elem_of_list_In; by eapply elem_of_list_lookup_2|]. rewrite Hn, Hn'. reflexivity. }
    split; [exact Hat|]. rewrite Hat, Hn. symmetry. apply bool_decide_eq_true.
  Qed.

  (** ** Order *)
  Lemma out_ordered : ordered sec_before out.
  Proof using O V.
    intros i j a b Hij Ha Hb.
    destruct (fmap_decl_lookup _ _ _ _ out_decls Ha) as (a' & Ha' & Ea). destruct (fmap_decl_lookup _ _ _ _ out_decls Hb) as (b' & Hb' & Eb).
    eapply decl_before; [exact Ea|exact Eb|]. apply section_cmp_spec. destruct (vo_sort _ V rest) as [_ Hs]. by eapply Hs.
  Qed.
  Lemma out_index i s : out !! i = Some s -> sc_index s = N.of_nat (S i).
  Proof using O.
    intros Hi. destruct (Forall2_lookup_r _ _ _ _ _ (oc_out O) Hi) as (a & Ha & _ & -> & _).
    destruct (Forall2_lookup_r _ _ _ _ _ placed_all Ha) as (b & Hb & [-> _]). simpl.
    by destruct (indexed_lookup _ _ _ Hb) as (c & _ & ->).
  Qed.
  Definition no_lone_write (k : list section) : Prop := forall s, s ∈ k -> flags s <> 1.
  Lemma head_alloc : no_lone_write out -> forall s k, indexed (o_sort (lo_writer lo) rest) = s :: k -> alloc s = true.
  Proof using O V.
    intros HW s k E. destruct (fixed_out 4 _ ltac:(lia) eq_refl) as (si & Hsi & _ & _ & Hfl & _). simpl in Hfl.
    assert (Hd : decl <$> out = decl s :: (decl <$> k)) by (rewrite out_decls, <- indexed_decl, E; done).
    destruct out as [|s' k'] eqn:Eo; [done|]. rewrite fmap_cons in Hd. apply (inj2 cons) in Hd as [Hd _].
    rewrite <- (decl_alloc _ _ Hd). rewrite <- Eo in *. clear Hd E.
    assert (Hs' : out !! 0%nat = Some s') by (by rewrite Eo).
    apply elem_of_list_lookup in Hsi as [[|j] Hj].
    - assert (si = s') as -> by congruence. unfold alloc. rewrite Hfl. done.
    - pose proof (out_ordered 0%nat (S j) _ _ ltac:(lia) Hs' Hj) as HB. pose proof (HW s' ltac:(by eapply elem_of_list_lookup_2)) as H1.
      unfold sec_before in HB. rewrite Hfl in HB. assert (flags s' = 2) as E2 by lia. unfold alloc. by rewrite E2.
  Qed.
  Lemma last_flagless s : last out = Some s -> flags s = 0.
  Proof using O V.
    intros Hl. destruct (fixed_out 1 _ ltac:(lia) eq_refl) as (si & Hsi & _ & _ & Hfl & _). simpl in Hfl.
    rewrite last_lookup in Hl. apply elem_of_list_lookup in Hsi as [j Hj].
    pose proof (lookup_lt_Some _ _ _ Hj). destruct (decide (j = pred (length out))) as [->|Hne]; [congruence|].
    pose proof (out_ordered j (pred (length out)) _ _ ltac:(lia) Hj Hl) as HB. unfold sec_before in HB. lia.
  Qed.
  Lemma none_open : ly_cur st = None.
  Proof using O V.
    destruct (ly_cur st) as [ph|] eqn:Ec; [|done]. exfalso.
    pose proof (spec_inv_all _ _ _ _ _ _ _ (oc_layout O)) as SI.
    assert (Hne : out <> []). { destruct (fixed_out 1 _ ltac:(lia) eq_refl) as (si & Hsi & _). intros ->. by apply elem_of_nil in Hsi. }
    destruct (last out) as [s|] eqn:El; [|by apply last_None in El].
    pose proof (last_flagless _ El) as Hfl.
    assert (Hr : exists a, last rest' = Some a /\ flags a = 0).
    { rewrite last_lookup in El. destruct (Forall2_lookup_r _ _ _ _ _ (oc_out O) El) as (a & Ha & Hw). exists a.
      rewrite last_lookup. rewrite (Forall2_length _ _ _ (oc_out O)). split; [done|]. rewrite <- Hfl. symmetry. by eapply written_flags. }
    destruct Hr as (a & Ha & Hfa). pose proof (si_flags _ _ _ _ SI _ Ha) as E. pose proof (si_ok _ _ _ _ SI) as Hok.
    unfold cur_ok in Hok. rewrite Ec, E, Hfa in Hok. assert (N.testbit 0 1 = true) by (by apply Hok). done.
  Qed.
  Lemma x0_nonzero : x0_of (indexed (o_sort (lo_writer lo) rest)) <> 0.
  Proof using. unfold x0_of. lia. Qed.
  Lemma segs : no_lone_write out -> seg_inv (indexed (o_sort (lo_writer lo) rest)) (x0_of (indexed (o_sort (lo_writer lo) rest))) 0x200000
    (indexed (o_sort (lo_writer lo) rest)) rest' st.
  Proof using O V. intros HW. eapply seg_inv_all; [exact (oc_layout O)|by apply head_alloc|apply x0_nonzero]. Qed.
  Lemma ranges : range_inv 0x200000 0 rest' st.
  Proof using O. exact (range_inv_all _ _ _ _ _ _ _ (oc_layout O)). Qed.
  Lemma out_loads : all_loads st = loads (ly_phs st).
  Proof using O V. unfold all_loads. rewrite none_open. simpl. by rewrite app_nil_r. Qed.

  (** ** The headers of the finished file *)
  Lemma final_headers : exists ph, w_program_headers w = ph :: ly_phs st /\
    ph = mkPhdr 6 4 64 0x200040 0x200040 (u16 (blen (w_program_headers w)) * 56) (u16 (blen (w_program_headers w)) * 56) 8 /\
    e_phnum (w_eh w) = u16 (blen (w_program_headers w)) /\ e_phoff (w_eh w) = 64 /\ e_phentsize (w_eh w) = 56 /\
    e_shoff (w_eh w) = ly_file_offset st /\ e_shnum (w_eh w) = u16 (blen (w_sections w)) /\ e_ehsize (w_eh w) = 64 /\ e_shentsize (w_eh w) = 64 /\
    u16 (blen (w_program_headers w)) * 56 < 2^16.
  Proof using O.
    destruct (run_fields (oc_run O)) as (_ & _ & _ & Hfo & _ & _ & _ & _ & _ & _ & _ & _ & _ & _ & _ & _ & Hph & Heh & Hva & Hfo7 & Hsec & _).
    destruct (winv_const _ _ _ _ (oc_new O) (oc_winv O)) as (C1 & C2 & C3 & C4 & _).
    destruct (finish_spec _ _ (rn_fin (oc_run O))) as (entry & ph & phs & E1 & _ & Hlt & E2).
    cbv zeta in E2.
    assert (E7 : w_program_headers (compute_tables w7) = w_program_headers w7 /\ w_eh (compute_tables w7) = w_eh w7 /\
       w_start_p_vaddr (compute_tables w7) = w_start_p_vaddr w7 /\ w_file_offset (compute_tables w7) = w_file_offset w7) by done.
    destruct E7 as (F1 & F2 & F3 & F4). rewrite F1 in E1, E2, Hlt. rewrite F2 in E2, Hlt. rewrite F3 in E2. rewrite F4 in E2.
    rewrite Hph in E1. injection E1 as <- <-.
    rewrite Heh, C1 in E2, Hlt. rewrite Hva, C4 in E2. rewrite Hph, Hfo7 in E2. rewrite Hph in Hlt.
    clear -E2 Hlt.
    match type of E2 with w = ?x => assert (HL : blen (w_program_headers w) = blen (w_program_headers x)) by (by rewrite E2 at 1) end.
    simpl in HL. change (e_phentsize initial_ehdr) with 56 in *. change (e_phoff initial_ehdr) with 64 in *.
    exists (mkPhdr 6 4 64 0x200040 0x200040 (u16 (blen (w_program_headers w)) * 56) (u16 (blen (w_program_headers w)) * 56) 8).
    assert (HL' : blen (w_program_headers w) = blen (mkPhdr PT_PHDR PF_R 0 0 0 0 0 8 :: ly_phs st)) by (rewrite HL; done). clear HL.
    rewrite HL'. generalize dependent (blen (mkPhdr PT_PHDR PF_R 0 0 0 0 0 8 :: ly_phs st)). intros n Hlt E2 HL.
    split; [by rewrite E2|]. split; [done|]. rewrite E2. clear E2. simpl. split_and!; try reflexivity. exact Hlt.
  Qed.

  (** ** The special sections *)
  Lemma names_w : w_shstrtab w = w_shstrtab wr.
  Proof using O. by destruct (run_fields (oc_run O)). Qed.
  Lemma special_id s : stt_total_len (w_shstrtab w) < 2^32 -> s ∈ out -> is_special (w_shstrtab wr) s -> sc_id s = 4%nat \/ sc_id s = 10%nat.
  Proof using O V.
    rewrite names_w. intros Ht Hs Hsp. destruct (out_input s Hs) as (i & sr & Hi0 & Hi & E). pose proof (oc_winv O) as HI.
    assert (Hid : sc_id s = i) by (rewrite (decl_id _ _ E); exact (wi_ids _ _ _ HI _ _ Hi)).
    destruct (decide (i < length (w_sections w0))%nat) as [Hlt|Hge].
    - (* an initial section *)
      destruct (writer_new_ref _ _ (oc_new O)) as (Hsig & _ & Hnm & _).
      set (hs := opt_hash_style (lk_options l)) in *.
      apply lookup_lt_is_Some_2 in Hlt as [s0 E0]. destruct (wi_fixed _ _ _ HI _ _ E0) as (s1 & Es & G1 & _).
      assert (s1 = sr) as -> by congruence.
      assert (Hsr : (sec_sig <$> ref_sections hs) !! i = Some (sec_sig s0)) by (rewrite <- Hsig, list_lookup_fmap, E0; reflexivity).
      rewrite list_lookup_fmap in Hsr. destruct (ref_sections hs !! i) as [r|] eqn:Er; [|discriminate Hsr]. cbn in Hsr. apply (inj Some) in Hsr.
      assert (Hn : sh_name (sc_sh s) = sh_name (sc_sh r)) by (rewrite (decl_name _ _ E); unfold sec_sig in *; congruence).
      assert (Hty : sh_type (sc_sh s) = sh_type (sc_sh r)) by (rewrite (decl_type _ _ E); unfold sec_sig in *; congruence).
      assert (Hat : st_name_at (w_shstrtab wr) (sh_name (sc_sh s)) = st_name_at (ref_names hs) (sh_name (sc_sh r))).
      { destruct (wi_prefix _ _ _ HI) as [tl Htl]. unfold st_name_at at 1. rewrite Htl, name_in_app, Hnm, Hn.
        fold (st_name_at (ref_names hs) (sh_name (sc_sh r))).
        pose proof (ref_names_known hs) as HK. rewrite List.Forall_forall in HK.
        destruct (HK r) as [n Hn']; [apply elem_of_list_In; eapply elem_of_list_lookup_2; exact Er|]. rewrite Hn'. reflexivity. }
      assert (Hrow : (ref_row hs <$> ref_sections hs) !! i = Some (ref_row hs r)) by (rewrite list_lookup_fmap, Er; reflexivity).
      rewrite ref_rows in Hrow. unfold is_special in Hsp. rewrite Hat, Hty in Hsp. unfold ref_row in Hrow.
      assert (Hsp' : sh_type (sc_sh r) = 6 \/ bool_decide (st_name_at (ref_names hs) (sh_name (sc_sh r)) = Some ".interp") = true)
        by (destruct Hsp as [Hsp|Hsp]; [left; exact Hsp|right; apply bool_decide_eq_true_2; exact Hsp]).
      clear Hsp. rename Hsp' into Hsp. rewrite Hid. clear -Hsp Hrow.
      revert Hsp Hrow. generalize (bool_decide (st_name_at (ref_names hs) (sh_name (sc_sh r)) = Some ".interp")).
      generalize (sh_type (sc_sh r)). generalize (flags r), (sc_synth r), (align r). clearbody hs. clear. intros f sy a t b Hsp Hrow.
      unfold ref_common, ref_hash_row, ref_gnu_row in Hrow.
      do 10 (destruct i as [|i]; [simpl in Hrow; injection Hrow; intros; subst; try (right; reflexivity); try (left; reflexivity);
         destruct Hsp as [Hsp|Hsp]; discriminate Hsp|]).
      destruct i as [|i]; [by right|].
      do 3 (destruct i as [|i]; [simpl in Hrow; injection Hrow; intros; subst; destruct Hsp as [Hsp|Hsp]; discriminate Hsp|]).
      destruct hs; destruct i as [|[|i]]; simpl in Hrow; try discriminate Hrow; injection Hrow; intros; subst; destruct Hsp as [Hsp|Hsp]; discriminate Hsp.
    - (* an input section *)
      exfalso. destruct (wi_new _ _ _ HI i sr ltac:(lia) Hi) as (_ & _ & _ & Hty & _).
      destruct Hsp as [Hsp|Hsp].
      { apply Hty. rewrite <- (decl_type _ _ E), Hsp. apply elem_of_list_In. simpl. tauto. }
      destruct (wi_names _ _ _ HI i sr ltac:(lia) Hi) as (n & o & Hn & Hsn).
      pose proof (st_reach_ok _ (wi_st _ _ _ HI)) as Hok.
      destruct (ref_name_interp (opt_hash_style (lk_options l))) as [o4 H4].
      destruct (writer_new_ref _ _ (oc_new O)) as (_ & _ & Hnm & _).
      assert (H4' : stt_names (w_shstrtab wr) !! 4%nat = Some (".interp", (4, o4))).
      { destruct (wi_prefix _ _ _ HI) as [tl Htl]. rewrite Htl, Hnm. by apply lookup_app_l_Some. }
      assert (Hu : u32 o = o).
      { unfold u32. apply N.mod_small. destruct (ok_entry _ Hok _ _ _ _ Hn) as [_ Ho].
        pose proof (ok_total _ Hok) as Htot. rewrite <- (take_drop i (stt_names (w_shstrtab wr))), emit_app, blen_app in Htot. change (2^32) with 4294967296 in *. lia. }
      rewrite (decl_name _ _ E), Hsn, Hu in Hsp.
      apply (reverse_lookup _ _ _ _ (wi_st _ _ _ HI) (Permutation_refl _)) in Hsp as (e & He & Heo).
      unfold st_get in He. assert (Ha : ModelTables.assoc ".interp" (stt_names (w_shstrtab wr)) = Some (4, o4)).
      { apply assoc_elem_Some; [apply Hok|]. by eapply elem_of_list_lookup_2. }
      rewrite Ha in He. injection He as <-. simpl in Heo. subst o4.
      assert (4 < i)%nat as Hlt by (pose proof n0_ge; lia).
      pose proof (ok_offsets_lt _ _ _ _ _ Hok H4' Hn Hlt) as Hc. simpl in Hc. lia.
  Qed.

  (** ** .copyrel is laid out empty *)
  Lemma copyrel_laid_out a : a ∈ rest' -> sc_synth a = Some KCopyRel -> memsz a = 0.
  Proof using O V.
    intros Ha Hsy. apply elem_of_list_lookup in Ha as [i Hi].
    destruct (Forall2_lookup_r _ _ _ _ _ placed_all Hi) as (b & Hb & [Hab _]).
    destruct (indexed_lookup _ _ _ Hb) as (c & Hc & ->).
    assert (Hm : memsz a = memsz c) by (rewrite Hab; done).
    assert (Hcs : sc_synth c = Some KCopyRel) by (rewrite <- Hsy, Hab; done). rewrite Hm. clear a Hi Hb Hab Hsy Hm.
    assert (Hin : c ∈ w_sections w1). { rewrite (rn_secs1 (oc_run O)). right. destruct (vo_sort _ V rest) as [HP _]. rewrite <- HP. by eapply elem_of_list_lookup_2. }
    rewrite (sz_secs _ _ _ _ _ (rn_sizing (oc_run O))) in Hin. apply elem_of_list_fmap in Hin as (d & -> & Hd).
    assert (Hds : sc_synth d = Some KCopyRel).
    { rewrite <- Hcs. pose proof (sized_fn (lo_writer lo) ws (w_hash w1) (w_gnu_hash w1) (blen (w_dyn_rels w1)) (blen (w_plt_rels w1)) extra d) as Hsz.
      symmetry. apply decl_synth. by apply (sized_decl d). }
    apply elem_of_list_lookup in Hd as [k Hk].
    destruct (Forall2_lookup_r _ _ _ _ _ (scan_secs _ _ (sz_scan _ _ _ _ _ (rn_sizing (oc_run O)))) Hk) as (e & He & Hke & _).
    pose proof (kept_decl _ _ Hke) as Hde. unfold same_decl in Hde.
    pose proof (oc_winv O) as HI. pose proof (wi_ids _ _ _ HI _ _ He) as Hid.
    assert (Hes : sc_synth e = Some KCopyRel) by (rewrite <- (decl_synth _ _ Hde); done).
    assert (Hcr : w_copyrel ws = mkCopyrel 0 []).
    { destruct (scan_flat _ _ (sz_scan _ _ _ _ _ (rn_sizing (oc_run O)))) as (sst & _ & ->). simpl.
      by destruct (winv_const _ _ _ _ (oc_new O) HI) as (_ & _ & _ & _ & _ & _ & _ & _ & -> & _). }
    assert (Hrow : k = 13%nat /\ sh_type (sc_sh e) = 8).
    { destruct (decide (k < length (w_sections w0))%nat) as [Hlt|Hge].
      2:{ destruct (wi_new _ _ _ HI k e ltac:(lia) He) as (Hn & _). congruence. }
      destruct (writer_new_ref _ _ (oc_new O)) as (Hsig & _ & _). set (hs := opt_hash_style (lk_options l)) in *.
      apply lookup_lt_is_Some_2 in Hlt as [s0 E0]. destruct (wi_fixed _ _ _ HI _ _ E0) as (s1 & Es & G1 & _).
      assert (s1 = e) as -> by congruence.
      assert (Hsr : (sec_sig <$> ref_sections hs) !! k = Some (sec_sig s0)) by (rewrite <- Hsig, list_lookup_fmap, E0; reflexivity).
      rewrite list_lookup_fmap in Hsr. destruct (ref_sections hs !! k) as [r|] eqn:Er; [|discriminate Hsr]. cbn in Hsr. apply (inj Some) in Hsr.
      assert (Hty : sh_type (sc_sh e) = sh_type (sc_sh r)) by (unfold sec_sig in *; congruence).
      assert (Hsy : sc_synth r = Some KCopyRel) by (rewrite <- Hes; unfold sec_sig in *; congruence).
      assert (Hrow : (ref_row hs <$> ref_sections hs) !! k = Some (ref_row hs r)) by (rewrite list_lookup_fmap, Er; reflexivity).
      rewrite ref_rows in Hrow. unfold ref_row in Hrow. rewrite Hsy in Hrow. rewrite Hty. clear -Hrow.
      revert Hrow. generalize (bool_decide (st_name_at (ref_names hs) (sh_name (sc_sh r)) = Some ".interp")).
      generalize (sh_type (sc_sh r)). generalize (flags r), (align r). clearbody hs. clear. intros f a t b Hrow.
      unfold ref_common, ref_hash_row, ref_gnu_row in Hrow.
      do 13 (destruct k as [|k]; [discriminate Hrow|]). destruct k as [|k]; [injection Hrow; intros; subst; split; reflexivity|].
      destruct hs; destruct k as [|[|k]]; discriminate Hrow. }
    destruct Hrow as [-> Hty].
    assert (Hid' : sc_id d = 13%nat) by (rewrite (decl_id _ _ Hde); done).
    assert (Hty' : sh_type (sc_sh d) = 8) by (rewrite (decl_type _ _ Hde); done).
    clear -Hid' Hty' Hds Hcr. unfold size_fn, pre_dynamic.
    rewrite (on_ne id_got), (on_ne id_got_plt), (on_ne id_dynsym) by (rewrite Hid'; discriminate).
    cbv beta. rewrite Hty'. change (8 =? SHT_DYNSYM) with false. cbv iota. unfold sec_expand. rewrite Hds.
    assert (E : sc_id (ModelWriter.set_size (cr_size (w_copyrel (ws <| w_hash := w_hash w1 |> <| w_gnu_hash := w_gnu_hash w1 |>))) d) = 13%nat) by exact Hid'.
    rewrite (on_ne id_dynrel), (on_ne id_pltrel), (on_ne id_dynamic) by (rewrite E; discriminate).
    change (cr_size (w_copyrel ws) = 0). by rewrite Hcr.
  Qed.
End place.
