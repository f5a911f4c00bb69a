(** Segments and special headers of a finished link. *)
From Verif Require Export ProofPlace.

Lemma up_0 : up 0 = 0.
Proof. destruct (up_spec 0) as (_ & H1 & H2). rewrite <- (N.mod_small (up 0) 0x1000); [done|lia]. Qed.
Lemma up_base : up 0x200000 = 0x200000.
Proof. pose proof (up_spec 0x200000). lia. Qed.

Section seg.
  Context {wd : world} {lo : lib_oracle} {l : linker} {fuel : nat} {w : writer} {secs : list section}
    {w0 wr ws w1 : writer} {extra : N} {null : section} {rest rest' : list section} {st : layout} {w3 w4 w5 w6 w7 : writer}
    {null' : section} {out : list section}.
  Context (O : outcome wd lo l fuel w secs w0 wr ws w1 extra null rest rest' st w3 w4 w5 w6 w7 null' out).
  Context (V : valid_oracle (lo_writer lo)).

  Lemma out_flags_rest' i a : rest' !! i = Some a -> exists b, out !! i = Some b /\ written w a b.
  Proof using O. intros H. exact (Forall2_lookup_l _ _ _ _ _ (oc_out O) H). Qed.
  Lemma rest'_out i b : out !! i = Some b -> exists a, rest' !! i = Some a /\ written w a b.
  Proof using O. intros H. exact (Forall2_lookup_r _ _ _ _ _ (oc_out O) H). Qed.

  (** ** The first section *)
  Lemma first_offset : no_lone_write out -> exists a, rest' !! 0%nat = Some a /\
    offset a = x0_of (indexed (o_sort (lo_writer lo) rest)) /\ addr a = 0x200000 + x0_of (indexed (o_sort (lo_writer lo) rest)).
  Proof using O V.
    intros HW. pose proof (oc_layout O) as HL. pose proof (head_alloc O V HW) as Hh.
    generalize dependent (x0_of (indexed (o_sort (lo_writer lo) rest))). intros x0 HL.
    pose proof (f_equal length (out_decls O)) as Hlen. rewrite !fmap_length in Hlen.
    destruct (fixed_out O V 1 _ ltac:(lia) eq_refl) as (si & Hsi & _).
    pose proof (indexed_decl (o_sort (lo_writer lo) rest)) as Hid.
    destruct (indexed (o_sort (lo_writer lo) rest)) as [|s k] eqn:E.
    { apply (f_equal length) in Hid. rewrite !fmap_length in Hid. rewrite <- Hid in Hlen. apply nil_length_inv in Hlen. rewrite Hlen in Hsi. by apply elem_of_nil in Hsi. }
    simpl in HL. apply bind_Ok in HL as ([st1 s1] & H1 & HL). apply bind_Ok in HL as ([st2 k2] & _ & [= <- <-]).
    exists s1. split; [done|]. destruct (step_spec _ _ _ _ _ H1) as (st3 & Hp & _). specialize (Hh s k eq_refl).
    inversion Hp as [x Hf Ha Hx Hst Hs|Hf Ha Hst Hs|ph Hf Ha Hst Hs|Hf Ha Hst Hs]; subst; simpl in *.
    - rewrite up_0, up_base. split; reflexivity || lia.
    - congruence.
    - exfalso. unfold alloc in Hh. rewrite Hf in Hh. done.
    - exfalso. unfold alloc in Hh. rewrite Hf in Hh. done.
  Qed.
  Lemma after_headers a : no_lone_write out -> a ∈ rest' -> x0_of (indexed (o_sort (lo_writer lo) rest)) <= offset a.
  Proof using O V.
    intros HW Ha. destruct (first_offset HW) as (a0 & H0 & E0 & _). apply elem_of_list_lookup in Ha as [[|i] Hi].
    - assert (a = a0) as -> by congruence. lia.
    - pose proof (ri_file_ord _ _ _ _ (ranges O) 0%nat (S i) _ _ ltac:(lia) H0 Hi) as Ho. cbv beta in Ho. lia.
  Qed.
  Lemma mem_after_headers a : no_lone_write out -> a ∈ rest' -> alloc a = true -> 0x200000 + x0_of (indexed (o_sort (lo_writer lo) rest)) <= addr a.
  Proof using O V.
    intros HW Ha Hal. destruct (first_offset HW) as (a0 & H0 & _ & E0).
    assert (Hal0 : alloc a0 = true).
    { destruct (Forall2_lookup_r _ _ _ _ _ (placed_all O) H0) as (b & Hb & Hp). rewrite (decl_alloc a0 b (placed_decl _ _ Hp)).
      destruct (indexed (o_sort (lo_writer lo) rest)) as [|x k] eqn:E; [done|]. eapply (head_alloc O V HW). rewrite E. simpl in Hb. injection Hb as ->. done. }
    apply elem_of_list_lookup in Ha as [[|i] Hi].
    - assert (a = a0) as -> by congruence. lia.
    - pose proof (ri_mem_ord _ _ _ _ (ranges O) 0%nat (S i) _ _ ltac:(lia) H0 Hi Hal0 Hal) as Ho. cbv beta in Ho. lia.
  Qed.

  (** ** Special headers *)
  Lemma wr_special_iff a : is_special (w_shstrtab w) a <-> is_special (w_shstrtab wr) a.
  Proof using O. by rewrite (names_w O). Qed.
  Lemma special_decl names a b : decl a = decl b -> is_special names a <-> is_special names b.
  Proof using. intros E. unfold is_special. by rewrite (decl_type _ _ E), (decl_name _ _ E). Qed.
  Lemma the_specials : stt_total_len (w_shstrtab w) < 2^32 -> exists i j a b,
    specials (w_shstrtab wr) rest' ≡ₚ [(i, a); (j, b)] /\ rest' !! i = Some a /\ rest' !! j = Some b /\
    sc_id a = 4%nat /\ sc_id b = 10%nat.
  Proof using O V.
    intros Ht.
    destruct (fixed_out O V 4 _ ltac:(lia) eq_refl) as (a1 & Ha1 & Hid1 & _ & _ & _ & _ & _ & Hn1).
    destruct (fixed_out O V 10 _ ltac:(lia) eq_refl) as (b1 & Hb1 & Hid2 & Hty2 & _). cbn [fst snd] in Hn1, Hty2.
    apply elem_of_list_lookup in Ha1 as [i Hi]. apply elem_of_list_lookup in Hb1 as [j Hj].
    destruct (rest'_out _ _ Hi) as (a & Hi' & Ea & _). destruct (rest'_out _ _ Hj) as (b & Hj' & Eb & _). unfold same_decl in Ea, Eb.
    exists i, j, a, b. assert (Ida : sc_id a = 4%nat) by (rewrite <- (decl_id _ _ Ea); done).
    assert (Idb : sc_id b = 10%nat) by (rewrite <- (decl_id _ _ Eb); done).
    split; [|done].
    assert (Hsa : is_special (w_shstrtab wr) a). { right. rewrite <- (decl_name _ _ Ea). by apply Hn1. }
    assert (Hsb : is_special (w_shstrtab wr) b). { left. by rewrite <- (decl_type _ _ Eb). }
    assert (HN : NoDup (specials (w_shstrtab wr) rest')).
    { unfold specials. apply NoDup_filter.
      apply NoDup_alt. intros p q x Hp Hq. rewrite list_lookup_imap in Hp. rewrite list_lookup_imap in Hq.
      destruct (rest' !! p); [|done]. destruct (rest' !! q); [|done]. simpl in Hp, Hq. congruence. }
    apply NoDup_Permutation; [done| |].
    - apply NoDup_cons. split; [|apply NoDup_singleton]. rewrite elem_of_list_singleton. intros [= -> ->]. congruence.
    - intros [k s]. unfold specials. rewrite elem_of_list_filter, elem_of_lookup_imap. simpl. split.
      + intros [Hs (k' & s' & [= <- <-] & Hk)]. destruct (out_flags_rest' _ _ Hk) as (s1 & Hk1 & Es & _). unfold same_decl in Es.
        assert (Hs1 : is_special (w_shstrtab wr) s1) by (by apply (special_decl _ _ _ Es)).
        destruct (special_id O V s1 Ht (elem_of_list_lookup_2 _ _ _ Hk1) Hs1) as [E|E].
        * assert (k = i) as -> by (eapply (out_nodup O V); [exact Hk1|exact Hi|congruence]). rewrite Hi' in Hk. injection Hk as ->. left.
        * assert (k = j) as -> by (eapply (out_nodup O V); [exact Hk1|exact Hj|congruence]). rewrite Hj' in Hk. injection Hk as ->. right. left.
      + intros [[= -> ->]|[[= -> ->]|[]%elem_of_nil]%elem_of_cons]%elem_of_cons; split; eauto.
  Qed.
  Lemma header_count : no_lone_write out -> stt_total_len (w_shstrtab w) < 2^32 ->
    blen (w_program_headers w) * 56 + 64 = x0_of (indexed (o_sort (lo_writer lo) rest)).
  Proof using O V.
    intros HW Ht. destruct (final_headers O) as (ph & Eph & _). rewrite Eph.
    pose proof (sg_count _ _ _ _ _ _ (segs O V HW) []) as HC. rewrite app_nil_r in HC. simpl in HC.
    pose proof (spec_inv_all _ _ _ _ _ _ _ (oc_layout O)) as SI. pose proof (Forall2_length _ _ _ (si_list _ _ _ _ SI)) as HL.
    destruct (the_specials Ht) as (i & j & a & b & HP & _). apply Permutation_length in HP. rewrite reverse_length, HP in HL. simpl in HL.
    pose proof (Permutation_length (loads_nonloads (ly_phs st))) as HL2. rewrite app_length in HL2.
    unfold x0_of, phdrs_room. rewrite HC, (out_loads O V). unfold blen. simpl. lia.
  Qed.
  Lemma special_header s : stt_total_len (w_shstrtab w) < 2^32 -> s ∈ out -> is_special (w_shstrtab w) s ->
    exists i a ph, out !! i = Some s /\ rest' !! i = Some a /\ written w a s /\ special_ok rest' ph (i, a) /\
      filter (fun ph => p_type ph = special_type s) (w_program_headers w) = [ph].
  Proof using O V.
    intros Ht Hs Hsp. rewrite wr_special_iff in Hsp.
    apply elem_of_list_lookup in Hs as [k Hk]. destruct (rest'_out _ _ Hk) as (a & Hk' & Hw). pose proof Hw as [Ed _]. unfold same_decl in Ed.
    pose proof (spec_inv_all _ _ _ _ _ _ _ (oc_layout O)) as SI. pose proof (si_list _ _ _ _ SI) as HF.
    destruct (the_specials Ht) as (i & j & ai & bj & HP & Hi & Hj & Ida & Idb).
    assert (Hlen : length (reverse (specials (w_shstrtab wr) rest')) = 2%nat) by (rewrite reverse_length; apply Permutation_length in HP; done).
    assert (HR : reverse (specials (w_shstrtab wr) rest') ≡ₚ [(i, ai); (j, bj)]) by (by rewrite reverse_Permutation).
    assert (Hin : (k, a) ∈ reverse (specials (w_shstrtab wr) rest')).
    { rewrite reverse_Permutation. unfold specials. apply elem_of_list_filter. split; [by apply (special_decl _ _ _ Ed)|]. apply elem_of_lookup_imap. eauto. }
    assert (Hty : special_type s = special_type a) by (unfold special_type; by rewrite (decl_type _ _ Ed)).
    (* the two have different types *)
    assert (Hdiff : special_type ai = 3 /\ special_type bj = 2).
    { destruct (out_flags_rest' _ _ Hi) as (o1 & Ho1 & E1 & _). destruct (out_flags_rest' _ _ Hj) as (o2 & Ho2 & E2 & _). unfold same_decl in E1, E2.
      destruct (fixed_out O V 4 _ ltac:(lia) eq_refl) as (a1 & Ha1 & Hid1 & Hty1 & _).
      destruct (fixed_out O V 10 _ ltac:(lia) eq_refl) as (b1 & Hb1 & Hid2 & Hty2 & _). cbn [fst snd] in Hty1, Hty2.
      apply elem_of_list_lookup in Ha1 as [p Hp]. apply elem_of_list_lookup in Hb1 as [q Hq].
      assert (p = i) as -> by (eapply (out_nodup O V); [exact Hp|exact Ho1|rewrite (decl_id _ _ E1); congruence]).
      assert (q = j) as -> by (eapply (out_nodup O V); [exact Hq|exact Ho2|rewrite (decl_id _ _ E2); congruence]).
      assert (a1 = o1) as -> by congruence. assert (b1 = o2) as -> by congruence.
      unfold special_type. rewrite <- (decl_type _ _ E1), <- (decl_type _ _ E2), Hty1, Hty2. done. }
    destruct (final_headers O) as (ph0 & Eph & Eph0 & _).
    assert (Hfil : forall t, t <> 6 -> t <> 1 -> filter (fun ph => p_type ph = t) (w_program_headers w) = filter (fun ph => p_type ph = t) (nonloads (ly_phs st))).
    { intros t H6 H1. rewrite Eph, filter_cons. rewrite decide_False by (rewrite Eph0; simpl; congruence).
      unfold nonloads. rewrite list_filter_filter. apply list_filter_iff. intros ph. unfold is_load. split; [|tauto]. intros E. split; [done|congruence]. }
    assert (Ht6 : special_type s <> 6 /\ special_type s <> 1) by (unfold special_type; destruct (_ =? _); done).
    rewrite Hfil by apply Ht6. clear Hfil.
    destruct (reverse (specials (w_shstrtab wr) rest')) as [|x1 [|x2 [|]]] eqn:Erev; try done. clear Hlen.
    inversion HF as [|ph1 ? nl1 ? Hok1 HF1 Enl]; subst. inversion HF1 as [|ph2 ? nl2 ? Hok2 HF2]; subst. inversion HF2; subst.
    assert (Hx12 : special_type x1.2 <> special_type x2.2).
    { assert (H2 : special_type <$> [x1; x2].*2 ≡ₚ special_type <$> [(i, ai); (j, bj)].*2) by (by rewrite HR).
      simpl in H2. destruct Hdiff as [D1 D2]. rewrite D1, D2 in H2. intros E. rewrite E in H2.
      assert (H3 : 3 ∈ [special_type x2.2; special_type x2.2]) by (rewrite H2; left).
      assert (H4 : 2 ∈ [special_type x2.2; special_type x2.2]) by (rewrite H2; right; left).
      rewrite elem_of_cons, elem_of_list_singleton in H3. rewrite elem_of_cons, elem_of_list_singleton in H4. clear -H3 H4. lia. }
    pose proof (proj1 (proj1 Hok1)) as P1. pose proof (proj1 (proj1 Hok2)) as P2.
    exists k, a. apply elem_of_cons in Hin as [<-|Hin].
    - exists ph1. split; [done|]. split; [done|]. split; [done|]. split; [done|]. simpl in P1, Hx12.
      rewrite !filter_cons, filter_nil. rewrite decide_True by congruence. rewrite decide_False by congruence. done.
    - apply elem_of_list_singleton in Hin as <-. exists ph2. split; [done|]. split; [done|]. split; [done|]. split; [done|]. simpl in P2, Hx12.
      rewrite !filter_cons, filter_nil. rewrite decide_False by congruence. rewrite decide_True by congruence. done.
  Qed.
End seg.
