(** The layout of a finished link, stated on its result. *)
From Verif Require Export ProofSeg.

(** * Neighbours *)
Record adj_inv (pre' : list section) (st : layout) : Prop := {
  aj_cur : cur_ok st;
  aj_init : pre' = [] -> ly_flags st = 0;
  aj_first : pre' <> [] -> ly_first st = None;
  aj_last : forall s, last pre' = Some s -> flags s = ly_flags st /\ (alloc s = true -> ly_p_vaddr st = addr s + memsz s);
  aj_next : forall i a b, pre' !! i = Some a -> pre' !! S i = Some b -> alloc b = true ->
     (flags a = flags b -> addr b = addr a + memsz a) /\ (flags a <> flags b -> addr b mod 0x1000 = 0) }.
Lemma adj_step pre' st s st' s' : (pre' = [] -> alloc s = true) -> adj_inv pre' st -> placed st s st' s' -> adj_inv (pre' ++ [s']) st'.
Proof.
  intros Hh [I1 I0 I2 I3 I4] Hp.
  pose proof (cur_ok_placed _ _ _ _ I1 Hp) as Hc. pose proof (placed_only _ _ _ _ Hp) as Ho.
  destruct (placed_range _ _ _ _ I1 Hp) as (_ & _ & _ & R4 & _).
  pose proof (placed_decl _ _ Ho) as Hd. unfold same_decl in Hd.
  assert (Hfl : flags s' = ly_flags st').
  { rewrite (decl_flags _ _ Hd). by inversion Hp; subst; simpl. }
  assert (Hnf : flags s = ly_flags st -> pre' <> []).
  { intros E ->. specialize (Hh eq_refl). specialize (I0 eq_refl). unfold alloc in Hh. rewrite E, I0 in Hh. done. }
  split; [done| | | |].
  - intros H. by destruct pre'.
  - intros _. inversion Hp as [x Hf Ha Hx Hst Hs|Hf Ha Hst Hs|ph Hf Ha Hst Hs|Hf Ha Hst Hs]; subst; simpl; [done| | |].
    + apply I2. intros ->. specialize (Hh eq_refl). congruence.
    + apply I2. by apply Hnf.
    + apply I2. by apply Hnf.
  - intros s1. rewrite last_snoc. intros [= <-]. split; [done|]. intros Ha. symmetry. by apply R4.
  - intros i a b Ha Hb Hal. destruct (decide (S i < length pre')%nat) as [Hlt|Hge].
    { rewrite lookup_app_l in Ha, Hb by lia. by eapply I4. }
    pose proof (lookup_lt_Some _ _ _ Hb) as Hlt. rewrite app_length in Hlt. simpl in Hlt.
    rewrite lookup_app_l in Ha by lia. rewrite lookup_app_r in Hb by lia.
    assert (S i = length pre') as El by lia. rewrite El, Nat.sub_diag in Hb. simpl in Hb. injection Hb as <-.
    assert (HL : last pre' = Some a) by (rewrite last_lookup; by rewrite <- El). destruct (I3 _ HL) as [J1 J2].
    assert (Hne : pre' <> []) by (intros ->; done). specialize (I2 Hne).
    rewrite (decl_flags _ _ Hd), J1. rewrite (decl_alloc _ _ Hd) in Hal.
    inversion Hp as [x Hf Ha' Hx Hst Hs|Hf Ha' Hst Hs|ph Hf Ha' Hst Hs|Hf Ha' Hst Hs]; subst; simpl.
    + split; [congruence|]. intros _. rewrite I2. simpl. rewrite N.add_0_r. change (up (ly_p_vaddr st) mod 0x1000 = 0). apply up_spec.
    + congruence.
    + split; [|congruence]. intros _. change (ly_p_vaddr st = addr a + memsz a). apply J2. unfold alloc in *. by rewrite J1, <- Hf.
    + split; [|congruence]. intros _. exfalso. unfold cur_ok in I1. unfold alloc in Hal. rewrite Hf in Hal. apply I1 in Hal. by rewrite Ha' in Hal.
Qed.
Lemma adj_all names l x0 va0 st' l' : mapM_st (layout_step names) l (mkLayout 0 va0 (Some x0) 0 None []) = Ok (st', l') ->
  (forall s rest, l = s :: rest -> alloc s = true) -> adj_inv l' st'.
Proof.
  intros H Hh. apply (mapM_st_trace (fun pre pre' st => length pre = length pre' /\ adj_inv pre' st)) in H; [apply H| |].
  - split; [done|]. split; simpl; try done.
  - intros pre pre' post s a s' a' El [HL HI] Hs. split; [rewrite !app_length; simpl; lia|].
    destruct (step_spec _ _ _ _ _ Hs) as (st1 & Hp & t & _ & Ht).
    assert (HI1 : adj_inv (pre' ++ [a']) st1).
    { eapply adj_step; [|exact HI|exact Hp]. intros ->. destruct pre; [|done]. by eapply Hh. }
    destruct t as [t|]; [|by subst]. destruct Ht as (ph & -> & _). destruct HI1. split; done.
Qed.

Section load.
  Context {wd : world} {lo : lib_oracle} {l : linker} {fuel : nat} {w : writer} {secs : list section}
    {w0 wr ws w1 : writer} {extra : N} {null : section} {rest rest' : list section} {st : layout} {w3 w4 w5 w6 w7 : writer}
    {null' : section} {out : list section}.
  Context (O : outcome wd lo l fuel w secs w0 wr ws w1 extra null rest rest' st w3 w4 w5 w6 w7 null' out).
  Context (V : valid_oracle (lo_writer lo)).

  Lemma secs_out i s : secs !! S i = Some s <-> out !! i = Some s.
  Proof using O. by rewrite (oc_secs O). Qed.
  Lemma null_facts : sc_id null' = 0%nat /\ sc_index null' = 0 /\ flags null' = 0.
  Proof using O.
    destruct (oc_null O) as (Hd & Hi & _). unfold same_decl in Hd.
    change (decl (null <| sc_index := 0 |>)) with (decl null) in Hd.
    destruct (fixed_row O 0%nat _ eq_refl) as (s & r & Hs & Hid & _ & Hrow & Hsig & _).
    assert (E : (decl <$> w_sections wr) !! 0%nat = Some (decl s)) by (rewrite list_lookup_fmap, Hs; done).
    rewrite <- (rest_decls O) in E. simpl in E. apply (inj Some) in E.
    split; [rewrite (decl_id _ _ Hd), (decl_id _ _ E); done|]. split; [by rewrite Hi|].
    rewrite (decl_flags _ _ Hd), (decl_flags _ _ E). unfold ref_row in Hrow. unfold sec_sig in Hsig. congruence.
  Qed.
  Lemma lone_out : (forall s, s ∈ secs -> ¬ lone_write s) -> no_lone_write out.
  Proof using O. intros H s Hs. apply (H s). rewrite (oc_secs O). by right. Qed.
  Lemma alloc_out s : s ∈ secs -> alloc s = true -> s ∈ out.
  Proof using O.
    rewrite (oc_secs O). intros [->|Hs]%elem_of_cons Ha; [|done]. exfalso. unfold alloc in Ha.
    destruct null_facts as (_ & _ & Hf). by rewrite Hf in Ha.
  Qed.

  (** ** Order *)
  Lemma out_sorted i j a b : (i < j)%nat -> out !! i = Some a -> out !! j = Some b ->
    (flags a = 0 -> flags b = 0) /\ (flags a = flags b -> align b <= align a) /\
    (flags b <> 0 -> flags a <= flags b).
  Proof using O V. intros Hij Ha Hb. pose proof (out_ordered O V i j a b Hij Ha Hb) as H. unfold sec_before in H. lia. Qed.
  Lemma out_group i j k a b c : (i < k)%nat -> (k < j)%nat -> out !! i = Some a -> out !! j = Some b -> out !! k = Some c ->
    flags a = flags b -> flags c = flags a.
  Proof using O V.
    intros Hik Hkj Ha Hb Hc E. destruct (out_sorted _ _ _ _ Hik Ha Hc). destruct (out_sorted _ _ _ _ Hkj Hc Hb). lia.
  Qed.

  (** ** Disjointness *)
  Lemma out_mem_ordered i j a b : (i < j)%nat -> out !! i = Some a -> out !! j = Some b -> alloc a = true -> alloc b = true ->
    sc_synth a <> Some KCopyRel -> addr a + memsz a <= addr b.
  Proof using O.
    intros Hij Ha Hb La Lb Hs. destruct (rest'_out O _ _ Ha) as (a' & Ha' & Wa). destruct (rest'_out O _ _ Hb) as (b' & Hb' & Wb).
    pose proof (ri_mem_ord _ _ _ _ (ranges O) _ _ _ _ Hij Ha' Hb') as H. cbv beta in H.
    rewrite (written_memsz _ _ _ Wa Hs). destruct Wa as (Da & _ & -> & _). destruct Wb as (Db & _ & -> & _).
    unfold same_decl in Da, Db. apply H; [by rewrite <- (decl_alloc _ _ Da)|by rewrite <- (decl_alloc _ _ Db)].
  Qed.
  Lemma out_addr_ordered i j a b : (i < j)%nat -> out !! i = Some a -> out !! j = Some b -> alloc a = true -> alloc b = true ->
    addr a <= addr b.
  Proof using O.
    intros Hij Ha Hb La Lb. destruct (rest'_out O _ _ Ha) as (a' & Ha' & Wa). destruct (rest'_out O _ _ Hb) as (b' & Hb' & Wb).
    pose proof (ri_mem_ord _ _ _ _ (ranges O) _ _ _ _ Hij Ha' Hb') as H. cbv beta in H.
    destruct Wa as (Da & _ & -> & _). destruct Wb as (Db & _ & -> & _).
    unfold same_decl in Da, Db. rewrite (decl_alloc _ _ Da) in La. rewrite (decl_alloc _ _ Db) in Lb. specialize (H La Lb). lia.
  Qed.
  Lemma copyrel_nobits s : s ∈ out -> sc_synth s = Some KCopyRel -> is_nobits s = true.
  Proof using O V.
    intros Hs Hsy. destruct (fixed_out O V 13 _ ltac:(lia) eq_refl) as (c & Hc & Hid & Hty & _ & Hsc & _). cbn [fst snd] in *.
    destruct (out_input O V s Hs) as (i & sr & Hi0 & Hi & E). pose proof (oc_winv O) as HI.
    assert (Hi13 : i = 13%nat).
    { assert (Hids : sc_id s = i) by (rewrite (decl_id _ _ E); exact (wi_ids _ _ _ HI _ _ Hi)).
      assert (Hsr : sc_synth sr = Some KCopyRel) by (rewrite <- (decl_synth _ _ E); done).
      destruct (decide (i < length (w_sections w0))%nat) as [Hlt|Hge].
      2:{ destruct (wi_new _ _ _ HI i sr ltac:(lia) Hi) as (Hn & _). congruence. }
      destruct (writer_new_ref _ _ (oc_new O)) as (Hsig & _ & _). set (hs := opt_hash_style (lk_options l)) in *.
      apply lookup_lt_is_Some_2 in Hlt as [s0 E0]. destruct (wi_fixed _ _ _ HI _ _ E0) as (s1 & Es & G1 & _).
      assert (s1 = sr) as -> by congruence.
      assert (Hsr' : (sec_sig <$> ref_sections hs) !! i = Some (sec_sig s0)) by (rewrite <- Hsig, list_lookup_fmap, E0; reflexivity).
      rewrite list_lookup_fmap in Hsr'. destruct (ref_sections hs !! i) as [r|] eqn:Er; [|discriminate Hsr']. cbn in Hsr'. apply (inj Some) in Hsr'.
      assert (Hsy' : sc_synth r = Some KCopyRel) by (rewrite <- Hsr; unfold sec_sig in *; congruence).
      assert (Hrow : (ref_row hs <$> ref_sections hs) !! i = Some (ref_row hs r)) by (rewrite list_lookup_fmap, Er; reflexivity).
      rewrite ref_rows in Hrow. unfold ref_row in Hrow. rewrite Hsy' in Hrow. clear -Hrow.
      revert Hrow. generalize (bool_decide (st_name_at (ref_names hs) (sh_name (sc_sh r)) = Some ".interp")).
      generalize (sh_type (sc_sh r)). generalize (flags r), (align r). clearbody hs. clear. intros f a t b Hrow.
      unfold ref_common, ref_hash_row, ref_gnu_row in Hrow.
      do 13 (destruct i as [|i]; [discriminate Hrow|]). destruct i as [|i]; [reflexivity|].
      destruct hs; destruct i as [|[|i]]; discriminate Hrow. }
    assert (sc_id s = 13%nat) as Ids. { rewrite (decl_id _ _ E), <- Hi13. exact (wi_ids _ _ _ HI _ _ Hi). }
    apply elem_of_list_lookup in Hs as [p Hp]. apply elem_of_list_lookup in Hc as [q Hq].
    assert (p = q) as -> by (eapply (out_nodup O V); [exact Hp|exact Hq|congruence]).
    assert (s = c) as -> by congruence. unfold is_nobits. rewrite Hty. done.
  Qed.
  Lemma out_filesz a b : b ∈ out -> written w a b -> filesz b = filesz a.
  Proof using O V.
    intros Hb Hw. unfold filesz. rewrite (written_nobits _ _ _ Hw). destruct (decide (sc_synth b = Some KCopyRel)) as [E|E].
    - rewrite <- (written_nobits _ _ _ Hw), (copyrel_nobits _ Hb E). done.
    - by rewrite (written_memsz _ _ _ Hw E).
  Qed.
  Lemma out_file_ordered i j a b : (i < j)%nat -> out !! i = Some a -> out !! j = Some b -> offset a + filesz a <= offset b.
  Proof using O V.
    intros Hij Ha Hb. destruct (rest'_out O _ _ Ha) as (a' & Ha' & Wa). destruct (rest'_out O _ _ Hb) as (b' & Hb' & Wb).
    pose proof (ri_file_ord _ _ _ _ (ranges O) _ _ _ _ Hij Ha' Hb') as H. cbv beta in H.
    rewrite (out_filesz _ _ (elem_of_list_lookup_2 _ _ _ Ha) Wa). destruct Wa as (_ & _ & _ & -> & _). destruct Wb as (_ & _ & _ & -> & _). done.
  Qed.
  Lemma file_ranges_ordered : no_lone_write out -> stt_total_len (w_shstrtab w) < 2^32 ->
    ordered (fun a b => a.1 + a.2 <= b.1) (file_ranges (w_eh w) (w_program_headers w) secs).
  Proof using O V.
    intros HW Ht. destruct (final_headers O) as (ph & Eph & _ & _ & Ho & _ & Hsh & _). pose proof (header_count O V HW Ht) as HC.
    unfold file_ranges. rewrite Ho, Hsh, (oc_secs O). change (drop 1 (null' :: out)) with out.
    assert (Hend : forall s, s ∈ out -> 64 + 56 * blen (w_program_headers w) <= offset s /\ offset s + filesz s <= ly_file_offset st).
    { intros s Hs. pose proof Hs as Hs'. apply elem_of_list_lookup in Hs' as [i Hi]. destruct (rest'_out O _ _ Hi) as (a & Ha & Hw).
      rewrite (out_filesz _ _ Hs Hw). pose proof (elem_of_list_lookup_2 _ _ _ Ha) as Hin.
      pose proof (after_headers O V a HW Hin). destruct (ri_file _ _ _ _ (ranges O) a Hin) as [_ He]. destruct Hw as (_ & _ & _ & -> & _). lia. }
    assert (Hx : x0_of (indexed (o_sort (lo_writer lo) rest)) <= ly_file_offset st).
    { destruct (first_offset O V HW) as (a & Ha & Ea & _). destruct (ri_file _ _ _ _ (ranges O) a (elem_of_list_lookup_2 _ _ _ Ha)). lia. }
    change ([(0, 64); (64, 56 * blen (w_program_headers w))] ++ ((fun s => (offset s, filesz s)) <$> out) ++ [(ly_file_offset st, 64 * blen (null' :: out))])
      with (([(0, 64)] ++ [(64, 56 * blen (w_program_headers w))]) ++ ((fun s => (offset s, filesz s)) <$> out) ++ [(ly_file_offset st, 64 * blen (null' :: out))]).
    rewrite app_assoc. apply ordered_snoc.
    - intros i j a b Hij Ha Hb.
      destruct j as [|[|j]]; [lia| |].
      + destruct i; [|lia]. simpl in Ha, Hb. injection Ha as <-. injection Hb as <-. simpl. lia.
      + simpl in Hb. rewrite list_lookup_fmap in Hb. destruct (out !! j) as [sb|] eqn:Eb; [|done]. injection Hb as <-. simpl.
        destruct (Hend sb (elem_of_list_lookup_2 _ _ _ Eb)) as [H1 _].
        destruct i as [|[|i]]; simpl in Ha; [injection Ha as <-; simpl; lia|injection Ha as <-; simpl; lia|].
        rewrite list_lookup_fmap in Ha. destruct (out !! i) as [sa|] eqn:Ea; [|done]. injection Ha as <-. simpl.
        apply (out_file_ordered i j); [lia|done|done].
    - intros a Ha. simpl in Ha. apply elem_of_cons in Ha as [->|Ha]; [simpl; lia|]. apply elem_of_cons in Ha as [->|Ha]; [simpl; lia|].
      apply elem_of_list_fmap in Ha as (s & -> & Hs). simpl. by apply Hend.
  Qed.

  (** ** Segments *)
  Lemma out_segment s : no_lone_write out -> s ∈ out -> alloc s = true -> sc_synth s <> Some KCopyRel ->
    exists ph, ph ∈ loads (w_program_headers w) /\ mem_inside s ph /\ file_inside s ph /\ p_flags ph = perms s /\
      (zero_fill_last secs -> is_nobits s = false -> offset s + p_vaddr ph = addr s + p_offset ph).
  Proof using O V.
    intros HW Hs Ha Hsy. pose proof Hs as Hs'. apply elem_of_list_lookup in Hs' as [i Hi]. destruct (rest'_out O _ _ Hi) as (a & Hia & Hw).
    pose proof (proj1 Hw) as Hd. unfold same_decl in Hd.
    destruct (sg_in _ _ _ _ _ _ (segs O V HW) a (elem_of_list_lookup_2 _ _ _ Hia)) as (ph & Hph & Hm & Hf & Hp & Hc).
    { by rewrite <- (decl_alloc _ _ Hd). }
    exists ph. rewrite (out_loads O V) in Hph. destruct (final_headers O) as (ph0 & Eph & Eph0 & _).
    split. { rewrite Eph. unfold loads. rewrite filter_cons, decide_False; [done|]. by rewrite Eph0. }
    unfold mem_inside, file_inside in *. rewrite (written_memsz _ _ _ Hw Hsy), (out_filesz _ _ Hs Hw).
    destruct Hw as (_ & _ & E1 & E2 & _). rewrite E1, E2. split; [done|]. split; [done|]. split; [by rewrite (decl_perms _ _ Hd)|].
    intros Hz Hn. apply Hc; [|by rewrite <- (decl_nobits _ _ Hd)].
    (* laid-out order *)
    intros p q sp sq Hpq Hsp Hsq Efl Hnb Hm0.
    destruct (Forall2_lookup_l _ _ _ _ _ (placed_all O) Hsp) as (p' & Hp' & Pp). destruct (Forall2_lookup_l _ _ _ _ _ (placed_all O) Hsq) as (q' & Hq' & Pq).
    destruct (out_flags_rest' O _ _ Hp') as (po & Hpo & Wp). destruct (out_flags_rest' O _ _ Hq') as (qo & Hqo & Wq).
    pose proof (proj1 Wp) as Dp. pose proof (proj1 Wq) as Dq. unfold same_decl in Dp, Dq.
    pose proof (placed_decl _ _ Pp) as Dp'. pose proof (placed_decl _ _ Pq) as Dq'. unfold same_decl in Dp', Dq'.
    assert (Ep : decl po = decl sp) by congruence. assert (Eq : decl qo = decl sq) by congruence.
    rewrite <- (decl_nobits _ _ Eq). rewrite <- (decl_nobits _ _ Ep) in Hnb. rewrite <- (decl_flags _ _ Ep), <- (decl_flags _ _ Eq) in Efl.
    assert (Hm' : memsz p' = memsz sp) by (destruct Pp as [-> _]; done).
    assert (Hns : sc_synth po <> Some KCopyRel).
    { intros E. apply Hm0. rewrite <- Hm'. eapply (copyrel_laid_out O V); [by eapply elem_of_list_lookup_2|]. by rewrite <- (decl_synth _ _ Dp). }
    apply (Hz (S p) (S q) po qo); [lia|by apply secs_out|by apply secs_out|done|done|done|]. by rewrite (written_memsz _ _ _ Wp Hns), Hm'.
  Qed.
  Lemma loads_final : loads (w_program_headers w) = all_loads st.
  Proof using O V.
    rewrite (out_loads O V). destruct (final_headers O) as (ph0 & Eph & Eph0 & _). rewrite Eph. unfold loads. rewrite filter_cons, decide_False; [done|].
    unfold is_load. by rewrite Eph0.
  Qed.
  Lemma out_not_segment s ph : no_lone_write out -> s ∈ out -> alloc s = false -> ph ∈ loads (w_program_headers w) ->
    offset s + filesz s <= p_offset ph \/ p_offset ph + p_filesz ph <= offset s.
  Proof using O V.
    intros HW Hs Ha Hph. pose proof Hs as Hs'. apply elem_of_list_lookup in Hs' as [i Hi]. destruct (rest'_out O _ _ Hi) as (a & Hia & Hw).
    rewrite loads_final in Hph. rewrite (out_filesz _ _ Hs Hw). pose proof (proj1 Hw) as Hd. unfold same_decl in Hd. destruct Hw as (_ & _ & _ & -> & _).
    eapply (sg_out _ _ _ _ _ _ (segs O V HW)); [by eapply elem_of_list_lookup_2| |done]. by rewrite <- (decl_alloc _ _ Hd).
  Qed.
  Lemma load_section ph : no_lone_write out -> ph ∈ loads (w_program_headers w) -> exists s, s ∈ out /\ alloc s = true /\ p_flags ph = perms s /\
    p_vaddr ph <= addr s <= p_vaddr ph + p_memsz ph.
  Proof using O V.
    intros HW Hph. rewrite loads_final in Hph.
    destruct (sg_ph _ _ _ _ _ _ (segs O V HW) ph Hph) as (_ & _ & _ & _ & _ & _ & _ & _ & a & Ha & La & Ep & Hm).
    apply elem_of_list_lookup in Ha as [i Hi]. destruct (out_flags_rest' O _ _ Hi) as (s & Hs & Hw). exists s. pose proof (proj1 Hw) as Hd. unfold same_decl in Hd.
    split; [by eapply elem_of_list_lookup_2|]. split; [by rewrite (decl_alloc _ _ Hd)|]. split; [by rewrite (decl_perms _ _ Hd)|].
    destruct Hw as (_ & _ & -> & _). unfold mem_inside in Hm. lia.
  Qed.

  (** ** Alignment *)
  Lemma out_aligned i s : no_lone_write out -> out !! i = Some s -> alloc s = true -> align s <> 0 -> 0x1000 mod align s = 0 ->
    (forall j a, (j < i)%nat -> out !! j = Some a -> flags a = flags s -> sc_synth a <> Some KCopyRel -> memsz a mod align s = 0) ->
    (flags s = 2 -> 8 mod align s = 0) -> addr s mod align s = 0.
  Proof using O V.
    intros HW Hi Ha H0 Hpg Hsz H8. set (A := align s) in *.
    assert (HD : forall x, x mod 0x1000 = 0 -> x mod A = 0).
    { intros x Hx. apply N.mod_divide in Hx; [|lia]. apply N.mod_divide in Hpg; [|done]. apply N.mod_divide; [done|]. by eapply N.divide_trans. }
    assert (HA : forall x y, x mod A = 0 -> y mod A = 0 -> (x + y) mod A = 0).
    { intros x y Hx Hy. rewrite N.add_mod, Hx, Hy by done. rewrite N.add_0_r. by apply N.mod_0_l. }
    pose proof (adj_all _ _ _ _ _ _ (oc_layout O) (head_alloc O V HW)) as HJ.
    assert (Hx0 : flags s = 2 -> (0x200000 + x0_of (indexed (o_sort (lo_writer lo) rest))) mod A = 0).
    { intros E. apply HA; [by apply HD|]. specialize (H8 E). apply N.mod_divide in H8; [|done]. apply N.mod_divide; [done|]. eapply N.divide_trans; [exact H8|].
      unfold x0_of. exists (phdrs_room (indexed (o_sort (lo_writer lo) rest)) * 7 + 8). lia. }
    (* every earlier section of the group, laid out *)
    enough (HG : forall j a, (j <= i)%nat -> rest' !! j = Some a -> flags a = flags s -> addr a mod A = 0).
    { destruct (rest'_out O _ _ Hi) as (a & Hia & Hw). pose proof (proj1 Hw) as Hd. unfold same_decl in Hd. destruct Hw as (_ & _ & -> & _).
      eapply HG; [reflexivity|exact Hia|]. by rewrite (decl_flags _ _ Hd). }
    intros j. induction j as [|j IH]; intros a Hji Hja Efl.
    - destruct (first_offset O V HW) as (a0 & E0 & _ & Ea). assert (a = a0) as -> by congruence. rewrite Ea. apply Hx0.
      destruct (out_flags_rest' O _ _ Hja) as (b & Hb & Hw). pose proof (written_flags _ _ _ Hw) as Eb. rewrite <- Efl, <- Eb.
      destruct (fixed_out O V 4 _ ltac:(lia) eq_refl) as (si & Hsi & _ & _ & Hfl & _). cbn [fst snd] in Hfl.
      apply elem_of_list_lookup in Hsi as [[|k] Hk]; [congruence|].
      pose proof (out_ordered O V 0%nat (S k) _ _ ltac:(lia) Hb Hk) as HB. unfold sec_before in HB. rewrite Hfl in HB.
      pose proof (HW b ltac:(by eapply elem_of_list_lookup_2)) as H1. lia.
    - destruct (lookup_lt_is_Some_2 rest' j) as [b Hb]. { pose proof (lookup_lt_Some _ _ _ Hja). lia. }
      assert (La : alloc a = true) by (unfold alloc in *; by rewrite Efl).
      destruct (aj_next _ _ HJ j b a Hb Hja La) as [J1 J2]. destruct (decide (flags b = flags a)) as [E|E]; [|by apply HD, J2].
      rewrite (J1 E). apply HA; [apply IH; [lia|done|congruence]|].
      destruct (out_flags_rest' O _ _ Hb) as (bo & Hbo & Hw). destruct (decide (sc_synth bo = Some KCopyRel)) as [Ec|Ec].
      + rewrite (copyrel_laid_out O V b); [by apply N.mod_0_l|by eapply elem_of_list_lookup_2|]. by rewrite <- (written_synth _ _ _ Hw).
      + rewrite <- (written_memsz _ _ _ Hw Ec). apply (Hsz j bo); [lia|done| |done]. rewrite (written_flags _ _ _ Hw). congruence.
  Qed.

  (** ** Special headers *)
  Lemma after_same_flags p q a b : out !! p = Some a -> out !! q = Some b -> flags a = flags b -> align b < align a ->
    exists j sp, q = S j /\ rest' !! j = Some sp /\ flags sp = flags b.
  Proof using O V.
    intros Hp Hq Efl Hal. assert (p < q)%nat as Hpq.
    { destruct (decide (p < q)%nat); [done|]. destruct (decide (p = q)) as [->|Hne]; [assert (a = b) as -> by congruence; lia|].
      destruct (out_sorted q p _ _ ltac:(lia) Hq Hp) as (_ & H & _). specialize (H ltac:(done)). lia. }
    destruct q as [|j]; [lia|]. exists j. destruct (lookup_lt_is_Some_2 out j) as [c Hc]. { pose proof (lookup_lt_Some _ _ _ Hq). lia. }
    destruct (rest'_out O _ _ Hc) as (sp & Hsp & Hw). exists sp. split; [done|]. split; [done|]. rewrite <- (written_flags _ _ _ Hw).
    destruct (decide (p = j)) as [->|Hne]; [congruence|]. rewrite <- Efl. eapply (out_group p (S j) j); [lia|lia|exact Hp|exact Hq|exact Hc|done].
  Qed.
  Lemma plain_align i row s : plain_inputs wd l -> (0 < i)%nat -> ref_common !! i = Some row -> s ∈ out -> sc_id s = i -> align s = row.2.
  Proof using O V.
    intros Hpl H0 Hi Hs Hid. destruct (resolve_pinv _ _ _ _ _ Hpl (oc_resolve O)) as (w0' & Hw0 & HP & _).
    assert (w0' = w0) as -> by (pose proof (oc_new O); congruence).
    destruct (writer_new_ref _ _ (oc_new O)) as (_ & Hal & _).
    destruct (fixed_row O _ _ Hi) as (sr & r & Hsr & Hids & Hr & Hrow & _).
    assert (Hlt : (i < length (w_sections w0))%nat). { pose proof (n0_ge O). pose proof (lookup_lt_Some _ _ _ Hi) as HL. change (length ref_common) with 14%nat in HL. lia. }
    rewrite (pv_fixed _ _ _ _ _ HP) in Hsr by lia.
    assert (Ha : (align <$> w_sections w0) !! i = Some (align sr)) by (rewrite list_lookup_fmap, Hsr; reflexivity).
    rewrite Hal, list_lookup_fmap, Hr in Ha. cbn in Ha. apply (inj Some) in Ha.
    destruct (out_input O V s Hs) as (k & sk & Hk0 & Hk & E).
    assert (k = i) as -> by (rewrite <- Hid, (decl_id _ _ E); symmetry; exact (wi_ids _ _ _ (oc_winv O) _ _ Hk)).
    rewrite (pv_fixed _ _ _ _ _ HP) in Hk by lia. assert (sk = sr) as -> by congruence.
    rewrite (decl_align _ _ E), <- Ha, <- Hrow. reflexivity.
  Qed.
  Lemma special_addr k i s : plain_inputs wd l -> stt_total_len (w_shstrtab w) < 2^32 ->
    s ∈ out -> sc_id s = i -> (i = 4%nat /\ k = 9%nat \/ i = 10%nat /\ k = 13%nat) ->
    exists ph, filter (fun ph => p_type ph = special_type s) (w_program_headers w) = [ph] /\
      describes ph s /\ p_vaddr ph = addr s.
  Proof using O V.
    intros Hpl Ht Hs Hid Hcase.
    assert (Hf : exists row krow, ref_common !! i = Some row /\ ref_common !! k = Some krow /\ (0 < i)%nat /\ (0 < k)%nat /\
       row.1.1.1.2 = krow.1.1.1.2 /\ row.2 < krow.2 /\ N.testbit row.1.1.1.2 1 = true /\ row.1.2 = None /\ (row.1.1.2 = true \/ row.1.1.1.1 = 6)).
    { destruct Hcase as [[-> ->]|[-> ->]]; (eexists _, _; split; [reflexivity|]; split; [reflexivity|]; cbn; split_and!; try lia; try done; try (by left); by right). }
    destruct Hf as (row & krow & Hrow & Hkrow & Hi0 & Hk0 & Hfe & Hae & Hte & Hse & Hspec).
    destruct (fixed_out O V i _ Hi0 Hrow) as (s1 & Hs1 & Hid1 & Hty & Hfl & Hsy & _ & _ & Hnm).
    destruct (fixed_out O V k _ Hk0 Hkrow) as (sk & Hsk & Hidk & _ & Hflk & _ & _).
    assert (s1 = s) as ->.
    { apply elem_of_list_lookup in Hs as [p Hp]. apply elem_of_list_lookup in Hs1 as [q Hq].
      assert (p = q) as -> by (eapply (out_nodup O V); [exact Hp|exact Hq|congruence]). congruence. }
    assert (Hsp : is_special (w_shstrtab w) s).
    { apply (wr_special_iff O). destruct Hspec as [H|H]; [right; by apply Hnm|left; congruence]. }
    destruct (special_header O V s Ht Hs Hsp) as (p & a & ph & Hp & Hpa & Hw & [Hd Hpred] & Hfil).
    exists ph. split; [done|]. pose proof (proj1 Hw) as Ed. unfold same_decl in Ed.
    assert (Hns : sc_synth s <> Some KCopyRel) by congruence. split.
    - destruct Hd as (D1 & D2 & D3 & D4 & D5 & D6 & D7). cbn [snd] in *.
      split_and!; [rewrite D1; unfold special_type; by rewrite (decl_type _ _ Ed)| | | | |by unfold writable; rewrite D6, (decl_flags _ _ Ed)|done].
      + rewrite D2. by destruct Hw as (_ & _ & _ & -> & _).
      + rewrite D3. symmetry. by apply out_filesz.
      + rewrite D4. symmetry. by apply (written_memsz w).
      + rewrite D5. symmetry. by apply decl_align.
    - apply elem_of_list_lookup in Hsk as [q Hq].
      destruct (after_same_flags q p sk s Hq Hp) as (j & sp & -> & Hsp' & Hfsp); [congruence| |].
      { rewrite (plain_align i row s Hpl Hi0 Hrow Hs Hid). rewrite (plain_align k krow sk Hpl Hk0 Hkrow); [done|by eapply elem_of_list_lookup_2|done]. }
      rewrite (Hpred j sp eq_refl Hsp'); cbn [snd].
      + symmetry. by destruct Hw as (_ & _ & -> & _).
      + rewrite Hfsp. by apply decl_flags.
      + rewrite <- (decl_alloc _ _ Ed). unfold alloc. by rewrite Hfl.
  Qed.
End load.
