(** What the writer's sections look like after all input was added, for
    ordinary inputs. *)
From Verif Require Export ProofWriter.

(** * Sections whose id is their position *)
Definition ids_ok (l : list section) : Prop := forall i s, l !! i = Some s -> sc_id s = i.

Lemma ids_ok_from (l : list section) k : (forall i s, l !! i = Some s -> sc_id s = (k + i)%nat) ->
  forall id, get_section id l = if decide (k <= id)%nat then l !! (id - k)%nat else None.
Proof.
  revert k; induction l as [|s l IH]; intros k H id; simpl; [by case_decide|].
  pose proof (H 0%nat s eq_refl) as Hs. rewrite Nat.add_0_r in Hs. rewrite Hs.
  destruct (Nat.eqb_spec k id) as [->|Hne].
  - rewrite decide_True by done. by rewrite Nat.sub_diag.
  - rewrite (IH (S k)).
    + destruct (decide (k <= id)%nat) as [Hk|Hk].
      * rewrite decide_True by lia. replace (id - k)%nat with (S (id - S k)) by lia. done.
      * rewrite decide_False by lia. done.
    + intros i x Hi. rewrite (H (S i) x Hi). lia.
Qed.
Lemma get_section_ids l id : ids_ok l -> get_section id l = l !! id.
Proof. intros H. rewrite (ids_ok_from l 0 H), decide_True by lia. by rewrite Nat.sub_0_r. Qed.
Lemma upd_section_ids l id f : ids_ok l -> upd_section id f l = alter f id l.
Proof.
  intros H. apply list_eq. intros i. unfold upd_section. rewrite list_lookup_fmap.
  destruct (decide (i = id)) as [->|Hne].
  - rewrite list_lookup_alter. destruct (l !! id) as [s|] eqn:E; [|done]. simpl. rewrite (H _ _ E), Nat.eqb_refl. done.
  - rewrite list_lookup_alter_ne by done. destruct (l !! i) as [s|] eqn:E; [|done]. simpl.
    rewrite (H _ _ E). by rewrite (proj2 (Nat.eqb_neq i id)).
Qed.

(** * Names *)
Lemma ref_names_reserved style n : n ∈ (stt_names (ref_names style)).*1 -> n = "" \/ n ∈ reserved.
Proof.
  assert (H : forall style, forallb (fun n => bool_decide (n = "" \/ n ∈ reserved)) (stt_names (ref_names style)).*1 = true)
    by (intros []; vm_compute; reflexivity).
  intros Hin. specialize (H style). rewrite forallb_forall in H. specialize (H n). rewrite <- elem_of_list_In in H. specialize (H Hin).
  by apply bool_decide_eq_true in H.
Qed.

Lemma add_section_cases n0 w0 w name sh data w' sr : winv n0 w0 w -> add_section w name sh data = Ok (w', sr) ->
  (exists i s o, stt_names (w_shstrtab w) !! i = Some (name, (N.of_nat i, o)) /\ w_sections w !! i = Some s /\
     (data = None -> sc_chunks s <> []) /\
     sr = mkSref i (match data with Some _ => length (sc_chunks s) | None => length (sc_chunks s) - 1 end)%nat /\
     w' = w <| w_sections := <[i := s <| sc_sh := sc_sh s <| sh_size := memsz s + sh_size sh |> <| sh_addralign := N.max (align s) (sh_addralign sh) |> |>
                                      <| sc_chunks := match data with Some d => sc_chunks s ++ [chunk_new d] | None => sc_chunks s end |> ]> (w_sections w) |>) \/
  (name ∉ (stt_names (w_shstrtab w)).*1 /\ sr = mkSref (length (w_sections w)) 0 /\
   exists o, stt_names (w_shstrtab w') = stt_names (w_shstrtab w) ++ [(name, (N.of_nat (length (w_sections w)), o))] /\
     w_sections w' = w_sections w ++ [section_new (length (w_sections w)) (sh <| sh_name := u32 o |> <| sh_addr := 0 |> <| sh_offset := 0 |>)
                                        <| sc_chunks := [chunk_new (default [] data)] |>]).
Proof.
  intros HI H. unfold add_section in H. destruct (st_get_or_create (w_shstrtab w) name) as [names e] eqn:E.
  apply goc_cases in E as [(En & -> & Ea)|(En & Ei & Enames & Eidx & Eoff)]; rewrite En in H.
  - left. apply bind_Ok in H as (s & Hs & H). apply index_Ok in Hs. simpl in Hs.
    destruct (ok_assoc _ _ _ _ (st_reach_ok _ (wi_st _ _ _ HI)) Ea) as (j & Hj & Hidx & _).
    rewrite Hidx in Hs, H, Hj. rewrite Nat2N.id in *.
    assert (Hid : sc_id s = j) by (by eapply wi_ids).
    assert (Hww : w <| w_shstrtab := w_shstrtab w |> = w) by (by destruct w). rewrite Hww in *. clear Hww.
    exists j, s, (en_offset e). split; [done|]. split; [done|].
    destruct data as [d|].
    + injection H as <- <-. split; [done|]. split; [by rewrite <- Hid|]. done.
    + destruct (sc_chunks _) as [|c cs] eqn:Ec in H; [done|]. simpl in Ec. injection H as <- <-.
      split; [by rewrite Ec|]. split; [rewrite Ec, <- Hid; done|]. destruct s; simpl in *. done.
  - right. injection H as <- <-. split.
    { apply assoc_None_iff. subst names. unfold intern, st_get_or_create in Enames. destruct (assoc name (stt_names (w_shstrtab w))) as [[i o]|] eqn:Ea; [|done].
      exfalso. simpl in Enames. apply (f_equal length) in Enames. rewrite app_length in Enames. simpl in Enames. lia. }
    split; [done|]. exists (en_offset e). simpl. split; [|done]. rewrite Enames. repeat f_equal. unfold blen. by rewrite (wi_len _ _ _ HI).
Qed.

Section plain.
  Context (wd : world) (l : linker) (n0 : nat) (w0 : writer).
  Context (Hplain : plain_inputs wd l) (Hw0 : writer_new (lk_options l) = Ok w0) (Hn0 : n0 = length (w_sections w0)).

  (** What holds of a section made from input. *)
  Definition from_input (names : entries) (i : nat) (s : section) : Prop :=
    (exists e name sh o, input_section wd l e name sh /\ names !! i = Some (name, (N.of_nat i, o)) /\
       sh_type sh = sh_type (sc_sh s) /\ sh_flags sh = flags s) /\
    (if is_nobits s then contents s = [] else blen (contents s) = memsz s) /\
    sc_chunks s <> [] /\ Forall (fun c => c_address c = None) (sc_chunks s).

  Record pinv (w : writer) : Prop := {
    pv_w : winv n0 w0 w;
    pv_fixed : forall i, (0 < i < n0)%nat -> w_sections w !! i = w_sections w0 !! i;
    pv_null : exists s, w_sections w !! 0%nat = Some s /\ contents s = [] /\ memsz s = 0;
    pv_new : forall i s, (n0 <= i)%nat -> w_sections w !! i = Some s -> from_input (stt_names (w_shstrtab w)) i s }.

  (** Growth. *)
  Definition wext (w w' : writer) : Prop :=
    (exists tl, stt_names (w_shstrtab w') = stt_names (w_shstrtab w) ++ tl) /\
    (forall i s, w_sections w !! i = Some s -> exists s', w_sections w' !! i = Some s' /\ grown s s').
  Lemma wext_refl w : wext w w.
  Proof. split; [exists []; by rewrite app_nil_r|]. intros i s Hi. exists s. split; [done|apply grown_refl]. Qed.
  Lemma wext_trans a b c : wext a b -> wext b c -> wext a c.
  Proof.
    intros [[t1 H1] G1] [[t2 H2] G2]. split; [exists (t1 ++ t2); by rewrite H2, H1, app_assoc|].
    intros i s Hi. destruct (G1 i s Hi) as (s1 & Hs1 & Hg1). destruct (G2 i s1 Hs1) as (s2 & Hs2 & Hg2).
    exists s2. split; [done|]. by eapply grown_trans.
  Qed.
  Lemma wext_F2 w w' : w_shstrtab w' = w_shstrtab w -> Forall2 grown (w_sections w) (w_sections w') -> wext w w'.
  Proof.
    intros Hs HF. split; [exists []; by rewrite Hs, app_nil_r|]. intros i s Hi. exact (Forall2_lookup_l _ _ _ _ _ HF Hi).
  Qed.

  (** A reference stands for a section of an object. *)
  Definition rsec (e : elf_obj) (k : nat) (w : writer) (sr : section_ref) : Prop :=
    exists sh name data o s c, eo_shdrs e !! k = Some sh /\ sh_type sh ∉ SKIPPED_SECTIONS /\
      eo_shstr e (sh_name sh) = Some name /\ section_data (eo_data e) sh = Ok data /\
      stt_names (w_shstrtab w) !! sr_section sr = Some (name, (N.of_nat (sr_section sr), o)) /\
      w_sections w !! sr_section sr = Some s /\ sc_chunks s !! sr_chunk sr = Some c /\
      c_data c = default [] data /\ (sr_section sr = 0%nat \/ (n0 <= sr_section sr)%nat).
  Lemma rsec_mono e k w w' sr : wext w w' -> rsec e k w sr -> rsec e k w' sr.
  Proof.
    intros [[tl Htl] Hg] (sh & name & data & o & s & c & H1 & H2 & H3 & H4 & H5 & H6 & H7 & H8 & H9).
    destruct (Hg _ _ H6) as (s' & Hs' & _ & _ & Hc). destruct (Hc _ _ H7) as (c' & Hc' & Hd & _).
    exists sh, name, data, o, s', c'. split_and!; try done; [|congruence]. rewrite Htl. by apply lookup_app_l_Some.
  Qed.

  Lemma prefix_names w i n p : winv n0 w0 w -> stt_names (w_shstrtab w) !! i = Some (n, p) -> (i < n0)%nat -> n = "" \/ n ∈ reserved.
  Proof using Hw0 Hn0.
    intros HI Hi Hlt. destruct (wi_prefix _ _ _ HI) as [tl Htl]. destruct (writer_new_ref _ _ Hw0) as (Hsig & _ & Hnm & _).
    assert (Hln : length (stt_names (w_shstrtab w0)) = n0).
    { rewrite Hnm, Hn0. apply (f_equal length) in Hsig. rewrite !fmap_length in Hsig. rewrite Hsig.
      generalize (opt_hash_style (lk_options l)). intros []; vm_compute; reflexivity. }
    rewrite Htl, lookup_app_l in Hi by lia. apply (ref_names_reserved (opt_hash_style (lk_options l))). rewrite <- Hnm.
    apply elem_of_list_fmap. exists (n, p). split; [done|]. by eapply elem_of_list_lookup_2.
  Qed.
  Lemma name_0 w i p : winv n0 w0 w -> stt_names (w_shstrtab w) !! i = Some ("", p) -> i = 0%nat.
  Proof.
    intros HI Hi. pose proof (st_reach_ok _ (wi_st _ _ _ HI)) as Hok. destruct (ok_first _ Hok) as [rest Hr].
    eapply (NoDup_lookup _ i 0%nat ""); [apply (ok_nodup _ Hok)| |].
    - rewrite list_lookup_fmap, Hi. done.
    - rewrite Hr. done.
  Qed.
  Lemma n0_pos : (0 < n0)%nat.
  Proof using Hw0 Hn0.
    destruct (writer_new_ref _ _ Hw0) as (Hsig & _). apply (f_equal length) in Hsig. rewrite !fmap_length in Hsig. rewrite Hn0, Hsig.
    generalize (opt_hash_style (lk_options l)). intros []; vm_compute; lia.
  Qed.
  Lemma n0_le w : winv n0 w0 w -> (n0 <= length (w_sections w))%nat.
  Proof.
    intros HI. rewrite (wi_n0 _ _ _ HI). destruct (decide (length (w_sections w0) <= length (w_sections w))%nat) as [|Hlt]; [done|].
    destruct (lookup_lt_is_Some_2 (w_sections w0) (length (w_sections w))) as [x Hx]; [lia|].
    destruct (wi_fixed _ _ _ HI _ _ Hx) as (s & Hs & _). apply lookup_lt_Some in Hs. lia.
  Qed.

  Lemma contents_app s cs : contents (s <| sc_chunks := sc_chunks s ++ cs |>) = contents s ++ (cs ≫= c_data).
  Proof. unfold contents. simpl. by rewrite bind_app. Qed.

  Lemma pinv_section w e k name sh data w' sr : pinv w -> input_section wd l e name sh -> eo_shdrs e !! k = Some sh ->
    section_data (eo_data e) sh = Ok data -> add_section w name sh data = Ok (w', sr) -> pinv w' /\ wext w w' /\ rsec e k w' sr.
  Proof using Hplain Hw0 Hn0.
    intros [HI Hfx Hnull Hnew] Hin Hk Hd Ha. pose proof (section_data_of _ _ _ Hd) as Hdo.
    assert (HI' : winv n0 w0 w') by (eapply winv_section; [done| |done]; apply Hin).
    assert (Hlen : blen (default [] data) = if sh_type sh =? 8 then 0 else sh_size sh).
    { unfold data_of in Hdo. destruct data as [d|]; simpl.
      - destruct Hdo as [H1 H2]. by rewrite (proj2 (N.eqb_neq _ _) H1).
      - by rewrite Hdo. }
    apply add_section_cases with (1 := HI) in Ha as [(i & s & o & Hnm & Hs & Hne & -> & ->)|(Hnn & -> & o & Hnm & Hsec)].
    - (* merged *)
      set (s' := s <| sc_sh := _ |> <| sc_chunks := _ |>).
      assert (Hi : i = 0%nat \/ (n0 <= i)%nat).
      { destruct (decide (n0 <= i)%nat); [by right|]. left. destruct (prefix_names w i name _ HI Hnm) as [->|Hr]; [lia| |].
        - by eapply name_0.
        - exfalso. by eapply (pi_names _ _ Hplain). }
      assert (Hs' : forall j x, <[i:=s']> (w_sections w) !! j = Some x -> (j = i /\ x = s') \/ (j <> i /\ w_sections w !! j = Some x)).
      { intros j x Hj. apply list_lookup_insert_Some in Hj as [(<- & -> & _)|[Hne' Hj]]; [by left|right; split; [congruence|done]]. }
      assert (Hlt : (i < length (w_sections w))%nat) by (by eapply lookup_lt_Some).
      assert (Hc' : contents s' = contents s ++ default [] data).
      { unfold s', contents. simpl. destruct data as [d|]; [rewrite bind_app; simpl; by rewrite app_nil_r|by rewrite app_nil_r]. }
      split; [split|split].
      + done.
      + intros j Hj. simpl. rewrite list_lookup_insert_ne by lia. by apply Hfx.
      + simpl. destruct Hi as [->|Hi].
        * rewrite list_lookup_insert by done. exists s'. split; [done|]. destruct Hnull as (s0 & E0 & Hc0 & Hm0).
          rewrite Hs in E0. injection E0 as <-.
          assert (name = "") as ->.
          { destruct (prefix_names w 0 name _ HI Hnm n0_pos) as [|Hr]; [done|]. exfalso. by eapply (pi_names _ _ Hplain). }
          pose proof (pi_null _ _ Hplain _ _ Hin) as Hz.
          assert (Hd0 : default [] data = []).
          { apply length_zero_iff_nil. rewrite Hz in Hlen. unfold blen in Hlen. destruct (_ =? _); lia. }
          split; [by rewrite Hc', Hc0, Hd0|]. unfold s', memsz. simpl. fold (memsz s). rewrite Hm0, Hz. done.
        * rewrite list_lookup_insert_ne by (pose proof n0_pos; lia). done.
      + intros j x Hj Hx. simpl in Hx. apply Hs' in Hx as [[-> ->]|[Hne' Hx]]; [|by apply Hnew].
        destruct (Hnew i s Hj Hs) as ((e1 & name1 & sh1 & o1 & Hin1 & Hnm1 & Ht1 & Hf1) & Hcz & Hcne & Hca).
        assert (name1 = name /\ o1 = o) as [-> ->] by (rewrite Hnm1 in Hnm; by injection Hnm as -> ->).
        split; [by exists e1, name, sh1, o|].
        assert (Hnb : is_nobits s' = is_nobits s) by done. rewrite Hnb.
        assert (Hag : (sh_type sh =? 8) = is_nobits s).
        { unfold is_nobits. rewrite <- Ht1. pose proof (pi_nobits _ _ Hplain _ _ _ _ _ Hin Hin1) as Hiff.
          destruct (N.eqb_spec (sh_type sh) 8), (N.eqb_spec (sh_type sh1) 8); tauto. }
        rewrite Hag in Hlen. split; [|split].
        * rewrite Hc'. unfold s', memsz. simpl. fold (memsz s). destruct (is_nobits s).
          { rewrite Hcz. simpl. apply length_zero_iff_nil. unfold blen in Hlen. lia. }
          rewrite blen_app, Hcz, Hlen. done.
        * unfold s'. simpl. destruct data; [|by apply Hne]. intros Habs. by apply app_nil in Habs as [_ ?].
        * unfold s'. simpl. destruct data; [|done]. apply Forall_app. split; [done|]. by repeat constructor.
      + simpl. split; [exists []; by rewrite app_nil_r|]. intros j x Hj. simpl. destruct (decide (i = j)) as [<-|Hne'].
        * rewrite list_lookup_insert by done. exists s'. split; [done|]. assert (x = s) as -> by congruence.
          split; [done|]. split; [unfold s', align; simpl; lia|]. intros q c Hq. unfold s'. simpl.
          destruct data; [|by eauto]. exists c. split; [by apply lookup_app_l_Some|done].
        * rewrite list_lookup_insert_ne by done. exists x. split; [done|apply grown_refl].
      + assert (Hcs : exists c, sc_chunks s' !! (match data with Some _ => length (sc_chunks s) | None => length (sc_chunks s) - 1 end)%nat = Some c /\ c_data c = default [] data).
        { unfold s'. simpl. destruct data as [d|]; simpl.
          - exists (chunk_new d). by rewrite lookup_app_r, Nat.sub_diag by done.
          - destruct (sc_chunks s) as [|c0 cs0] eqn:Ecs; [by specialize (Hne eq_refl)|].
            destruct (lookup_lt_is_Some_2 (c0 :: cs0) (length (c0 :: cs0) - 1)) as [c Hc]; [simpl; lia|].
            exists c. split; [done|]. assert (contents s = []) as Hcz.
            { destruct Hi as [->|Hi].
              - destruct Hnull as (s0 & E0 & Hc0 & _). rewrite Hs in E0. injection E0 as <-. done.
              - destruct (Hnew i s Hi Hs) as ((e1 & name1 & sh1 & o1 & Hin1 & Hnm1 & Ht1 & Hf1) & Hcz & _).
                assert (name1 = name) as -> by (rewrite Hnm1 in Hnm; by injection Hnm as ->).
                assert (is_nobits s = true) as Hnb.
                { unfold is_nobits. rewrite <- Ht1. apply N.eqb_eq. by apply (pi_nobits _ _ Hplain _ _ _ _ _ Hin Hin1). }
                by rewrite Hnb in Hcz. }
            unfold contents in Hcz. rewrite Ecs in Hcz. apply elem_of_list_lookup_2 in Hc.
            destruct (c_data c) as [|b bs] eqn:Ed; [done|]. exfalso.
            assert (b ∈ (c0 :: cs0) ≫= c_data) as Hb by (apply elem_of_list_bind; exists c; split; [rewrite Ed; set_solver|done]).
            rewrite Hcz in Hb. by apply elem_of_nil in Hb. }
        destruct Hcs as (c & Hcc & Hcd).
        exists sh, name, data, o, s', c. destruct Hin as (_ & _ & Hty & Hnmm). split_and!; try done.
        simpl. by rewrite list_lookup_insert.
    - (* new *)
      set (s1 := section_new _ _ <| sc_chunks := _ |>) in Hsec.
      pose proof (n0_le w HI) as Hle. pose proof n0_pos as Hp.
      assert (Hlk : forall i s, w_sections w' !! i = Some s -> w_sections w !! i = Some s \/ (i = length (w_sections w) /\ s = s1)).
      { intros i s Hi. rewrite Hsec in Hi. apply lookup_app_Some in Hi as [Hi|[Hge Hi]]; [by left|]. right.
        destruct (i - length (w_sections w))%nat as [|q] eqn:Eq; [|by destruct q]. injection Hi as <-. split; [lia|done]. }
      split; [split|split].
      + done.
      + intros j Hj. rewrite Hsec, lookup_app_l by lia. by apply Hfx.
      + destruct Hnull as (s0 & E0 & Hc0 & Hm0). exists s0. split; [|done]. rewrite Hsec. by apply lookup_app_l_Some.
      + intros j x Hj Hx. apply Hlk in Hx as [Hx|[-> ->]].
        * destruct (Hnew j x Hj Hx) as ((e1 & name1 & sh1 & o1 & Hin1 & Hnm1 & Ht1 & Hf1) & Hrest).
          split; [|done]. exists e1, name1, sh1, o1. split; [done|]. split; [|done]. rewrite Hnm. by apply lookup_app_l_Some.
        * split; [|split; [|split]].
          { exists e, name, sh, o. split; [done|]. split; [|done]. rewrite Hnm, lookup_app_r by (rewrite (wi_len _ _ _ HI); done).
            by rewrite (wi_len _ _ _ HI), Nat.sub_diag. }
          { unfold is_nobits, contents, memsz, s1. simpl. rewrite app_nil_r. destruct (sh_type sh =? 8); [|done].
            apply length_zero_iff_nil. unfold blen in Hlen. lia. }
          { done. }
          { by repeat constructor. }
      + split; [by eexists|]. intros j x Hj. exists x. split; [|apply grown_refl]. rewrite Hsec. by apply lookup_app_l_Some.
      + exists sh, name, data, o, s1, (chunk_new (default [] data)). destruct Hin as (_ & _ & Hty & Hnmm). split_and!; try done; simpl.
        * rewrite Hnm, lookup_app_r by (rewrite (wi_len _ _ _ HI); done). by rewrite (wi_len _ _ _ HI), Nat.sub_diag.
        * rewrite Hsec, lookup_app_r by done. by rewrite Nat.sub_diag.
        * by right.
  Qed.

  (** Adding to a chunk through a reference. *)
  Lemma pinv_mod w w' sr f : pinv w -> (forall c, c_data (f c) = c_data c /\ c_address (f c) = c_address c) ->
    (sr_section sr = 0%nat \/ (n0 <= sr_section sr)%nat) -> wconst w' = wconst w -> w_shstrtab w' = w_shstrtab w ->
    w_sections w' = upd_section (sr_section sr) (fun s => s <| sc_chunks := alter f (sr_chunk sr) (sc_chunks s) |>) (w_sections w) ->
    pinv w' /\ wext w w'.
  Proof.
    intros [HI Hfx Hnull Hnew] Hf Hsr Hcst Hst Hsec.
    assert (HF : Forall2 grown (w_sections w) (w_sections w')) by (rewrite Hsec; apply upd_grown; intros s; by apply alter_grown).
    split; [|by apply wext_F2]. rewrite upd_section_ids in Hsec by (exact (wi_ids _ _ _ HI)).
    assert (Hcon : forall s, contents (s <| sc_chunks := alter f (sr_chunk sr) (sc_chunks s) |>) = contents s).
    { intros s. unfold contents. simpl. generalize (sr_chunk sr). induction (sc_chunks s) as [|c cs IH]; intros k; [done|].
      destruct k as [|k].
      - change (alter f 0%nat (c :: cs)) with (f c :: cs). rewrite !bind_cons. by rewrite (proj1 (Hf c)).
      - change (alter f (S k) (c :: cs)) with (c :: alter f k cs). rewrite !bind_cons. by rewrite IH. }
    split.
    - by eapply winv_grow.
    - intros i Hi. rewrite Hsec, list_lookup_alter_ne by lia. by apply Hfx.
    - destruct Hnull as (s0 & E0 & Hc0 & Hm0). rewrite Hsec. destruct (decide (sr_section sr = 0%nat)) as [E|E].
      + rewrite E, list_lookup_alter, E0. simpl. eexists. split; [done|]. by rewrite Hcon.
      + rewrite list_lookup_alter_ne by done. by exists s0.
    - intros i s Hi Hs. rewrite Hsec in Hs. rewrite Hst. destruct (decide (i = sr_section sr)) as [->|E].
      + rewrite list_lookup_alter in Hs. destruct (w_sections w !! sr_section sr) as [s0|] eqn:E0; [|done]. injection Hs as <-.
        destruct (Hnew _ _ Hi E0) as (H1 & H2 & H3 & H4). split; [done|]. split; [|split].
        * rewrite Hcon. done.
        * simpl. intros Habs. apply (f_equal length) in Habs. rewrite alter_length in Habs. by apply length_zero_iff_nil in Habs.
        * simpl. apply Forall_lookup. intros j c Hj. destruct (decide (j = sr_chunk sr)) as [->|Ej].
          { rewrite list_lookup_alter in Hj. destruct (sc_chunks s0 !! _) as [c0|] eqn:Ec; [|done]. injection Hj as <-.
            rewrite (proj2 (Hf c0)). rewrite Forall_lookup in H4. by eapply H4. }
          rewrite list_lookup_alter_ne in Hj by done. rewrite Forall_lookup in H4. by eapply H4.
      + rewrite list_lookup_alter_ne in Hs by done. by apply Hnew.
  Qed.
  Lemma pinv_same w w' : pinv w -> wconst w' = wconst w -> w_shstrtab w' = w_shstrtab w -> w_sections w' = w_sections w ->
    pinv w' /\ wext w w'.
  Proof.
    intros [HI Hfx Hnull Hnew] Hc Hst Hsec.
    assert (HF : Forall2 grown (w_sections w) (w_sections w')) by (rewrite Hsec; apply Forall2_grown_refl).
    split; [|by apply wext_F2]. split; rewrite ?Hsec, ?Hst; try done. by eapply winv_grow.
  Qed.

  Lemma add_inner_secs sym o name ref names t secs names' t' secs' r :
    add_symbol_inner sym o name ref names t secs = Ok (names', t', secs', r) ->
    secs' = secs \/ exists sr, o = Some sr /\
      secs' = upd_section (sr_section sr) (fun s => s <| sc_chunks := alter (chunk_add_symbol r) (sr_chunk sr) (sc_chunks s) |>) secs.
  Proof.
    unfold add_symbol_inner. destruct (st_get_or_create names name) as [n1 e].
    destruct (syt_add_symbol _ _ _ _ _) as [[t1 r1]|]; [|done].
    destruct o as [sr|]; [|intros [= <- <- <- <-]; by left].
    destruct (_ =? _); [intros [= <- <- <- <-]; by left|].
    intros H. apply bind_Ok in H as (secs1 & H & [= <- <- <- <-]). apply mod_chunk_Ok in H as (s & c & _ & _ & ->).
    right. by exists sr.
  Qed.
  Lemma chunk_add_symbol_same r c : c_data (chunk_add_symbol r c) = c_data c /\ c_address (chunk_add_symbol r c) = c_address c.
  Proof. unfold chunk_add_symbol. by destruct (decide _). Qed.

  Lemma pinv_symbol w e i sym o name path w' r : pinv w -> sec_ref_of rsec e w i o ->
    add_symbol w sym o name path = Ok (w', r) -> pinv w' /\ wext w w'.
  Proof.
    intros HP Ho H. unfold add_symbol in H. apply bind_Ok in H as ([[[names t] secs] r1] & H & [= <- <-]).
    apply add_inner_secs in H as [->|(sr & -> & ->)].
    - by apply pinv_same.
    - eapply (pinv_mod w _ sr (chunk_add_symbol r1)); try done; [apply chunk_add_symbol_same|].
      destruct Ho as (sh & nm & data & oo & s & c & H1). apply H1.
  Qed.
  Lemma pinv_reloc w e i rel r sr w' : pinv w -> rsec e i w sr -> add_relocation w rel r sr = Ok w' -> pinv w' /\ wext w w'.
  Proof.
    intros HP Hr H. unfold add_relocation in H. destruct (_ || _); [done|].
    apply bind_Ok in H as (secs & H & [= <-]). apply mod_chunk_Ok in H as (s & c & _ & _ & ->).
    eapply (pinv_mod w _ sr (chunk_add_relocation rel r)); try done.
    destruct Hr as (sh & nm & data & oo & s1 & c1 & H1). apply H1.
  Qed.
  Lemma pinv_dyn w sym name path w' r so : pinv w -> add_dyn_symbol w sym None name path = Ok (w', r) ->
    pinv (add_needed w' so) /\ wext w (add_needed w' so).
  Proof.
    intros HP H.
    assert (Hs : w_sections w' = w_sections w /\ wconst w' = wconst w /\ w_shstrtab w' = w_shstrtab w).
    { unfold add_dyn_symbol in H. apply bind_Ok in H as ([[[names t] secs] r1] & H & H2).
      apply add_inner_secs in H as [->|(sr & ? & _)]; [|done].
      destruct (st_get _ name) as [en|]; [by apply bind_Ok in H2 as (s & _ & [= <- <-])|by injection H2 as <- <-]. }
    destruct Hs as (Hs1 & Hs2 & Hs3).
    assert (Hn : w_sections (add_needed w' so) = w_sections w' /\ wconst (add_needed w' so) = wconst w' /\ w_shstrtab (add_needed w' so) = w_shstrtab w').
    { unfold add_needed. destruct (st_get_or_create (w_dynstr w') so) as [names e]. by destruct (en_new e). }
    destruct Hn as (Hn1 & Hn2 & Hn3). apply pinv_same; [done|congruence|congruence|congruence].
  Qed.
  Lemma pinv_0 : pinv w0.
  Proof using Hw0 Hn0.
    split.
    - subst n0. by apply winv_0 with (lk_options l).
    - done.
    - destruct (writer_new_0 _ _ Hw0) as (s & Hs & Hc & Hm). exists s. split; [done|]. unfold contents. by rewrite Hc.
    - intros i s Hi Hs. apply lookup_lt_Some in Hs. lia.
  Qed.
End plain.

Lemma resolve_pinv wd lo l fuel w : plain_inputs wd l -> resolve wd lo l fuel = Ok w ->
  exists w0, writer_new (lk_options l) = Ok w0 /\ pinv wd l (length (w_sections w0)) w0 w /\
    forall p e i sh, p ∈ lk_objects l -> wd_elf wd p = Some (Some e) -> eo_is_object e = true ->
      eo_shdrs e !! i = Some sh -> sh_type sh ∉ SKIPPED_SECTIONS -> exists sr, rsec (length (w_sections w0)) e i w sr.
Proof.
  intros Hpl H. pose proof H as Hr. unfold resolve in Hr. apply bind_Ok in Hr as (w0 & Hw0 & _).
  exists w0. split; [done|].
  assert (Hx : pinv wd l (length (w_sections w0)) w0 w /\ (exists w1, writer_new (lk_options l) = Ok w1 /\ wext w1 w) /\
    forall p e, p ∈ lk_objects l -> wd_elf wd p = Some (Some e) -> eo_is_object e = true ->
      loaded (rsec (length (w_sections w0))) (fun _ _ _ _ => True) e w);
    [|destruct Hx as (H1 & _ & H3); split; [done|]; intros p e i sh Hp He Ho; destruct (H3 p e Hp He Ho) as [H4 _]; apply H4].
  eapply (resolve_refs wd l (pinv wd l (length (w_sections w0)) w0) wext (rsec (length (w_sections w0))) (fun _ _ _ _ => True)); [..|exact H].
  - apply wext_refl.
  - intros a b c. apply wext_trans.
  - intros e i w1 w2 sr _ _ HE. by apply rsec_mono.
  - done.
  - intros w1 e i name sh data w' sr HP Hin Hi Hd Ha. by eapply pinv_section.
  - intros w1 e sym o name path w' r HP _ _ _ Ho Ha. assert (Hx : pinv wd l (length (w_sections w0)) w0 w' /\ wext w1 w') by (by eapply pinv_symbol).
    destruct Hx. done.
  - intros w1 e idx rels rel sym sym' r sr w' HP _ _ _ _ _ _ HR _ _ _ Ha. by eapply pinv_reloc.
  - intros w1 path e sym name so w' r HP _ _ _ _ _ Ha. by eapply pinv_dyn.
  - intros w1 Hw1. assert (w1 = w0) as -> by congruence. by apply pinv_0.
Qed.
