(** What becomes of the input sections in a finished link. *)
From Verif Require Export ProofSecs ProofSpecial SpecMerge.

(** * Addresses of chunks *)
Lemma set_chunk_lookup base cs j : set_chunk_addresses base cs !! j = chunk_set_address (base + ntotal (blen <$> take j (c_data <$> cs))) <$> cs !! j.
Proof.
  revert base j. induction cs as [|c cs IH]; intros base j; [done|]. destruct j as [|j]; simpl.
  - f_equal. f_equal. unfold ntotal. simpl. lia.
  - rewrite IH. destruct (cs !! j); [|done]. cbn [fmap option_fmap option_map]. do 2 f_equal. rewrite <- N.add_assoc. reflexivity.
Qed.
Definition addressed (s s' : section) : Prop :=
  if alloc s then sc_chunks s' = set_chunk_addresses (addr s') (sc_chunks s) else sc_chunks s' = sc_chunks s /\ addr s' = addr s.
Definition cur_alloc (st : layout) : Prop := N.testbit (ly_flags st) 1 = match ly_cur st with Some _ => true | None => false end.
Lemma place_at_addressed a o s : alloc s = true -> addressed s (place_at a o s).
Proof. intros H. unfold addressed. rewrite H. done. Qed.
Lemma move_to_addressed o s : alloc s = false -> addressed s (move_to o s).
Proof. intros H. unfold addressed. rewrite H. done. Qed.
Lemma layout_addressed names l st st' l' : cur_alloc st -> mapM_st (layout_step names) l st = Ok (st', l') -> Forall2 addressed l l'.
Proof.
  intros H0 H. apply (mapM_st_trace (fun pre pre' st => Forall2 addressed pre pre' /\ cur_alloc st)) in H; [by destruct H|by split|].
  intros pre pre' post s a s' a' _ [HF Hc] Hs. destruct (step_spec _ _ _ _ _ Hs) as (st1 & Hp & t & _ & Ht).
  assert (Hs1 : ly_flags s' = ly_flags st1 /\ ly_cur s' = ly_cur st1).
  { destruct t; [|by subst]. destruct Ht as (ph & -> & _). done. }
  unfold cur_alloc. rewrite (proj1 Hs1), (proj2 Hs1). clear Hs Hs1 Ht. unfold cur_alloc in Hc.
  destruct Hp as [x Hf Ha Hx|Hf Ha|ph Hf Hcur|Hf Hcur]; simpl.
  - split; [|by rewrite <- Ha]. apply Forall2_app; [done|]. constructor; [|done]. by apply place_at_addressed.
  - split; [|by rewrite <- Ha]. apply Forall2_app; [done|]. constructor; [|done]. by apply move_to_addressed.
  - rewrite Hcur in Hc. split; [|done]. apply Forall2_app; [done|]. constructor; [|done]. apply place_at_addressed. unfold alloc. by rewrite Hf.
  - rewrite Hcur in Hc. split; [|done]. apply Forall2_app; [done|]. constructor; [|done]. apply move_to_addressed. unfold alloc. by rewrite Hf.
Qed.

(** * Contributions *)
Lemma sec_input wd l es evs w x : reads wd l es evs w -> x ∈ all_secs es -> exists p e, es !! si_obj x = Some (p, e) /\ eo_shdrs e !! si_idx x = Some (si_sh x) /\
  input_section wd l e (si_name x) (si_sh x) /\ si_data x = file_data (eo_data e) (si_sh x).
Proof.
  intros HR Hx. apply elem_of_concat in Hx as (k & Hx & Hk). apply elem_of_lookup_imap in Hk as (i & [p e] & -> & He).
  apply elem_of_list_omap in Hx as (y & Hy & Hs). apply elem_of_lookup_imap in Hy as (j & sh & -> & Hj). simpl in *.
  unfold obj_sec in Hs. simpl in Hs. destruct (copied sh) eqn:Ec; [|discriminate]. destruct (eo_shstr e (sh_name sh)) as [n|] eqn:En; [|discriminate].
  injection Hs as <-. simpl. exists p, e. split; [done|]. split; [done|]. split; [|done]. split.
  - destruct (ld_cmd _ _ _ _ _ HR) as (ms & -> & Hms). apply lookup_app_Some in He as [He|[_ He]].
    + left. exists p. apply elem_of_list_lookup_2, elem_of_list_omap in He as (q & Hq & Hc). unfold cmd_obj in Hc.
      destruct (wd_elf wd q) as [[e'|]|] eqn:E; try discriminate. destruct (eo_is_object e'); [|discriminate]. by injection Hc as <- <-.
    + right. apply elem_of_list_lookup_2 in He. rewrite Forall_forall in Hms. destruct (Hms _ He) as (ar & m & H1 & H2 & H3 & _). by exists p, ar, m.
  - split; [by eapply elem_of_list_lookup_2|]. split; [|done]. unfold copied in Ec. apply negb_true_iff, bool_decide_eq_false in Ec. done.
Qed.
Lemma data_kind wd l es evs w x : reads wd l es evs w -> x ∈ all_secs es -> si_data x = None <-> sh_type (si_sh x) = 8.
Proof.
  intros HR Hx. destruct (sec_input _ _ _ _ _ _ HR Hx) as (p & e & _ & _ & _ & ->). unfold file_data. destruct (N.eqb_spec (sh_type (si_sh x)) 8); split; done.
Qed.
Lemma data_le wd l es evs w x : reads wd l es evs w -> x ∈ all_secs es -> blen (si_bytes x) <= si_size x.
Proof.
  intros HR Hx. unfold si_bytes. destruct (sec_input _ _ _ _ _ _ HR Hx) as (p & e & _ & _ & _ & ->). unfold file_data, si_size.
  destruct (sh_type (si_sh x) =? 8); cbn [default from_option id]; unfold blen; [simpl; lia|]. rewrite take_length. lia.
Qed.
Lemma elem_contribs n k x : x ∈ contribs n k <-> si_name x = n /\ x ∈ k.
Proof. unfold contribs. by rewrite elem_of_list_filter. Qed.
Lemma ntotal_cons x k : ntotal (x :: k) = x + ntotal k.
Proof. done. Qed.
Lemma ntotal_mono {A} (f g : A -> N) (k : list A) : (forall x, x ∈ k -> f x <= g x) -> ntotal (f <$> k) <= ntotal (g <$> k).
Proof.
  induction k as [|y k IH]; intros H; [done|]. rewrite !fmap_cons, !ntotal_cons. pose proof (H y ltac:(left)) as Hy.
  pose proof (IH (fun x Hx => H x (elem_of_list_further _ _ _ Hx))) as Hk. lia.
Qed.
Lemma ntotal_each {A} (f g : A -> N) (k : list A) : (forall x, x ∈ k -> f x <= g x) -> ntotal (g <$> k) <= ntotal (f <$> k) -> forall x, x ∈ k -> f x = g x.
Proof.
  induction k as [|y k IH]; intros H Ht x Hx; [by apply elem_of_nil in Hx|]. rewrite !fmap_cons, !ntotal_cons in Ht.
  pose proof (H y ltac:(left)) as Hy. assert (H' : forall x, x ∈ k -> f x <= g x) by (intros z Hz; apply H; by right).
  pose proof (ntotal_mono f g k H') as Hm. apply elem_of_cons in Hx as [->|Hx]; [lia|]. apply IH; [done|lia|done].
Qed.
Lemma datas_all cs : (forall x, x ∈ cs -> si_data x <> None) -> datas_of None cs = si_bytes <$> cs.
Proof.
  destruct cs as [|x cs]; [done|]. intros H. simpl. f_equal. assert (H' : forall y, y ∈ cs -> si_data y <> None) by (intros; apply H; by right). clear H.
  induction cs as [|y cs IH]; [done|]. simpl. unfold si_bytes at 1. destruct (si_data y) eqn:E; [|by destruct (H' y ltac:(left))]. simpl. f_equal. apply IH. intros; apply H'; by right.
Qed.
Lemma datas_none cs : cs <> [] -> (forall x, x ∈ cs -> si_data x = None) -> datas_of None cs = [[]].
Proof.
  destruct cs as [|x cs]; [done|]. intros _ H. simpl. unfold si_bytes. rewrite (H x) by left. simpl. f_equal.
  assert (H' : forall y, y ∈ cs -> si_data y = None) by (intros; apply H; by right). clear H. induction cs as [|y cs IH]; [done|]. simpl. rewrite (H' y) by left. apply IH. intros; apply H'; by right.
Qed.

Lemma mbind_datas (cs : list chunk) : (cs ≫= c_data) = concat (c_data <$> cs).
Proof. induction cs as [|c cs IH]; [done|]. rewrite bind_cons, fmap_cons, IH. done. Qed.
Lemma rela_type r : r_type (r_info (rela_of r)) = rel_type r.
Proof.
  unfold r_type, rel_type, rela_of, u64. simpl r_info. replace (2^64) with (2^32 * 2^32) by reflexivity.
  rewrite N.mul_comm, N.mul_mod_distr_l by done. rewrite N.add_comm, (N.mul_comm (2^32)), N.mod_add by done. reflexivity.
Qed.
Lemma span_within r t a rel sym : scanned t (rela_of r, a) rel ->
  (rel_span r).1 <= (span rel.1 sym).1 /\ (span rel.1 sym).2 <= (rel_span r).2.
Proof.
  destruct rel as [rel b]. intros (_ & Ho & _ & Hi). cbn [fst snd] in *. change (r_offset (rela_of r)) with (gr_offset r) in Ho.
  assert (Ht : r_type (r_info rel) = rel_type r \/ rel_type r = 4 /\ r_type (r_info rel) = 2).
  { case_decide as D; [right|left; rewrite Hi; apply rela_type]. destruct D as [D _]. split; [by rewrite rela_type in D|]. rewrite Hi.
    unfold r_type. rewrite N.add_comm, N.mul_comm, N.mod_add by done. reflexivity. }
  unfold span, rel_span, relaxed. cbv zeta. cbn [fst snd]. rewrite Ho.
  destruct Ht as [->|[-> ->]]; repeat case_decide; naive_solver lia.
Qed.
Section merge.
  Context {wd : world} {lo : lib_oracle} {l : linker} {fuel : nat} {w : writer} {secs : list section}
    {w0 wr ws w1 : writer} {extra : N} {null : section} {rest rest' : list section} {st : layout} {w3 w4 w5 w6 w7 : writer}
    {null' : section} {out : list section}.
  Context (O : outcome wd lo l fuel w secs w0 wr ws w1 extra null rest rest' st w3 w4 w5 w6 w7 null' out).
  Context (Fin : mapM_res (sec_finalize (lo_writer lo) w) (w_sections w) = Ok secs).
  Context (V : valid_oracle (lo_writer lo)) (P : plain_inputs wd l) (NF : names_fit w).
  Context {es : list (string * elf_obj)} {evs : list event} (R : reads wd l es evs wr).
  Let o := lo_writer lo.
  Let n0 := length (w_sections w0).

  Lemma wr_sinv : sinv n0 w0 evs wr.
  Proof using O R. destruct (reads_sinv _ _ _ _ _ R) as (w0' & H0 & HI). assert (w0' = w0) as -> by (pose proof (oc_new O); congruence). exact HI. Qed.
  Lemma addressed_all : Forall2 addressed (indexed (o_sort (lo_writer lo) rest)) rest'.
  Proof using O. eapply layout_addressed; [|exact (oc_layout O)]. done. Qed.

  Record user (n : string) (k : nat) (ofs : N) (pd gd : bytes) (a0 a1 a3 a6 a7 b : section) : Prop := {
    us_hist : hist o wr ws w1 extra rest' w4 pd gd w5 w6 w7 w k a0 a1 a3 a6 a7 b;
    us_out : out !! k = Some b;
    us_new : (n0 <= sc_id b)%nat;
    us_name : stt_names (w_shstrtab wr) !! sc_id b = Some (n, (N.of_nat (sc_id b), ofs));
    us_sh : sh_name (sc_sh b) = u32 ofs;
    us_the : the_sec w secs n b;
    us_sec : sec_is None (contribs n (all_secs es)) a0 }.

  Lemma names_id i s n p : w_sections wr !! i = Some s -> (n0 <= i)%nat -> stt_names (w_shstrtab wr) !! i = Some (n, p) ->
    p.1 = N.of_nat i /\ sh_name (sc_sh s) = u32 p.2.
  Proof using O. intros Hs Hi Hn. destruct (wi_names _ _ _ (oc_winv O) i s Hi Hs) as (n' & o' & H1 & H2). rewrite Hn in H1. injection H1 as -> ->. done. Qed.

  Lemma user_of n : n <> "" -> contribs n (all_secs es) <> [] -> exists k ofs pd gd a0 a1 a3 a6 a7 b, user n k ofs pd gd a0 a1 a3 a6 a7 b.
  Proof using O Fin V P NF R.
    intros Hn Hc. pose proof wr_sinv as SI. pose proof (oc_winv O) as HI.
    destruct (contribs n (all_secs es)) as [|x cs] eqn:E; [done|]. assert (Hx : si_name x = n /\ x ∈ all_secs es) by (apply elem_contribs; rewrite E; left).
    destruct Hx as [<- Hx]. assert (Hev : exists sr pre post, evs = pre ++ EvSec x sr :: post).
    { rewrite <- (ld_secs _ _ _ _ _ R) in Hx. apply elem_of_list_omap in Hx as (v & Hv & Hs). destruct v as [y sr| | |]; try discriminate. injection Hs as ->.
      apply elem_of_list_split in Hv as (pre & post & ->). by exists sr, pre, post. }
    destruct Hev as (sr & pre & post & Hev). destruct (sv_ref _ _ _ _ SI pre x sr post Hev) as [(ofs & Hofs) _]. set (i := sr_section sr) in *.
    destruct (sec_input _ _ _ _ _ _ R Hx) as (p & e & _ & _ & Hinp & _).
    assert (Hres : si_name x ∉ reserved) by (by eapply (pi_names _ _ P)).
    assert (Hge : (n0 <= i)%nat).
    { destruct (decide (n0 <= i)%nat); [done|]. destruct (prefix_names l n0 w0 (oc_new O) eq_refl wr i (si_name x) (N.of_nat i, ofs)) as [?|?]; [exact HI|done|lia|done|done]. }
    assert (Hs : exists a0, w_sections wr !! i = Some a0).
    { apply lookup_lt_is_Some. rewrite <- (wi_len _ _ _ HI). by eapply lookup_lt_Some. }
    destruct Hs as [a0 Ha0].
    destruct (input_out O V i a0) as (b & Hb & Hd); [pose proof (n0_ge O); unfold n0 in Hge; lia|done|].
    apply elem_of_list_lookup in Hb as [k Hk]. destruct (history O Fin V) as (pd & gd & _ & Hh). destruct (Hh k b Hk) as (a0' & a1 & a3 & a6 & a7 & HH).
    assert (Hid : sc_id b = i). { rewrite (decl_id _ _ Hd). by apply (wi_ids _ _ _ HI). }
    assert (a0' = a0) as ->. { pose proof (h_wr HH) as Hw. rewrite Hid in Hw. congruence. }
    exists k, ofs, pd, gd, a0, a1, a3, a6, a7, b. split.
    - exact HH.
    - exact Hk.
    - by rewrite Hid.
    - by rewrite Hid.
    - rewrite (decl_name _ _ Hd). by destruct (names_id _ _ _ _ Ha0 Hge Hofs).
    - assert (Hbs : b ∈ secs) by (rewrite (oc_secs O); right; by eapply elem_of_list_lookup_2).
      assert (Hbn : sec_name w b = Some (si_name x)).
      { unfold sec_name. rewrite (decl_name _ _ Hd). destruct (names_id _ _ _ _ Ha0 Hge Hofs) as [_ ->]. simpl. rewrite (names_w O).
        eapply entry_name; [exact (wi_st _ _ _ HI)| |exact Hofs]. destruct NF as [Ht _]. by rewrite (names_w O) in Ht. }
      split; [done|]. split; [done|]. intros s' Hs' Hn'. destruct (secs_class O Fin V P s' (proj1 NF) Hs') as (n' & Hn'' & Hc').
      rewrite Hn' in Hn''. injection Hn'' as <-. rewrite (oc_secs O) in Hs'. apply elem_of_cons in Hs' as [->|Hs'].
      + exfalso. destruct (null_facts O) as (N0 & _). destruct Hc' as [(e' & Hrow)|(_ & _ & Hbad)]; [|rewrite N0 in Hbad; unfold n0 in *; pose proof (n0_ge O); lia].
        rewrite N0 in Hrow. assert (E0 : (fst ∘ fst ∘ fst) <$> own_rows (opt_hash_style (lk_options l)) !! 0%nat = Some "") by (destruct (opt_hash_style (lk_options l)); vm_compute; reflexivity).
        rewrite Hrow in E0. cbn in E0. by injection E0.
      + apply elem_of_list_lookup in Hs' as [k' Hk']. destruct (Hh k' s' Hk') as (z0 & z1 & z3 & z6 & z7 & HZ).
        assert (Hzge : (n0 <= sc_id s')%nat).
        { destruct Hc' as [(e' & Hrow)|(_ & _ & ?)]; [|done]. exfalso. apply Hres.
          assert (Hz : sc_id s' <> 0%nat) by (pose proof (h_pos HZ); lia). revert Hrow Hz. generalize (sc_id s'). clear. intros i Hrow Hz.
          destruct (opt_hash_style (lk_options l)); do 18 (destruct i as [|i]; [try lia; cbn in Hrow; try discriminate; injection Hrow as <-; apply (bool_decide_unpack _); vm_compute; exact I|]); discriminate. }
        assert (k' = k); [|congruence]. eapply (out_nodup O V); [exact Hk'|exact Hk|].
        destruct (wi_names _ _ _ HI (sc_id s') z0 Hzge (h_wr HZ)) as (n2 & o2 & H1 & H2).
        assert (Hn2 : sec_name w s' = Some n2).
        { unfold sec_name. destruct (hist_decl _ _ _ _ _ _ _ _ _ HZ) as (D0 & _). rewrite (decl_name _ _ D0), H2, (names_w O).
          eapply entry_name; [exact (wi_st _ _ _ HI)| |exact H1]. destruct NF as [Ht _]. by rewrite (names_w O) in Ht. }
        rewrite Hn' in Hn2. injection Hn2 as <-. rewrite Hid. by eapply (names_unique _ _ _ _ _ _ _ _ HI).
    - pose proof (sv_sec _ _ _ _ SI i a0 _ _ Ha0 Hofs) as Hsec. rewrite (ld_secs _ _ _ _ _ R) in Hsec.
      assert (En : w_sections w0 !! i = None) by (apply lookup_ge_None; exact Hge). by rewrite En in Hsec.
  Qed.

  Lemma w5_strtab : w_strtab w5 = w_strtab wr.
  Proof using O.
    destruct (special_exact _ _ (rn_special (oc_run O))) as (_ & _ & E6 & _). rewrite <- E6.
    pose proof (rn_rel (oc_run O)) as H7. unfold handle_relocations in H7. apply bind_Ok in H7 as (ss & _ & [= E7]).
    destruct (run_fields (oc_run O)) as (_ & _ & _ & _ & _ & _ & _ & _ & _ & _ & _ & _ & _ & _ & E & _). rewrite <- E, <- E7. reflexivity.
  Qed.
  (** The chunks of a section from input, before relocation. *)
  Lemma user_a3 n k ofs pd gd a0 a1 a3 a6 a7 b : user n k ofs pd gd a0 a1 a3 a6 a7 b ->
    sc_chunks a3 = (if alloc b then set_chunk_addresses (addr b) (sc_chunks a1) else sc_chunks a1) /\
    a6 = special_fn (w_strtab w5) (w_shstrtab w5) (skip_of w5) a3.
  Proof using O V P.
    intros U. pose proof (us_hist _ _ _ _ _ _ _ _ _ _ _ U) as HH. pose proof (us_new _ _ _ _ _ _ _ _ _ _ _ U) as Hge.
    destruct (user_start O P _ _ Hge (h_wr HH)) as (_ & H14 & Hsy0 & _).
    destruct (own_hist O P _ _ _ _ _ _ _ _ _ HH) as (Hown & Hid & Hsy & Hm1 & Hty). destruct (hist_decl _ _ _ _ _ _ _ _ _ HH) as (D0 & D1 & D3).
    destruct (Forall2_lookup_r _ _ _ _ _ addressed_all (h_w3 HH)) as (a2 & Ha2 & Hadd).
    destruct (indexed_lookup _ _ _ Ha2) as (c & Hc & Ec). destruct (rest_from O V _ _ Hc) as (a1' & Hws & _ & E1).
    assert (Hcid : sc_id c = sc_id b).
    { destruct (Forall2_lookup_r _ _ _ _ _ (placed_all O) (h_w3 HH)) as (a2' & Ha2' & Hpl). assert (a2' = a2) as -> by congruence.
      rewrite (decl_id _ _ D3). destruct Hpl as [-> _]. by rewrite Ec. }
    assert (a1' = a1) as ->. { rewrite Hcid in Hws. pose proof (h_ws HH). congruence. }
    assert (Hmade : made (lo_writer lo) ws (w_hash w1) (w_gnu_hash w1) (blen (w_dyn_rels w1)) (blen (w_plt_rels w1)) extra (sc_id b) (sc_synth b) (memsz a1) = ([], memsz a1)).
    { rewrite (decl_synth _ _ D0), Hsy0. clear -H14. unfold made. revert H14. generalize (sc_id b). intros id H14. do 14 (destruct id as [|id]; [lia|]). reflexivity. }
    destruct (size_made (lo_writer lo) ws (w_hash w1) (w_gnu_hash w1) (blen (w_dyn_rels w1)) (blen (w_plt_rels w1)) extra a1 Hown) as [Hch _].
    rewrite Hid, Hsy, Hmade in Hch. cbn [fst] in Hch. rewrite app_nil_r in Hch.
    assert (Hch2 : sc_chunks a2 = sc_chunks a1). { rewrite Ec. change (sc_chunks (c <| sc_index := N.of_nat (S k) |>)) with (sc_chunks c). rewrite E1. exact Hch. }
    assert (Hal : alloc a2 = alloc b).
    { destruct (Forall2_lookup_r _ _ _ _ _ (placed_all O) (h_w3 HH)) as (a2' & Ha2' & Hpl). assert (a2' = a2) as -> by congruence.
      rewrite <- (decl_alloc _ _ (placed_decl _ _ Hpl)). symmetry. exact (decl_alloc _ _ D3). }
    split.
    - unfold addressed in Hadd. rewrite Hal, Hch2 in Hadd. destruct (h_written HH) as (_ & _ & Haddr & _). destruct (alloc b).
      + rewrite Haddr. exact Hadd.
      + by destruct Hadd.
    - pose proof (h_w5 HH) as H5. pose proof (h_w6 HH) as H6. destruct (special_exact _ _ (rn_special (oc_run O))) as (E6 & _).
      rewrite E6, list_lookup_fmap, H5 in H6. cbn [fmap option_fmap option_map] in H6. apply (inj Some) in H6. rewrite <- H6.
      rewrite patched_other; [reflexivity| |].
      + rewrite <- (decl_id _ _ D3). unfold id_plt. lia.
      + rewrite <- (decl_id _ _ D3). unfold id_got_plt. lia.
  Qed.
  Lemma name_inj_off i j n n' p q : stt_names (w_shstrtab wr) !! i = Some (n, p) -> stt_names (w_shstrtab wr) !! j = Some (n', q) -> u32 p.2 = u32 q.2 -> n = n'.
  Proof using O NF.
    intros Hi Hj E. pose proof (wi_st _ _ _ (oc_winv O)) as Hst. destruct NF as [Ht _]. rewrite (names_w O) in Ht.
    destruct p as [pi po], q as [qi qo]. pose proof (entry_name _ _ _ _ _ Hst Ht Hi) as H1. pose proof (entry_name _ _ _ _ _ Hst Ht Hj) as H2. simpl in E. rewrite E in H1. congruence.
  Qed.
  Lemma user_relocatable n k ofs pd gd a0 a1 a3 a6 a7 b : user n k ofs pd gd a0 a1 a3 a6 a7 b -> relocatable w6 a6 = true.
  Proof using O Fin V P NF.
    intros U. pose proof (us_hist _ _ _ _ _ _ _ _ _ _ _ U) as HH. destruct (hist_decl _ _ _ _ _ _ _ _ _ HH) as (D0 & D1 & D3).
    pose proof (us_the _ _ _ _ _ _ _ _ _ _ _ U) as (_ & Hbn & Huq).
    unfold relocatable. apply negb_true_iff, bool_decide_eq_false. intros Hin.
    assert (E6 : sh_name (sc_sh a6) = sh_name (sc_sh b)).
    { rewrite (decl_name _ _ (kept_decl _ _ (proj1 (h_special HH)))). rewrite (decl_name _ _ D3). unfold patched_plt. destruct (w_got_plt w4); unfold on; repeat case_match; reflexivity. }
    destruct (own_all O Fin V P NF) as (pd' & gd' & _ & Hown).
    assert (H8 : exists b8, own_sec (lo := lo) (l := l) (w := w) (secs := secs) (wr := wr) (ws := ws) (w1 := w1) (extra := extra) (rest' := rest') (w4 := w4) (w5 := w5) (w6 := w6) (w7 := w7) (out := out) pd' gd' 8 ".symtab" b8).
    { apply Hown; [lia|]. destruct (opt_hash_style (lk_options l)); vm_compute; reflexivity. }
    assert (H9 : exists b9, own_sec (lo := lo) (l := l) (w := w) (secs := secs) (wr := wr) (ws := ws) (w1 := w1) (extra := extra) (rest' := rest') (w4 := w4) (w5 := w5) (w6 := w6) (w7 := w7) (out := out) pd' gd' 9 ".dynsym" b9).
    { apply Hown; [lia|]. destruct (opt_hash_style (lk_options l)); vm_compute; reflexivity. }
    destruct H8 as [b8 H8], H9 as [b9 H9].
    assert (Hh : forall i nm x, own_sec (lo := lo) (l := l) (w := w) (secs := secs) (wr := wr) (ws := ws) (w1 := w1) (extra := extra) (rest' := rest') (w4 := w4) (w5 := w5) (w6 := w6) (w7 := w7) (out := out) pd' gd' i nm x -> (i < 14)%nat ->
      sh_name (sc_sh a6) <> sh_name (hdr_of i (w_sections w6))).
    { intros i nm x Hx Hi E. destruct (os_four _ _ _ _ _ Hx) as (a & Ha & _ & _ & Hw).
      assert (Eh : sh_name (hdr_of i (w_sections w6)) = sh_name (sc_sh x)).
      { destruct (kept_stages O) as (_ & K & _). rewrite (hdr_kept i _ _ K). unfold hdr_of. rewrite Ha. simpl. symmetry. apply (decl_name _ _ (proj1 Hw)). }
      assert (x = b). { apply Huq; [apply (os_the _ _ _ _ _ Hx)|]. rewrite <- Hbn. unfold sec_name. rewrite <- Eh, <- E, E6. reflexivity. }
      subst x. pose proof (us_new _ _ _ _ _ _ _ _ _ _ _ U) as Hge. rewrite (os_id _ _ _ _ _ Hx) in Hge. pose proof (n0_ge O). unfold n0 in Hge. lia. }
    apply elem_of_cons in Hin as [Hin|Hin]; [exact (Hh 8%nat _ _ H8 ltac:(lia) Hin)|]. apply elem_of_list_singleton in Hin. exact (Hh 9%nat _ _ H9 ltac:(lia) Hin).
  Qed.
  Record chunk_fate (b : section) (off : N) (c0 c6 c7 : chunk) : Prop := {
    cf_data : c_data c6 = c_data c0;
    cf_rel : Forall2 (scanned (w_symtab wr)) (c_relocations c0) (c_relocations c6);
    cf_addr : c_address c6 = if alloc b then Some (addr b + off) else None;
    cf_syms : more_syms (special_ref (w_strtab wr)) (c0 <| c_address := c_address c6 |> <| c_relocations := c_relocations c6 |>) c6;
    cf_apply : chunk_apply_relocations (sh_addr (hdr_of id_got (w_sections w6))) (sh_addr (hdr_of id_plt (w_sections w6))) (w_symtab w7) (w_dynsym w6) c6 = Ok c7 }.
  Lemma user_chunk n k ofs pd gd a0 a1 a3 a6 a7 b j c0 : user n k ofs pd gd a0 a1 a3 a6 a7 b -> sc_chunks a0 !! j = Some c0 ->
    exists c6 c7, sc_chunks a6 !! j = Some c6 /\ sc_chunks b !! j = Some c7 /\ chunk_fate b (ntotal (blen <$> take j (c_data <$> sc_chunks a0))) c0 c6 c7.
  Proof using O Fin V P NF R.
    intros U Hj. pose proof (us_hist _ _ _ _ _ _ _ _ _ _ _ U) as HH. destruct (user_a3 _ _ _ _ _ _ _ _ _ _ _ U) as [H3 H36].
    destruct (h_scan HH) as [_ HS]. destruct (Forall2_lookup_l _ _ _ _ _ HS Hj) as (c1 & Hc1 & E1 & F1).
    assert (Hd : c_data <$> sc_chunks a1 = c_data <$> sc_chunks a0).
    { clear -HS. induction HS as [|x y k k' [E _] HS IH]; [done|]. rewrite !fmap_cons, IH, E. done. }
    assert (H3j : sc_chunks a3 !! j = Some (if alloc b then chunk_set_address (addr b + ntotal (blen <$> take j (c_data <$> sc_chunks a0))) c1 else c1)).
    { rewrite H3. destruct (alloc b); [|done]. rewrite set_chunk_lookup, Hc1, Hd. done. }
    pose proof (special_more (w_strtab w5) (w_shstrtab w5) (skip_of w5) a3) as F36. rewrite <- H36 in F36.
    destruct (Forall2_lookup_l _ _ _ _ _ F36 H3j) as (c6 & Hc6 & M6). pose proof M6 as (tl & E6 & _).
    destruct (user_chunks O P _ _ _ _ _ _ _ _ _ HH (us_new _ _ _ _ _ _ _ _ _ _ _ U)) as (_ & Hb7 & _ & _).
    destruct (h_rel HH) as [_ Hrel]. rewrite (user_relocatable _ _ _ _ _ _ _ _ _ _ _ U) in Hrel.
    pose proof (mapM_res_F2 (fun a b => chunk_apply_relocations (sh_addr (hdr_of id_got (w_sections w6))) (sh_addr (hdr_of id_plt (w_sections w6))) (w_symtab w7) (w_dynsym w6) a = Ok b) _ _ _ (fun a b H => H) Hrel) as F7.
    destruct (Forall2_lookup_l _ _ _ _ _ F7 Hc6) as (c7 & Hc7 & H7).
    exists c6, c7. split; [done|]. split; [by rewrite Hb7|]. 
    assert (A0 : c_address c0 = None). { apply (sv_chunk _ _ _ _ wr_sinv (sc_id b) j a0 c0); [exact (h_wr HH)|done]. }
    split; [| | | |done].
    - rewrite E6. destruct (alloc b); simpl; rewrite E1; done.
    - rewrite E6. destruct (alloc b); simpl; done.
    - rewrite E6. destruct (alloc b); simpl; [done|]. rewrite E1. done.
    - destruct (run_fields (oc_run O)) as (_ & Es & _).
      assert (Ew5 : w_strtab w5 = w_strtab wr) by apply w5_strtab.
      rewrite Ew5 in M6. assert (Ec : c0 <| c_address := c_address c6 |> <| c_relocations := c_relocations c6 |> = if alloc b then chunk_set_address (addr b + ntotal (blen <$> take j (c_data <$> sc_chunks a0))) c1 else c1).
      { rewrite E6. destruct (alloc b); simpl; rewrite E1; unfold chunk_set_address, RecordSet.set; simpl; [done|]. f_equal. }
      rewrite Ec. exact M6.
  Qed.

  Lemma contrib_kinds n : (forall x, x ∈ contribs n (all_secs es) -> si_data x <> None) \/ (forall x, x ∈ contribs n (all_secs es) -> si_data x = None).
  Proof using P R.
    destruct (contribs n (all_secs es)) as [|y cs] eqn:E; [left; by intros x ?%elem_of_nil|].
    assert (G : forall x, x ∈ y :: cs -> si_data x = None <-> si_data y = None).
    { intros x Hx. rewrite <- E in Hx. apply elem_contribs in Hx as [Hn Hx]. assert (Hy : y ∈ contribs n (all_secs es)) by (rewrite E; left). apply elem_contribs in Hy as [Hn' Hy].
      rewrite (data_kind _ _ _ _ _ _ R Hx), (data_kind _ _ _ _ _ _ R Hy).
      destruct (sec_input _ _ _ _ _ _ R Hx) as (? & e1 & _ & _ & I1 & _). destruct (sec_input _ _ _ _ _ _ R Hy) as (? & e2 & _ & _ & I2 & _).
      rewrite Hn in I1. rewrite Hn' in I2. by eapply (pi_nobits _ _ P). }
    destruct (si_data y) as [d|] eqn:Ey.
    - left. intros x Hx Hd. apply (G x Hx) in Hd. discriminate.
    - right. intros x Hx. by apply G.
  Qed.
  (** Which chunk a contribution is. *)
  Lemma nth_contrib n k ofs pd gd a0 a1 a3 a6 a7 b y sr : user n k ofs pd gd a0 a1 a3 a6 a7 b -> EvSec y sr ∈ evs -> si_name y = n ->
    sr_section sr = sc_id b /\
    if si_data y then contribs n (all_secs es) !! sr_chunk sr = Some y else sr_chunk sr = 0%nat.
  Proof using O P R.
    intros U Hy Hn. pose proof wr_sinv as SI. apply elem_of_list_split in Hy as (pre & post & Hev).
    destruct (sv_ref _ _ _ _ SI pre y sr post Hev) as [(o' & Ho) Hl].
    assert (Hid : sr_section sr = sc_id b).
    { eapply (names_unique _ _ _ _ _ _ _ _ (oc_winv O)); [exact Ho|]. rewrite Hn. exact (us_name _ _ _ _ _ _ _ _ _ _ _ U). }
    split; [done|]. rewrite Hid in Hl. assert (En : w_sections w0 !! sc_id b = None) by (apply lookup_ge_None; exact (us_new _ _ _ _ _ _ _ _ _ _ _ U)).
    rewrite En, Hn in Hl.
    assert (Ec : contribs n (all_secs es) = contribs n (omap sec_of pre) ++ y :: contribs n (omap sec_of post)).
    { rewrite <- (ld_secs _ _ _ _ _ R), Hev, omap_app. change (omap sec_of (EvSec y sr :: post)) with (y :: omap sec_of post).
      rewrite contribs_app. f_equal. unfold contribs. rewrite filter_cons, decide_True by done. done. }
    assert (Ep : contribs n (omap sec_of (pre ++ [EvSec y sr])) = contribs n (omap sec_of pre) ++ [y]).
    { rewrite omap_app. simpl. rewrite contribs_app, contribs_single, decide_True by done. done. }
    rewrite Ep in Hl. destruct (contrib_kinds n) as [K|K]; rewrite Ec in K.
    - rewrite datas_all in Hl.
      + rewrite fmap_length, app_length in Hl. simpl in Hl. destruct (si_data y) eqn:Ey.
        * rewrite Ec. apply lookup_app_Some. right. split; [lia|]. replace (sr_chunk sr - length (contribs n (omap sec_of pre)))%nat with 0%nat by lia. done.
        * exfalso. apply (K y); [apply elem_of_app; right; left|done].
      + intros x Hx. apply K. apply elem_of_app in Hx as [Hx|Hx]; apply elem_of_app; [by left|right]. apply elem_of_list_singleton in Hx as ->. left.
    - rewrite datas_none in Hl; [|by destruct (contribs n (omap sec_of pre))|].
      + destruct (si_data y) eqn:Ey; [|simpl in Hl; lia]. exfalso. specialize (K y). rewrite Ey in K. discriminate K. apply elem_of_app; right; left.
      + intros x Hx. apply K. apply elem_of_app in Hx as [Hx|Hx]; apply elem_of_app; [by left|right]. apply elem_of_list_singleton in Hx as ->. left.
  Qed.
  (** Sections with contents: one chunk per contribution, each of its full size. *)
  Lemma user_datas n k ofs pd gd a0 a1 a3 a6 a7 b : user n k ofs pd gd a0 a1 a3 a6 a7 b ->
    if is_nobits b then (forall x, x ∈ contribs n (all_secs es) -> si_data x = None) /\ c_data <$> sc_chunks a0 = [[]]
    else (forall x, x ∈ contribs n (all_secs es) -> si_data x <> None /\ blen (si_bytes x) = si_size x) /\ c_data <$> sc_chunks a0 = si_bytes <$> contribs n (all_secs es).
  Proof using O P R.
    intros U. pose proof (us_hist _ _ _ _ _ _ _ _ _ _ _ U) as HH. destruct (hist_decl _ _ _ _ _ _ _ _ _ HH) as (D0 & _).
    destruct (us_sec _ _ _ _ _ _ _ _ _ _ _ U) as [S1 S2 S3 S4]. destruct (S4 eq_refl) as (x & Hx & Hsh).
    destruct (contribs n (all_secs es)) as [|x' cs] eqn:E; [discriminate|]. injection Hx as ->.
    assert (Hxin : x ∈ contribs n (all_secs es)) by (rewrite E; left).
    pose proof Hxin as Hxin'. apply elem_contribs in Hxin' as [Hxn Hxs].
    assert (Hty : sh_type (sc_sh b) = sh_type (si_sh x)). { rewrite (decl_type _ _ D0), Hsh. reflexivity. }
    destruct (is_nobits b) eqn:En.
    - unfold is_nobits in En. apply N.eqb_eq in En. rewrite Hty in En. apply (data_kind _ _ _ _ _ _ R Hxs) in En.
      destruct (contrib_kinds n) as [K|K]; [by destruct (K x Hxin)|]. rewrite E in K. split; [done|]. rewrite S1. by apply datas_none.
    - unfold is_nobits in En. apply N.eqb_neq in En. rewrite Hty in En. rewrite <- (data_kind _ _ _ _ _ _ R Hxs) in En.
      destruct (contrib_kinds n) as [K|K]; [|by destruct (En (K x Hxin))]. rewrite E in K. rewrite datas_all in S1 by done. split; [|done].
      destruct (user_start O P _ _ (us_new _ _ _ _ _ _ _ _ _ _ _ U) (h_wr HH)) as (_ & _ & _ & _ & (_ & Hc & _)).
      assert (En0 : is_nobits a0 = false).
      { unfold is_nobits. rewrite <- (decl_type _ _ D0), Hty. apply N.eqb_neq. by rewrite <- (data_kind _ _ _ _ _ _ R Hxs). }
      rewrite En0, S2 in Hc. change (from_option memsz 0 None) with 0 in Hc. rewrite N.add_0_l in Hc.
      assert (Ht : blen (contents a0) = ntotal ((fun y => blen (si_bytes y)) <$> x :: cs)).
      { unfold contents. rewrite mbind_datas, S1. clear. induction (x :: cs) as [|y k IH]; [done|]. rewrite !fmap_cons, ntotal_cons, <- IH. unfold blen. simpl concat. rewrite app_length. lia. }
      intros y Hy. split; [by apply K|]. revert y Hy. apply ntotal_each.
      + intros y Hy. rewrite <- E in Hy. apply elem_contribs in Hy as [_ Hy]. by eapply data_le.
      + change (ntotal (si_size <$> x :: cs) <= ntotal ((fun y => blen (si_bytes y)) <$> x :: cs)). rewrite <- Ht, Hc. apply N.le_refl.
  Qed.

  (** The relocations of a chunk are those of the contributions it holds. *)
  Lemma chunk_rels n k ofs pd gd a0 a1 a3 a6 a7 b j c0 rel r : user n k ofs pd gd a0 a1 a3 a6 a7 b -> sc_chunks a0 !! j = Some c0 -> (rel, r) ∈ c_relocations c0 ->
    exists x y, x ∈ all_rels es /\ rel = rela_of (ri_rel x) /\ EvRel x r (mkSref (sc_id b) j) ∈ evs /\ y ∈ contribs n (all_secs es) /\ about y x /\
      if si_data y then contribs n (all_secs es) !! j = Some y else j = 0%nat.
  Proof using O P R.
    intros U Hc Hr. pose proof wr_sinv as SI. pose proof (h_wr (us_hist _ _ _ _ _ _ _ _ _ _ _ U)) as Ha.
    destruct (sv_chunk _ _ _ _ SI _ _ _ _ Ha Hc) as (Hrel & _). rewrite Hrel in Hr. apply elem_of_list_omap in Hr as (v & Hv & Hat).
    destruct v as [?|?|x r' sr'|?]; try discriminate. simpl in Hat. case_decide as Hs; [|discriminate]. injection Hat as <- ->. subst sr'.
    pose proof Hv as Hsplit. apply elem_of_list_split in Hsplit as (pre & post & Hev). destruct (ld_ok _ _ _ _ _ R pre _ post Hev) as [(y & Hy & Ho & Hi) _].
    assert (Hy' : EvSec y (mkSref (sc_id b) j) ∈ evs) by (rewrite Hev; apply elem_of_app; by left).
    assert (Hn : si_name y = n).
    { pose proof Hy' as Hs. apply elem_of_list_split in Hs as (p1 & p2 & He). destruct (sv_ref _ _ _ _ SI _ _ _ _ He) as [(o' & Hname) _].
      simpl in Hname. rewrite (us_name _ _ _ _ _ _ _ _ _ _ _ U) in Hname. by injection Hname. }
    exists x, y. split_and!; [| |done| | |].
    - rewrite <- (ld_rels _ _ _ _ _ R). apply elem_of_list_omap. by exists (EvRel x r (mkSref (sc_id b) j)).
    - done.
    - apply elem_contribs. split; [done|]. rewrite <- (ld_secs _ _ _ _ _ R). apply elem_of_list_omap. by exists (EvSec y (mkSref (sc_id b) j)).
    - by split.
    - by destruct (nth_contrib _ _ _ _ _ _ _ _ _ _ _ _ _ U Hy' Hn) as [_ H].
  Qed.
  Lemma user_lengths n k ofs pd gd a0 a1 a3 a6 a7 b : user n k ofs pd gd a0 a1 a3 a6 a7 b -> length (sc_chunks b) = length (sc_chunks a0).
  Proof using O Fin V P NF.
    intros U. pose proof (us_hist _ _ _ _ _ _ _ _ _ _ _ U) as HH.
    destruct (user_chunks O P _ _ _ _ _ _ _ _ _ HH (us_new _ _ _ _ _ _ _ _ _ _ _ U)) as (F16 & Hb7 & _ & _).
    destruct (h_rel HH) as [_ Hrel]. rewrite (user_relocatable _ _ _ _ _ _ _ _ _ _ _ U) in Hrel.
    pose proof (mapM_res_F2 (fun a b => chunk_apply_relocations (sh_addr (hdr_of id_got (w_sections w6))) (sh_addr (hdr_of id_plt (w_sections w6))) (w_symtab w7) (w_dynsym w6) a = Ok b) _ _ _ (fun a b H => H) Hrel) as F7.
    destruct (h_scan HH) as [_ HS]. rewrite Hb7, <- (Forall2_length _ _ _ F7), <- (Forall2_length _ _ _ F16), <- (Forall2_length _ _ _ HS). reflexivity.
  Qed.
  Lemma user_contents n k ofs pd gd a0 a1 a3 a6 a7 b : user n k ofs pd gd a0 a1 a3 a6 a7 b -> is_nobits b = false ->
    exists ds, contents b = concat ds /\ Forall2 (built_from (all_rels es)) (contribs n (all_secs es)) ds.
  Proof using All.
    intros U Hn. pose proof (user_datas _ _ _ _ _ _ _ _ _ _ _ U) as D. rewrite Hn in D. destruct D as [D1 D2].
    exists (c_data <$> sc_chunks b). split; [apply mbind_datas|].
    assert (Hlen : length (sc_chunks b) = length (sc_chunks a0)).
    { by eapply user_lengths. }
    apply Forall2_same_length_lookup. split; [rewrite fmap_length, Hlen, <- (fmap_length c_data), D2, fmap_length; done|].
    intros j x d Hx Hd. apply list_lookup_fmap_Some in Hd as (c7 & Hc7 & ->).
    assert (exists c0, sc_chunks a0 !! j = Some c0) as [c0 Hc0]. { apply lookup_lt_is_Some_2. rewrite <- Hlen. by eapply lookup_lt_Some. }
    assert (Hb : c_data c0 = si_bytes x).
    { assert (H : (c_data <$> sc_chunks a0) !! j = Some (c_data c0)) by (rewrite list_lookup_fmap, Hc0; done). rewrite D2, list_lookup_fmap, Hx in H. by injection H. }
    destruct (user_chunk _ _ _ _ _ _ _ _ _ _ _ _ _ U Hc0) as (c6 & c7' & _ & Hc7' & F). rewrite Hc7 in Hc7'. injection Hc7' as <-.
    destruct (chunk_frame _ _ _ _ _ _ (cf_apply _ _ _ _ _ F)) as [Hl Hk]. rewrite (cf_data _ _ _ _ _ F), Hb in Hl, Hk.
    destruct (D1 x) as [_ Hsz]; [by eapply elem_of_list_lookup_2|].
    split; [unfold blen; rewrite Hl; exact Hsz|]. intros q Hq. apply Hk. intros rel r sym Hin Hsym.
    apply elem_of_list_lookup in Hin as (m & Hm). destruct (Forall2_lookup_r _ _ _ _ _ (cf_rel _ _ _ _ _ F) Hm) as ([rel0 r0] & Hm0 & Hsc).
    destruct (chunk_rels _ _ _ _ _ _ _ _ _ _ _ _ _ rel0 r0 U Hc0) as (x' & y & Hx' & -> & _ & Hy & Hab & Hyj); [by eapply elem_of_list_lookup_2|].
    destruct (D1 y Hy) as [Hd _]. destruct (si_data y) as [dy|]; [|done]. rewrite Hx in Hyj. injection Hyj as <-.
    pose proof (Hq x' Hx' Hab) as Hout. destruct (span_within _ _ _ _ sym Hsc). simpl in *. lia.
  Qed.
  (** Output sections other than the linker's own come from the input. *)
  Lemma only_inputs s n : s ∈ secs -> sec_name w s = Some n -> n <> "" -> n ∉ reserved -> contribs n (all_secs es) <> [].
  Proof using O Fin V P NF R.
    intros Hs Hn Hne Hres.
    destruct (secs_class O Fin V P s (proj1 NF) Hs) as (n' & Hn' & Hc). rewrite Hn in Hn'. injection Hn' as <-.
    destruct Hc as [(e & Hrow)|(_ & _ & Hge)].
    { exfalso. revert Hrow Hne Hres. generalize (sc_id s). clear. intros i Hrow Hne Hres.
      destruct (opt_hash_style (lk_options l)); do 18 (destruct i as [|i]; [cbn in Hrow; try discriminate; injection Hrow as <-; try done; apply Hres; apply (bool_decide_unpack _); vm_compute; exact I|]); discriminate. }
    pose proof wr_sinv as SI. rewrite (oc_secs O) in Hs. apply elem_of_cons in Hs as [->|Hs].
    { destruct (null_facts O) as (N0 & _). rewrite N0 in Hge. pose proof (n0_ge O). lia. }
    apply elem_of_list_lookup in Hs as [k Hk]. destruct (history O Fin V) as (pd & gd & _ & Hh). destruct (Hh k s Hk) as (a0 & a1 & a3 & a6 & a7 & HH).
    pose proof (oc_winv O) as HI. destruct (wi_names _ _ _ HI (sc_id s) a0 Hge (h_wr HH)) as (n2 & o2 & H1 & H2).
    assert (Hn2 : sec_name w s = Some n2).
    { unfold sec_name. destruct (hist_decl _ _ _ _ _ _ _ _ _ HH) as (D0 & _). rewrite (decl_name _ _ D0), H2, (names_w O). eapply entry_name; [exact (wi_st _ _ _ HI)| |exact H1]. destruct NF as [Ht _]. by rewrite (names_w O) in Ht. }
    rewrite Hn in Hn2. injection Hn2 as <-.
    destruct (sv_sec _ _ _ _ SI _ _ _ _ (h_wr HH) H1) as [_ _ _ S4]. rewrite (ld_secs _ _ _ _ _ R) in S4.
    destruct S4 as (x & Hx & _); [by apply lookup_ge_None|]. intros E. by rewrite E in Hx.
  Qed.
End merge.

Section good.
  Context {wd : world} {lo : lib_oracle} {l : linker} {fuel : nat} {w : writer} {secs : list section}.
  Context (G : good_link wd lo l fuel w secs).
  Context {es : list (string * elf_obj)} {evs : list event} (L : loading wd lo l fuel es evs).

  Lemma good_merge n : n <> "" -> contribs n (all_secs es) <> [] -> exists s, the_sec w secs n s /\
    memsz s = ntotal (si_size <$> contribs n (all_secs es)) /\ align s = nmax (si_align <$> contribs n (all_secs es)) /\
    (exists x, head (contribs n (all_secs es)) = Some x /\ sh_type (sc_sh s) = sh_type (si_sh x) /\ flags s = sh_flags (si_sh x)) /\
    if is_nobits s then contents s = [] /\ (forall x, x ∈ contribs n (all_secs es) -> si_data x = None)
    else exists ds, contents s = concat ds /\ Forall2 (built_from (all_rels es)) (contribs n (all_secs es)) ds.
  Proof using G L.
    intros Hn Hc.
    destruct (links_outcome _ _ _ _ _ _ (gl_links _ _ _ _ _ _ G)) as (w0 & wr & ws & w1 & extra & null & rest & rest' & st & w3 & w4 & w5 & w6 & w7 & null' & out & O).
    pose proof (proj2 (gl_links _ _ _ _ _ _ G)) as Fin. destruct G as [_ V P PL NF AF SF].
    destruct L as (wr' & Hr & R). rewrite (oc_resolve O) in Hr. injection Hr as <-.
    destruct (user_of O Fin V P NF R n Hn Hc) as (k & ofs & pd & gd & a0 & a1 & a3 & a6 & a7 & b & U).
    exists b. pose proof (us_hist _ _ _ _ _ _ _ _ _ _ _ U) as HH. destruct (hist_decl _ _ _ _ _ _ _ _ _ HH) as (D0 & _).
    destruct (us_sec _ _ _ _ _ _ _ _ _ _ _ U) as [S1 S2 S3 S4]. destruct (S4 eq_refl) as (x & Hx & Hsh).
    destruct (user_chunks O P _ _ _ _ _ _ _ _ _ HH (us_new _ _ _ _ _ _ _ _ _ _ _ U)) as (_ & _ & Hm & _).
    split; [exact (us_the _ _ _ _ _ _ _ _ _ _ _ U)|].
    split; [rewrite Hm, S2; apply N.add_0_l|].
    split; [rewrite (decl_align _ _ D0), S3; apply N.max_0_l|].
    split.
    { exists x. split; [done|]. rewrite (decl_type _ _ D0), (decl_flags _ _ D0). unfold flags. rewrite Hsh. done. }
    destruct (is_nobits b) eqn:En; [|by eapply user_contents].
    pose proof (user_datas O P R _ _ _ _ _ _ _ _ _ _ _ U) as D. rewrite En in D. destruct D as [D1 D2]. split; [|done].
    pose proof (user_lengths O Fin V P NF _ _ _ _ _ _ _ _ _ _ _ U) as Hlen. assert (H1 : length (sc_chunks a0) = 1%nat) by (rewrite <- (fmap_length c_data), D2; done).
    rewrite H1 in Hlen. destruct (sc_chunks b) as [|c [|]] eqn:Eb; try discriminate. unfold contents. rewrite Eb, bind_cons. change ([] ≫= c_data) with (@nil N). rewrite app_nil_r.
    destruct (sc_chunks a0) as [|c0 [|]] eqn:E0; try discriminate. rewrite fmap_cons in D2. apply (inj2 cons) in D2 as [D2 _].
    destruct (user_chunk O Fin V P NF R _ _ _ _ _ _ _ _ _ _ _ 0%nat c0 U) as (c6 & c7 & _ & Hc7 & F); [by rewrite E0|]. rewrite Eb in Hc7. injection Hc7 as <-.
    destruct (chunk_frame _ _ _ _ _ _ (cf_apply _ _ _ _ _ F)) as [Hl _]. rewrite (cf_data _ _ _ _ _ F), D2 in Hl. by destruct (c_data c).
  Qed.
  Lemma good_only s n : s ∈ secs -> sec_name w s = Some n -> n <> "" -> n ∉ reserved -> contribs n (all_secs es) <> [].
  Proof using G L.
    intros Hs Hn Hne Hres.
    destruct (links_outcome _ _ _ _ _ _ (gl_links _ _ _ _ _ _ G)) as (w0 & wr & ws & w1 & extra & null & rest & rest' & st & w3 & w4 & w5 & w6 & w7 & null' & out & O).
    pose proof (proj2 (gl_links _ _ _ _ _ _ G)) as Fin. destruct G as [_ V P PL NF AF SF].
    destruct L as (wr' & Hr & R). rewrite (oc_resolve O) in Hr. injection Hr as <-.
    exact (only_inputs O Fin V P NF R s n Hs Hn Hne Hres).
  Qed.
End good.

(** * Offsets *)
Lemma ntotal_take_F2 (cs : list sec_in) (ds : list bytes) j : Forall2 (fun x d => blen d = si_size x) cs ds ->
  ntotal (blen <$> take j ds) = ntotal (si_size <$> take j cs).
Proof.
  intros H. revert j. induction H as [|x d cs ds E H IH]; intros j; [by destruct j|]. destruct j as [|j]; [done|].
  rewrite !firstn_cons, !fmap_cons, !ntotal_cons, IH, E. done.
Qed.
Lemma concat_at (ds : list bytes) j d k : ds !! j = Some d -> k < blen d -> concat ds !! N.to_nat (ntotal (blen <$> take j ds) + k) = d !! N.to_nat k.
Proof.
  revert j. induction ds as [|e ds IH]; intros j Hj Hk; [done|]. destruct j as [|j].
  - injection Hj as ->. simpl concat. change (ntotal (blen <$> take 0 (d :: ds))) with 0. rewrite N.add_0_l. apply lookup_app_l. unfold blen in Hk. lia.
  - rewrite firstn_cons, fmap_cons, ntotal_cons. simpl concat. rewrite lookup_app_r by (unfold blen; lia).
    rewrite <- (IH j Hj Hk). f_equal. unfold blen. lia.
Qed.

(** * Section names *)
Lemma ref_name_ids hs i n p : stt_names (ref_names hs) !! i = Some (n, p) -> n ∉ [".copyrel"; ".hash"; ".gnu.hash"] -> own_names hs !! i = Some n.
Proof.
  assert (E : forall hs, forallb (fun x : option (string * (N * N)) * option string => match x.1, x.2 with
    | Some (n, _), Some m => bool_decide (n ∈ [".copyrel"; ".hash"; ".gnu.hash"]) || (n =? m)%string | None, _ => true | _, None => false end)
    (zip (Some <$> stt_names (ref_names hs)) (Some <$> own_names hs)) = true /\ length (stt_names (ref_names hs)) = length (own_names hs)).
  { intros []; (split; [vm_compute; reflexivity|vm_compute; reflexivity]). }
  intros Hi Hn. destruct (E hs) as [E1 E2]. clear E.
  assert (exists m, own_names hs !! i = Some m) as [m Hm]. { apply lookup_lt_is_Some_2. rewrite <- E2. eapply lookup_lt_Some. exact Hi. }
  rewrite Hm. rewrite forallb_forall in E1. specialize (E1 (Some (n, p), Some m)).
  assert (Hin : (Some (n, p), Some m) ∈ zip (Some <$> stt_names (ref_names hs)) (Some <$> own_names hs)).
  { apply elem_of_list_lookup. exists i. apply lookup_zip_with_Some. exists (Some (n, p)), (Some m). rewrite !list_lookup_fmap, Hi, Hm. split; [reflexivity|split; reflexivity]. }
  apply elem_of_list_In in Hin. specialize (E1 Hin). cbn [fst snd] in E1. rewrite bool_decide_eq_false_2 in E1 by exact Hn. apply String.eqb_eq in E1. rewrite E1. reflexivity.
Qed.
Lemma sec_ids wd lo l fuel w secs es evs wr x sr : links wd lo l fuel w secs -> valid_oracle (lo_writer lo) -> names_fit w -> resolve wd lo l fuel = Ok wr -> reads wd l es evs wr ->
  EvSec x sr ∈ evs -> sr_section sr <> 0%nat -> si_name x ∉ [".copyrel"; ".hash"; ".gnu.hash"] -> exists s, s ∈ secs /\ sc_id s = sr_section sr /\ sec_name w s = Some (si_name x).
Proof.
  intros HL V NF Hres R Hev H0 Hx.
  destruct (links_outcome _ _ _ _ _ _ HL) as (w0 & wr' & ws & w1 & extra & null & rest & rest' & st & w3 & w4 & w5 & w6 & w7 & null' & out & O).
  rewrite (oc_resolve O) in Hres. injection Hres as ->. pose proof (wr_sinv O R) as SI. pose proof (oc_winv O) as HI.
  apply elem_of_list_split in Hev as (pre & post & Hev). destruct (sv_ref _ _ _ _ SI pre x sr post Hev) as [(ofs & Hofs) _]. set (i := sr_section sr) in *.
  assert (Hs : exists a0, w_sections wr !! i = Some a0).
  { apply lookup_lt_is_Some. rewrite <- (wi_len _ _ _ HI). by eapply lookup_lt_Some. }
  destruct Hs as [a0 Ha0]. destruct (input_out O V i a0) as (b & Hb & Hd); [lia|done|].
  exists b. split; [rewrite (oc_secs O); by right|]. split; [rewrite (decl_id _ _ Hd); by apply (wi_ids _ _ _ HI)|].
  destruct (decide (i < length (w_sections w0))%nat) as [Hlt|Hge].
  - rewrite (fixed_name O b i a0 Ha0 Hd Hlt). destruct (writer_new_ref _ _ (oc_new O)) as (_ & _ & Hnm & _).
    destruct (wi_prefix _ _ _ HI) as [tl Htl].
    assert (Hl0 : length (stt_names (w_shstrtab w0)) = length (w_sections w0)).
    { destruct (writer_new_ref _ _ (oc_new O)) as (Hsig & _). apply (f_equal length) in Hsig. rewrite !fmap_length in Hsig. rewrite Hsig, Hnm. destruct (opt_hash_style (lk_options l)); vm_compute; reflexivity. }
    rewrite Htl, lookup_app_l, Hnm in Hofs by lia. eapply ref_name_ids; [exact Hofs|exact Hx].
  - destruct (wi_names _ _ _ HI i a0) as (n2 & o2 & H1 & H2); [lia|done|]. rewrite H1 in Hofs. injection Hofs as -> ->.
    unfold sec_name. rewrite (decl_name _ _ Hd), H2, (names_w O). eapply entry_name; [exact (wi_st _ _ _ HI)| |exact H1]. destruct NF as [Ht _]. by rewrite (names_w O) in Ht.
Qed.
