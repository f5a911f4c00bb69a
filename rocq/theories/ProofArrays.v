(** The symbols the linker gives values to (C42-C44). *)
From Verif Require Export ProofSyms.

Lemma add_symbol_in r c : r ∈ c_symbols (chunk_add_symbol r c).
Proof. unfold chunk_add_symbol. case_decide; [done|]. simpl. apply elem_of_app. right. by left. Qed.
Lemma add_symbol_from r r' c : r' ∈ c_symbols (chunk_add_symbol r c) -> r' = r \/ r' ∈ c_symbols c.
Proof. unfold chunk_add_symbol. case_decide as D; [by right|]. simpl. intros [H|H]%elem_of_app; [by right|]. left. by apply elem_of_list_singleton in H. Qed.
Lemma mark_regs o j (cs : list chunk) j' c' r : mark o j cs !! j' = Some c' -> r ∈ c_symbols c' -> (exists c, cs !! j' = Some c /\ r ∈ c_symbols c) \/ (o = Some r /\ j' = j).
Proof.
  unfold mark. destruct o as [r0|]; [|intros H1 H2; left; eauto]. intros H1 H2. destruct (decide (j' = j)) as [->|Hn].
  - rewrite list_lookup_alter in H1. destruct (cs !! j) as [c|] eqn:E; [|discriminate]. injection H1 as <-. apply add_symbol_from in H2 as [->|H2]; [by right|left; eauto].
  - rewrite list_lookup_alter_ne in H1 by done. left; eauto.
Qed.
Lemma mark_has r j (cs : list chunk) c : cs !! j = Some c -> exists c', mark (Some r) j cs !! j = Some c' /\ r ∈ c_symbols c'.
Proof. intros H. unfold mark. rewrite list_lookup_alter, H. eexists. split; [done|]. apply add_symbol_in. Qed.
Lemma mark_still o j (cs : list chunk) j' c r : cs !! j' = Some c -> r ∈ c_symbols c -> exists c', mark o j cs !! j' = Some c' /\ r ∈ c_symbols c'.
Proof.
  intros H Hr. unfold mark. destruct o as [r0|]; [|eauto]. destruct (decide (j' = j)) as [->|Hn].
  - rewrite list_lookup_alter, H. eexists. split; [done|]. unfold chunk_add_symbol. case_decide; [done|]. simpl. apply elem_of_app. by left.
  - rewrite list_lookup_alter_ne by done. eauto.
Qed.
Lemma special_regs sn secn skip s j c r : sc_chunks (special_fn sn secn skip s) !! j = Some c -> r ∈ c_symbols c ->
  (exists c0, sc_chunks s !! j = Some c0 /\ r ∈ c_symbols c0) \/
  exists kd, array_kind secn skip s = Some kd /\ ((name_ref sn (start_of kd) = Some r /\ j = 0%nat) \/ (name_ref sn (end_of kd) = Some r /\ j = (length (sc_chunks s) - 1)%nat)).
Proof.
  unfold special_fn. destruct (array_kind secn skip s) as [kd|]; [|intros; left; eauto]. simpl. unfold marked. intros Hj Hr.
  apply (mark_regs _ _ _ _ _ _ Hj) in Hr as [(c1 & Hj1 & Hr)|[Hr ->]]; [|right; exists kd; split; [done|by right]].
  apply (mark_regs _ _ _ _ _ _ Hj1) in Hr as [Hr|[Hr ->]]; [by left|]. right. exists kd. split; [done|by left].
Qed.
Lemma special_start sn secn skip s kd r : array_kind secn skip s = Some kd -> name_ref sn (start_of kd) = Some r -> sc_chunks s <> [] ->
  exists c, sc_chunks (special_fn sn secn skip s) !! 0%nat = Some c /\ r ∈ c_symbols c.
Proof.
  unfold special_fn. intros -> Hr Hne. simpl. unfold marked. rewrite Hr. destruct (sc_chunks s) as [|c cs]; [done|].
  destruct (mark_has r 0 (c :: cs) c eq_refl) as (c' & H1 & H2). by eapply mark_still.
Qed.
Lemma special_end sn secn skip s kd r : array_kind secn skip s = Some kd -> name_ref sn (end_of kd) = Some r -> sc_chunks s <> [] ->
  exists c, sc_chunks (special_fn sn secn skip s) !! (length (sc_chunks s) - 1)%nat = Some c /\ r ∈ c_symbols c.
Proof.
  unfold special_fn. intros -> Hr Hne. simpl. unfold marked. rewrite Hr.
  destruct (lookup_lt_is_Some_2 (mark (name_ref sn (start_of kd)) 0 (sc_chunks s)) (length (sc_chunks s) - 1)) as [c Hc]; [rewrite mark_length; destruct (sc_chunks s); [done|simpl; lia]|].
  by eapply mark_has.
Qed.
(** The value given to the end symbol. *)
Lemma special_tab_end sn secn skip kd r s (k : list section) t : name_ref sn (end_of kd) = Some r -> name_ref sn (end_of (negb kd)) <> Some r ->
  s ∈ k -> array_kind secn skip s = Some kd -> (forall s', s' ∈ k -> array_kind secn skip s' = Some kd -> s' = s) ->
  syt_get (fold_left (special_tab sn secn skip) k t) r = set_value (size_on_disk s) <$> syt_get t r.
Proof.
  intros Hr Hr' Hs Hk Hu.
  assert (G0 : forall (k : list section) t, (forall s', s' ∈ k -> array_kind secn skip s' = Some kd -> s' = s) ->
    syt_get (fold_left (special_tab sn secn skip) k t) r = syt_get t r \/ syt_get (fold_left (special_tab sn secn skip) k t) r = set_value (size_on_disk s) <$> syt_get t r).
  { clear Hs Hu k t. induction k as [|x k IH]; intros t Hu; [by left|]. simpl. assert (Hu' : forall s', s' ∈ k -> array_kind secn skip s' = Some kd -> s' = s) by (intros; apply Hu; [by right|done]).
    assert (E : syt_get (special_tab sn secn skip t x) r = syt_get t r \/ syt_get (special_tab sn secn skip t x) r = set_value (size_on_disk s) <$> syt_get t r).
    { unfold special_tab. destruct (array_kind secn skip x) as [kd'|] eqn:Ek; [|by left]. unfold set_end. destruct (name_ref sn (end_of kd')) as [r'|] eqn:Er; [|by left].
      rewrite get_modify. case_decide as Hd; [|by left]. subst r'. right. assert (kd' = kd) as -> by (destruct kd, kd'; try done; by destruct Hr').
      rewrite (Hu x); [done|by left|done]. }
    destruct (IH (special_tab sn secn skip t x) Hu') as [->| ->]; destruct E as [->| ->]; auto. right. destruct (syt_get t r); done. }
  revert t. induction k as [|x k IH]; [by apply elem_of_nil in Hs|]. intros t. simpl.
  assert (Hu' : forall s', s' ∈ k -> array_kind secn skip s' = Some kd -> s' = s) by (intros; apply Hu; [by right|done]).
  apply elem_of_cons in Hs as [<-|Hs].
  - assert (E : syt_get (special_tab sn secn skip t s) r = set_value (size_on_disk s) <$> syt_get t r).
    { unfold special_tab, set_end. rewrite Hk, Hr, get_modify, decide_True by done. done. }
    destruct (G0 k (special_tab sn secn skip t s) Hu') as [->| ->]; rewrite E; [done|]. destruct (syt_get t r); done.
  - rewrite IH by done. unfold special_tab. destruct (array_kind secn skip x) as [kd'|] eqn:Ek; [|done]. unfold set_end. destruct (name_ref sn (end_of kd')) as [r'|] eqn:Er; [|done].
    rewrite get_modify. case_decide as Hd; [|done]. destruct (syt_get t r); [|done]. simpl. f_equal.
Qed.

Lemma get_kept id k k' a : Forall2 kept k k' -> get_section id k = Some a -> exists a', get_section id k' = Some a' /\ kept a a'.
Proof.
  intros H. induction H as [|x y k k' Hk H IH]; [discriminate|]. unfold get_section in *. cbn. rewrite Hk. cbn. destruct (Nat.eqb _ _); [|exact IH].
  intros [= <-]. eexists. split; [reflexivity|]. done.
Qed.
Definition array_name (kd : bool) : string := if kd then ".init_array" else ".fini_array".

Lemma object_dec es n : object_defines es n \/ ~ object_defines es n.
Proof.
  assert (D : Decision (Exists (fun y => defined (yi_sym y) \/ Exists (fun x => si_name x <> "" /\ lies_in x y) (all_secs es)) (named n (all_syms es)))) by (unfold defined, lies_in; apply _).
  destruct D as [D|D]; [left|right].
  - apply Exists_exists in D as (y & Hy & [H|H]); exists y; (split; [done|]); [by left|]. right. apply Exists_exists in H as (x & Hx & H1 & H2). by exists x.
  - intros (y & Hy & H). apply D. apply Exists_exists. exists y. split; [done|]. destruct H as [H|(x & Hx & H1 & H2)]; [by left|]. right. apply Exists_exists. by exists x.
Qed.
Lemma linker_dec es n : linker_defines es n \/ ~ linker_defines es n.
Proof.
  assert (D : Decision (n = "_GLOBAL_OFFSET_TABLE_" \/ Exists (fun t => n ∈ [t.1.2; t.2] /\ contribs t.1.1 (all_secs es) <> []) array_marks)) by apply _.
  destruct D as [D|D]; [left|right].
  - destruct D as [D|D]; [by left|]. right. apply Exists_exists in D as ([[a s] e] & H1 & H2 & H3). by exists a, s, e.
  - intros [H|(a & s & e & H1 & H2 & H3)]; apply D; [by left|]. right. apply Exists_exists. by exists (a, s, e).
Qed.

Section links.
  Context {wd : world} {lo : lib_oracle} {l : linker} {fuel : nat} {w : writer} {secs : list section}
    {w0 wr ws w1 : writer} {extra : N} {null : section} {rest rest' : list section} {st : layout} {w3 w4 w5 w6 w7 : writer}
    {null' : section} {out : list section}.
  Context (O : outcome wd lo l fuel w secs w0 wr ws w1 extra null rest rest' st w3 w4 w5 w6 w7 null' out).
  Context (Fin : mapM_res (sec_finalize (lo_writer lo) w) (w_sections w) = Ok secs).
  Context (V : valid_oracle (lo_writer lo)) (P : plain_inputs wd l) (NF : names_fit w).
  Context {es : list (string * elf_obj)} {evs : list event} (R : reads wd l es evs wr).
  Let o := lo_writer lo.
  Let n0 := length (w_sections w0).
  Let sn := w_strtab wr.

  Lemma w5_shstrtab : w_shstrtab w5 = w_shstrtab wr.
  Proof using O.
    destruct (special_exact _ _ (rn_special (oc_run O))) as (_ & _ & _ & E6 & _). rewrite <- E6.
    pose proof (rn_rel (oc_run O)) as H7. unfold handle_relocations in H7. apply bind_Ok in H7 as (ss & _ & [= E7]).
    destruct (run_fields (oc_run O)) as (_ & _ & _ & _ & _ & _ & _ & _ & _ & _ & _ & _ & _ & E & _). rewrite <- E, <- E7. reflexivity.
  Qed.
  Lemma stage5 i s : w_sections w5 !! i = Some s -> exists b, secs !! i = Some b /\ sh_name (sc_sh b) = sh_name (sc_sh s) /\ sc_id b = sc_id s.
  Proof using O.
    intros Hs. destruct (kept_stages O) as (K & _). destruct (Forall2_lookup_r _ _ _ _ _ K Hs) as (s4 & H4 & K4).
    pose proof (all_written O) as W. rewrite (w4_sections O), (run_w3_secs (oc_run O)) in H4. destruct (Forall2_lookup_l _ _ _ _ _ W H4) as (b & Hb & Wb).
    exists b. split; [done|]. rewrite (decl_name _ _ (proj1 Wb)), (decl_id _ _ (proj1 Wb)), (decl_name _ _ (kept_decl _ _ K4)), (decl_id _ _ (kept_decl _ _ K4)). done.
  Qed.
  Lemma kind_name s b kd : array_kind (w_shstrtab w5) (skip_of w5) s = Some kd -> sh_name (sc_sh b) = sh_name (sc_sh s) -> sec_name w b = Some (array_name kd).
  Proof using O NF.
    intros Hk E. unfold sec_name. rewrite E, (names_w O). rewrite w5_shstrtab in Hk.
    assert (H : st_sh_name (w_shstrtab wr) (array_name kd) = Some (sh_name (sc_sh s))).
    { unfold array_kind in Hk. repeat (case_bool_decide as D; [try discriminate; injection Hk as <-; exact D|clear D]). discriminate. }
    unfold st_sh_name in H. destruct (ModelTables.assoc (array_name kd) (stt_names (w_shstrtab wr))) as [[ix ofs]|] eqn:Ea; [|discriminate]. injection H as <-.
    apply assoc_Some_elem, elem_of_list_lookup in Ea as [j Hj]. eapply entry_name; [exact (wi_st _ _ _ (oc_winv O))| |exact Hj]. rewrite <- (names_w O). exact (proj1 NF).
  Qed.
  Lemma secs_id i j b c : secs !! i = Some b -> secs !! j = Some c -> sc_id b = sc_id c -> i = j.
  Proof using O Fin V.
    intros Hi Hj E. rewrite (oc_secs O) in Hi, Hj. destruct (history O Fin V) as (pd & gd & _ & Hh). destruct (null_facts O) as (N0 & _).
    destruct i as [|i], j as [|j]; simpl in Hi, Hj; [done| | |].
    - injection Hi as <-. destruct (Hh j c Hj) as (? & ? & ? & ? & ? & H). pose proof (h_pos H). lia.
    - injection Hj as <-. destruct (Hh i b Hi) as (? & ? & ? & ? & ? & H). pose proof (h_pos H). lia.
    - f_equal. by eapply (out_nodup O V).
  Qed.
  Lemma kind_sec i s b kd : w_sections w5 !! i = Some s -> array_kind (w_shstrtab w5) (skip_of w5) s = Some kd -> the_sec w secs (array_name kd) b -> secs !! i = Some b /\ sc_id b = sc_id s.
  Proof using O NF.
    intros Hs Hk (_ & _ & Hu). destruct (stage5 _ _ Hs) as (b' & Hb' & Hn & Hid). pose proof (kind_name _ _ _ Hk Hn) as E. assert (b' = b) as ->; [|done]. apply Hu; [by eapply elem_of_list_lookup_2|done].
  Qed.
  Lemma user_kind kd k ofs pd gd a0 a1 a3 a6 a7 b : user (lo := lo) (w := w) (secs := secs) (w0 := w0) (wr := wr) (ws := ws) (w1 := w1) (extra := extra) (rest' := rest') (w4 := w4) (w5 := w5) (w6 := w6) (w7 := w7) (out := out) (es := es) (array_name kd) k ofs pd gd a0 a1 a3 a6 a7 b ->
    array_kind (w_shstrtab w5) (skip_of w5) (patched_plt w4 pd gd a3) = Some kd /\ w_sections w5 !! S k = Some (patched_plt w4 pd gd a3) /\ patched_plt w4 pd gd a3 = a3.
  Proof using O Fin V P NF.
    intros U. pose proof (us_hist _ _ _ _ _ _ _ _ _ _ _ U) as HH. destruct (hist_decl _ _ _ _ _ _ _ _ _ HH) as (D0 & D1 & D3). pose proof (us_the _ _ _ _ _ _ _ _ _ _ _ U) as (_ & Hbn & Huq).
    assert (Ep : patched_plt w4 pd gd a3 = a3).
    { destruct (user_start O P _ _ (us_new _ _ _ _ _ _ _ _ _ _ _ U) (h_wr HH)) as (_ & H14 & _). apply patched_other; rewrite <- (decl_id _ _ D3); unfold id_plt, id_got_plt; lia. }
    split; [|split; [exact (h_w5 HH)|exact Ep]]. rewrite Ep. rewrite w5_shstrtab. unfold array_kind. rewrite <- (decl_name _ _ D3).
    assert (Hskip : sh_name (sc_sh b) ∉ skip_of w5).
    { intros Hin. assert (G : forall i nm, (0 < i < 14)%nat -> (fst ∘ fst ∘ fst) <$> own_rows (opt_hash_style (lk_options l)) !! i = Some nm -> sh_name (sc_sh b) <> sh_name (hdr_of i (w_sections w5))).
      { intros i nm Hi Hrow E. destruct (own_all O Fin V P NF) as (pd' & gd' & _ & Hown). destruct (Hown i nm Hi Hrow) as [x Hx]. destruct (os_four _ _ _ _ _ Hx) as (a & Ha & _ & _ & Hw).
        assert (Eh : sh_name (hdr_of i (w_sections w5)) = sh_name (sc_sh x)).
        { destruct (kept_stages O) as (K & _). rewrite (hdr_kept i _ _ K). unfold hdr_of. rewrite Ha. simpl. symmetry. apply (decl_name _ _ (proj1 Hw)). }
        assert (x = b). { apply Huq; [apply (os_the _ _ _ _ _ Hx)|]. rewrite <- Hbn. unfold sec_name. rewrite <- Eh, <- E. reflexivity. }
        subst x. pose proof (us_new _ _ _ _ _ _ _ _ _ _ _ U) as Hge. rewrite (os_id _ _ _ _ _ Hx) in Hge. pose proof (n0_ge O). lia. }
      unfold skip_of in Hin. apply elem_of_cons in Hin as [Hin|Hin]; [eapply (G id_symstr); [unfold id_symstr; lia| |exact Hin]|apply elem_of_list_singleton in Hin; eapply (G id_shstr); [unfold id_shstr; lia| |exact Hin]];
        destruct (opt_hash_style (lk_options l)); vm_compute; reflexivity. }
    rewrite bool_decide_eq_false_2 by done.
    assert (Es : st_sh_name (w_shstrtab wr) (array_name kd) = Some (sh_name (sc_sh b))).
    { unfold st_sh_name. rewrite (assoc_elem_Some _ _ _ (ok_nodup _ (st_reach_ok _ (wi_st _ _ _ (oc_winv O)))) (elem_of_list_lookup_2 _ _ _ (us_name _ _ _ _ _ _ _ _ _ _ _ U))). by rewrite (us_sh _ _ _ _ _ _ _ _ _ _ _ U). }
    destruct kd; [by rewrite bool_decide_eq_true_2|]. rewrite bool_decide_eq_false_2; [by rewrite bool_decide_eq_true_2|].
    intros E. assert (Hn : sec_name w b = Some (array_name true)).
    { eapply (kind_name b); [|done]. rewrite w5_shstrtab. unfold array_kind. rewrite E, bool_decide_eq_false_2 by done. by rewrite bool_decide_eq_true_2. }
    rewrite Hbn in Hn. discriminate.
  Qed.
  Lemma ref_name m n : name_ref sn m = Some (RNamed (off_of sn n)) -> is_Some (st_get sn n) -> m = n.
  Proof using O NF.
    unfold name_ref. intros E Hk. destruct (st_get sn m) as [e|] eqn:Ee; [|discriminate]. cbn [fmap option_fmap option_map] in E. apply (inj Some) in E.
    apply (off_inj O NF); [fold sn; by rewrite Ee|done|]. unfold off_of at 1. fold sn. rewrite Ee. by injection E.
  Qed.
  Lemma name_refl n : is_Some (st_get sn n) -> name_ref sn n = Some (RNamed (off_of sn n)).
  Proof using. intros [e He]. unfold name_ref, off_of. rewrite He. done. Qed.
  Lemma ref_defines n v sr : only_referenced es n -> is_Some (st_get sn n) -> v ∈ evs -> defines v sr (RNamed (off_of sn n)) -> sr_section sr = 0%nat.
  Proof using O NF R.
    intros [_ Hu] Hk Hv Hd. destruct (defined_where R _ _ _ Hv Hd) as (x & y & -> & Hx & Hy & Hxs & Hin). destruct (decide (si_name x = "")) as [E|E]; [by eapply (unnamed_zero O R)|].
    destruct (Hu x y Hxs E); [|done]. by eapply (names_here O NF R).
  Qed.
  Lemma array_patched kd n j k ofs pd gd a0 a1 a3 a6 a7 b : user (lo := lo) (w := w) (secs := secs) (w0 := w0) (wr := wr) (ws := ws) (w1 := w1) (extra := extra) (rest' := rest') (w4 := w4) (w5 := w5) (w6 := w6) (w7 := w7) (out := out) (es := es) (array_name kd) k ofs pd gd a0 a1 a3 a6 a7 b ->
    (n = start_of kd /\ j = 0%nat) \/ (n = end_of kd /\ j = (length (sc_chunks a0) - 1)%nat) -> only_referenced es n -> 
    syt_get (w_symtab w7) (RNamed (off_of sn n)) = patch_symbol (u16 (sc_index b)) (addr b + ntotal (blen <$> take j (c_data <$> sc_chunks a0))) (RNamed (off_of sn n)) <$> syt_get (w_symtab w6) (RNamed (off_of sn n)).
  Proof using O Fin V P NF R.
    intros U Hn Hu. pose proof (named_known R n (proj1 Hu)) as Hk. fold sn in Hk. pose proof (us_hist _ _ _ _ _ _ _ _ _ _ _ U) as HH. destruct (user_kind _ _ _ _ _ _ _ _ _ _ _ U) as (Hkd & H5 & Ep).
    destruct (rest6 O) as (null6 & r6 & E6 & El & ->). rewrite steps_get. pose proof (special_a6 O _ _ _ _ _ _ _ _ _ HH) as Ea6. rewrite (w5_strtab O) in Ea6. fold sn in Ea6.
    destruct (user_datas6 O V P _ _ _ _ _ _ _ _ _ _ _ U) as (Ed & Ead & Eix).
    assert (Hlen : length (sc_chunks (patched_plt w4 pd gd a3)) = length (sc_chunks a0)).
    { rewrite <- (fmap_length c_data (sc_chunks a0)), <- Ed, fmap_length, Ea6. pose proof (special_more sn (w_shstrtab w5) (skip_of w5) (patched_plt w4 pd gd a3)) as F. by apply Forall2_length in F. }
    assert (Hne : sc_chunks (patched_plt w4 pd gd a3) <> []).
    { intros E. rewrite E in Hlen. pose proof (user_datas O P R _ _ _ _ _ _ _ _ _ _ _ U) as D. assert (E0 : sc_chunks a0 = []) by (destruct (sc_chunks a0); [done|discriminate]). rewrite E0 in D.
      destruct (us_sec _ _ _ _ _ _ _ _ _ _ _ U) as [_ _ _ S4]. destruct (S4 eq_refl) as (x & Hx & _). destruct (is_nobits b); destruct D as [_ D]; [discriminate|]. destruct (contribs (array_name kd) (all_secs es)); discriminate. }
    assert (Hc : exists c6, sc_chunks a6 !! j = Some c6 /\ RNamed (off_of sn n) ∈ c_symbols c6).
    { rewrite Ea6. destruct Hn as [[-> ->]|[-> ->]]; [eapply special_start; [exact Hkd|by apply name_refl|exact Hne]|]. rewrite <- Hlen. eapply special_end; [exact Hkd|by apply name_refl|exact Hne]. }
    destruct Hc as (c6 & Hc6 & Hr6). pose proof (h_w6 HH) as H6. rewrite E6 in H6. simpl in H6.
    assert (Hj : is_Some (sc_chunks a0 !! j)).
    { apply lookup_lt_is_Some_2. rewrite <- (fmap_length c_data), <- Ed, fmap_length. by eapply lookup_lt_Some. }
    destruct Hj as [c0 Hc0].
    assert (Hnd : NoDup (c_symbols c6)).
    { destruct (user_chunk O Fin V P NF R _ _ _ _ _ _ _ _ _ _ _ _ _ U Hc0) as (c6' & c7 & Hc6' & _ & F). assert (c6' = c6) as -> by congruence. pose proof (cf_syms _ _ _ _ _ F) as (tl & _ & _ & Hnd).
      destruct (sv_chunk _ _ _ _ (wr_sinv O R) _ _ _ _ (h_wr HH) Hc0) as (_ & Hnd0 & _). exact (Hnd Hnd0). }
    rewrite (rest_steps_one w6 r6 k a6 j c6); [|done|by eapply user_relocatable|done|done|done|].
    - rewrite Ed, Ead, Eix. destruct (syt_get (w_symtab w6) _); done.
    - intros i' j' s' c' Hi' Hj' Hr'. destruct (lookup_lt_is_Some_2 out i') as [b' Hb']; [rewrite <- El; by eapply lookup_lt_Some|].
      destruct (history O Fin V) as (pd' & gd' & _ & Hh). destruct (Hh i' b' Hb') as (z0 & z1 & z3 & z6 & z7 & HZ).
      pose proof (h_w6 HZ) as Z6. rewrite E6 in Z6. simpl in Z6. rewrite Hi' in Z6. injection Z6 as <-. pose proof (special_a6 O _ _ _ _ _ _ _ _ _ HZ) as Ez6. rewrite (w5_strtab O) in Ez6. fold sn in Ez6.
      rewrite Ez6 in Hj'. destruct (special_regs _ _ _ _ _ _ _ Hj' Hr') as [(c5 & Hc5 & Hr5)|(kd' & Hkd' & Hw)].
      + exfalso. destruct (regs5 O P _ _ _ _ _ _ _ _ _ _ _ _ HZ Hc5 Hr5) as (cz & Hcz & Hrz).
        destruct (sv_chunk _ _ _ _ (wr_sinv O R) _ _ _ _ (h_wr HZ) Hcz) as (_ & _ & _ & Hdf). apply Hdf in Hrz as (v & Hv & Hdv). apply (ref_defines n) in Hdv; [|done..]. simpl in Hdv. pose proof (h_pos HZ). lia.
      + assert (Hname : (n = start_of kd' /\ j' = 0%nat) \/ (n = end_of kd' /\ j' = (length (sc_chunks (patched_plt w4 pd' gd' z3)) - 1)%nat)).
        { destruct Hw as [[Hw ->]|[Hw ->]]; [left|right]; (split; [symmetry; by apply ref_name|done]). }
        assert (kd' = kd) as -> by (destruct Hn as [[-> _]|[-> _]], Hname as [[E _]|[E _]]; destruct kd, kd'; done).
        destruct (kind_sec _ _ _ _ (h_w5 HZ) Hkd' (us_the _ _ _ _ _ _ _ _ _ _ _ U)) as [Hb2 _]. rewrite (oc_secs O) in Hb2. simpl in Hb2. rewrite Hb' in Hb2. injection Hb2 as ->.
        assert (i' = k) as ->. { eapply (out_nodup O V); [exact Hb'|exact (us_out _ _ _ _ _ _ _ _ _ _ _ U)|done]. }
        split; [done|]. pose proof (h_w5 HZ) as HZ5. rewrite H5 in HZ5. injection HZ5 as HZ5. rewrite <- HZ5, Hlen in Hname.
        destruct Hn as [[-> ->]|[-> ->]], Hname as [[E ->]|[E ->]]; done || (destruct kd; done).
  Qed.
  Lemma sym_index k b s : out !! k = Some b -> st_shndx (s_sym s) = u16 (sc_index b) -> few_sections secs -> secs !! N.to_nat (st_shndx (s_sym s)) = Some b.
  Proof using O.
    intros Hk -> Hf. rewrite (out_index O _ _ Hk), (oc_secs O). unfold few_sections in Hf. rewrite (oc_secs O) in Hf. apply lookup_lt_Some in Hk as Hlt. simpl length in Hf.
    unfold u16. rewrite N.mod_small by lia. rewrite Nat2N.id. exact Hk.
  Qed.
  Lemma array_start kd y : contribs (array_name kd) (all_secs es) <> [] -> only_referenced es (start_of kd) -> all_standard (start_of kd) (all_syms es) -> winner (start_of kd) (all_syms es) = Some y ->
    exists k b s, out !! k = Some b /\ the_sec w secs (array_name kd) b /\ syt_symbols (w_symtab w7) !! off_of sn (start_of kd) = Some s /\ st_shndx (s_sym s) = u16 (sc_index b) /\ st_value (s_sym s) = addr b + st_value (yi_sym y).
  Proof using O Fin V P NF R.
    intros Hc Hu Hst Hw. pose proof (named_known R _ (proj1 Hu)) as Hk. fold sn in Hk.
    destruct (user_of O Fin V P NF R (array_name kd)) as (k & ofs & pd & gd & a0 & a1 & a3 & a6 & a7 & b & U); [by destruct kd|done|].
    assert (H7 := array_patched kd (start_of kd) 0 k ofs pd gd a0 a1 a3 a6 a7 b U (or_introl (conj eq_refl eq_refl)) Hu).
    destruct (table_wr O NF R (start_of kd)) as (s0 & y' & Hs0 & Hw' & Ed); [by destruct kd|exact (proj1 Hu)|done|]. rewrite Hw in Hw'. injection Hw' as <-. fold sn in Hs0.
    assert (Hcore : core <$> syt_get (w_symtab w6) (RNamed (off_of sn (start_of kd))) = core <$> syt_get (w_symtab wr) (RNamed (off_of sn (start_of kd)))).
    { apply (core_w6 O). intros m Hm E. apply ref_name in E; [|done]. subst m. revert Hm. clear. intros Hm. unfold touched_names in Hm. rewrite !elem_of_cons, elem_of_nil in Hm. destruct kd; naive_solver. }
    change (syt_get (w_symtab wr) (RNamed (off_of sn (start_of kd)))) with (syt_symbols (w_symtab wr) !! off_of sn (start_of kd)) in Hcore. rewrite Hs0 in Hcore.
    destruct (syt_get (w_symtab w6) (RNamed (off_of sn (start_of kd)))) as [s6|] eqn:E6; [|discriminate]. cbn [fmap option_fmap option_map] in Hcore. apply (inj Some) in Hcore. injection Hcore as Hc1 _.
    unfold sym_def in Ed. injection Ed as _ _ Ev _. rewrite <- Hc1 in Ev.
    eexists k, b, _. split; [exact (us_out _ _ _ _ _ _ _ _ _ _ _ U)|]. split; [exact (us_the _ _ _ _ _ _ _ _ _ _ _ U)|]. split; [exact H7|]. split; [done|].
    unfold patch_symbol. simpl st_value. rewrite Ev. change (ntotal (blen <$> [])) with 0. lia.
  Qed.
  Lemma array_end kd : contribs (array_name kd) (all_secs es) <> [] -> only_referenced es (end_of kd) -> all_standard (end_of kd) (all_syms es) ->
    exists k b s, out !! k = Some b /\ the_sec w secs (array_name kd) b /\ syt_symbols (w_symtab w7) !! off_of sn (end_of kd) = Some s /\ st_shndx (s_sym s) = u16 (sc_index b) /\
      st_value (s_sym s) = addr b + if is_nobits b then 0 else memsz b + ntotal (si_size <$> take (length (contribs (array_name kd) (all_secs es)) - 1) (contribs (array_name kd) (all_secs es))).
  Proof using O Fin V P NF R.
    intros Hc Hu Hst. pose proof (named_known R _ (proj1 Hu)) as Hk. fold sn in Hk.
    destruct (user_of O Fin V P NF R (array_name kd)) as (k & ofs & pd & gd & a0 & a1 & a3 & a6 & a7 & b & U); [by destruct kd|done|].
    assert (H7 := array_patched kd (end_of kd) _ k ofs pd gd a0 a1 a3 a6 a7 b U (or_intror (conj eq_refl eq_refl)) Hu).
    destruct (table_wr O NF R (end_of kd)) as (s0 & y' & Hs0 & _ & _); [by destruct kd|exact (proj1 Hu)|done|]. fold sn in Hs0.
    destruct (user_kind _ _ _ _ _ _ _ _ _ _ _ U) as (Hkd & H5 & Ep). rewrite Ep in Hkd, H5.
    destruct (special_exact _ _ (rn_special (oc_run O))) as (_ & E6 & _). rewrite (w5_strtab O) in E6. fold sn in E6.
    assert (Hg : syt_get (w_symtab (set_got_symbol w5)) (RNamed (off_of sn (end_of kd))) = syt_get (w_symtab w5) (RNamed (off_of sn (end_of kd)))).
    { apply got_symbol_get. rewrite (w5_strtab O). intros E. apply ref_name in E; [|done]. by destruct kd. }
    pose proof (core_w5 O (RNamed (off_of sn (end_of kd)))) as Hcore. change (syt_get (w_symtab wr) (RNamed (off_of sn (end_of kd)))) with (syt_symbols (w_symtab wr) !! off_of sn (end_of kd)) in Hcore. rewrite Hs0 in Hcore.
    assert (Hv6 : syt_get (w_symtab w6) (RNamed (off_of sn (end_of kd))) = set_value (size_on_disk a3) <$> syt_get (w_symtab w5) (RNamed (off_of sn (end_of kd)))).
    { rewrite E6, <- Hg. apply (special_tab_end _ _ _ kd); [by apply name_refl| |by eapply elem_of_list_lookup_2|done|].
      - intros E. apply ref_name in E; [|done]. by destruct kd.
      - intros s' Hs' Hk'. apply elem_of_list_lookup in Hs' as (i & Hi). destruct (kind_sec _ _ _ _ Hi Hk' (us_the _ _ _ _ _ _ _ _ _ _ _ U)) as [Hb _].
        assert (Hb2 : secs !! S k = Some b) by (rewrite (oc_secs O); exact (us_out _ _ _ _ _ _ _ _ _ _ _ U)). assert (i = S k) as -> by (by eapply secs_id). congruence. }
    destruct (syt_get (w_symtab w5) (RNamed (off_of sn (end_of kd)))) as [s5|] eqn:E5; [|discriminate]. rewrite Hv6 in H7. cbn [fmap option_fmap option_map] in H7.
    eexists k, b, _. split; [exact (us_out _ _ _ _ _ _ _ _ _ _ _ U)|]. split; [exact (us_the _ _ _ _ _ _ _ _ _ _ _ U)|]. split; [exact H7|]. split; [done|].
    unfold patch_symbol. simpl st_value. pose proof (us_hist _ _ _ _ _ _ _ _ _ _ _ U) as HH. destruct (hist_decl _ _ _ _ _ _ _ _ _ HH) as (_ & _ & D3).
    destruct (user_chunks O P _ _ _ _ _ _ _ _ _ HH (us_new _ _ _ _ _ _ _ _ _ _ _ U)) as (_ & _ & _ & Hsy).
    assert (Hm : memsz b = memsz a3). { destruct (h_written HH) as (D & _ & _ & _ & ->). rewrite decide_False; [done|]. rewrite <- (decl_synth _ _ D), Hsy. discriminate. }
    unfold size_on_disk. rewrite <- (decl_type _ _ D3). fold (is_nobits b). change (sh_size (sc_sh a3)) with (memsz a3). rewrite <- Hm. change (sh_type (sc_sh b) =? SHT_NOBITS) with (is_nobits b).
    pose proof (user_datas O P R _ _ _ _ _ _ _ _ _ _ _ U) as D. rewrite <- (fmap_length c_data (sc_chunks a0)). destruct (is_nobits b); destruct D as [D1 D2]; rewrite D2.
    - change (ntotal (blen <$> take (length [[]] - 1) [[]])) with 0. lia.
    - rewrite fmap_length, <- fmap_take, <- list_fmap_compose. rewrite (list_fmap_ext (blen ∘ si_bytes) si_size (take (length (contribs (array_name kd) (all_secs es)) - 1) (contribs (array_name kd) (all_secs es)))); [lia|].
      intros i y Hy. simpl. apply D1. apply lookup_take_Some in Hy as [Hy _]. by eapply elem_of_list_lookup_2.
  Qed.
  (** ** The global offset table *)
  Let gotn := "_GLOBAL_OFFSET_TABLE_".
  Lemma got_not_special : is_Some (st_get sn gotn) -> ~ special_ref sn (RNamed (off_of sn gotn)) /\ forall k, name_ref sn (end_of k) <> Some (RNamed (off_of sn gotn)).
  Proof using O NF.
    intros Hk. split.
    - intros (m & Hm & E). apply ref_name in E; [|done]. subst m. revert Hm. apply (bool_decide_unpack _). vm_compute. exact I.
    - intros kd E. apply ref_name in E; [|done]. destruct kd; discriminate.
  Qed.
  Lemma got_symbol : only_referenced es gotn -> all_standard gotn (all_syms es) ->
    exists k b s, out !! k = Some b /\ the_sec w secs ".got.plt" b /\ syt_symbols (w_symtab w7) !! off_of sn gotn = Some s /\ st_shndx (s_sym s) = u16 (sc_index b) /\ st_value (s_sym s) = addr b.
  Proof using O Fin V P NF R.
    intros Hu Hst. pose proof (named_known R _ (proj1 Hu)) as Hk. fold sn in Hk. destruct (got_not_special Hk) as [Hns He].
    destruct (table_wr O NF R gotn) as (s0 & y' & Hs0 & _ & _); [done|exact (proj1 Hu)|done|]. fold sn in Hs0.
    assert (H7 : syt_get (w_symtab w7) (RNamed (off_of sn gotn)) = syt_get (w_symtab w6) (RNamed (off_of sn gotn))).
    { apply (sym_none O Fin V P R); [exact Hns|]. intros v sr Hv Hd. eapply ref_defines; [exact Hu|exact Hk|exact Hv|exact Hd]. }
    destruct (special_exact _ _ (rn_special (oc_run O))) as (_ & E6 & _). rewrite (w5_strtab O) in E6. fold sn in E6.
    assert (H6 : syt_get (w_symtab w6) (RNamed (off_of sn gotn)) = syt_get (w_symtab (set_got_symbol w5)) (RNamed (off_of sn gotn))).
    { rewrite E6. generalize (w_symtab (set_got_symbol w5)). generalize (w_sections w5) at 1. intros k. induction k as [|x k IH]; intros t; [done|]. cbn [fold_left]. rewrite IH. by apply special_tab_get. }
    destruct (own_all O Fin V P NF) as (pd & gd & _ & Hown). destruct (Hown 6%nat ".got.plt") as [b Hb]; [lia|destruct (opt_hash_style (lk_options l)); vm_compute; reflexivity|].
    destruct (os_hist _ _ _ _ _ Hb) as (j & a0 & a1 & a3 & a6 & a7 & HH).
    pose proof (core_w5 O (RNamed (off_of sn gotn))) as Hcore. change (syt_get (w_symtab wr) (RNamed (off_of sn gotn))) with (syt_symbols (w_symtab wr) !! off_of sn gotn) in Hcore. rewrite Hs0 in Hcore.
    destruct (syt_get (w_symtab w5) (RNamed (off_of sn gotn))) as [s5|] eqn:E5; [|discriminate].
    assert (Hg : syt_get (w_symtab (set_got_symbol w5)) (RNamed (off_of sn gotn)) = Some (s5 <| s_sym := s_sym s5 <| st_shndx := match get_section id_got_plt (w_sections w5) with Some s => u16 (sc_index s) | None => 0 end |> <| st_value := sh_addr (hdr_of id_got_plt (w_sections w5)) |> |>)).
    { unfold set_got_symbol. rewrite (w5_strtab O). fold sn. fold gotn. destruct (st_get sn gotn) as [e|] eqn:Ee; [|by destruct Hk].
      assert (Eo : u32 (en_offset e) = off_of sn gotn) by (unfold off_of; by rewrite Ee). rewrite Eo.
      etransitivity; [apply (get_modify (w_symtab w5) (RNamed _))|]. rewrite decide_True by done. rewrite E5. reflexivity. }
    destruct (kept_stages O) as (K5 & K6 & _).
    assert (Ha : sh_addr (hdr_of id_got_plt (w_sections w5)) = addr b).
    { rewrite (hdr_kept id_got_plt _ _ K5). destruct (os_four _ _ _ _ _ Hb) as (a & Ha & Had & _). unfold hdr_of. change id_got_plt with 6%nat. rewrite Ha. exact Had. }
    assert (Hi : match get_section id_got_plt (w_sections w5) with Some s => u16 (sc_index s) | None => 0 end = u16 (sc_index b)).
    { destruct (os_four _ _ _ _ _ Hb) as (a & Ha4 & _ & _ & Hw4). destruct (get_kept id_got_plt _ _ a K5 Ha4) as (a' & Ha' & Ka). rewrite Ha'. destruct Hw4 as (_ & -> & _). by rewrite Ka. }
    pose proof (os_out _ _ _ _ _ Hb) as Hin. apply elem_of_list_lookup in Hin as [k Hk']. eexists k, b, _.
    split; [exact Hk'|]. split; [exact (os_the _ _ _ _ _ Hb)|]. split; [etransitivity; [exact H7|]; etransitivity; [exact H6|exact Hg]|].
    split; [exact Hi|exact Ha].
  Qed.
  (** ** Entry point *)
  Lemma entry_point : match st_get sn "_start" with
    | Some _ => exists s, syt_symbols (w_symtab w) !! off_of sn "_start" = Some s /\ e_entry (w_eh w) = st_value (s_sym s)
    | None => e_entry (w_eh w) = 0 end.
  Proof using O.
    destruct (finish_spec _ _ (rn_fin (oc_run O))) as (entry & ph & phs & _ & Hm & _ & Ew).
    assert (E1 : w_strtab (compute_tables w7) = sn) by (destruct (run_fields (oc_run O)) as (_ & _ & _ & _ & _ & _ & _ & _ & _ & _ & _ & _ & _ & _ & E & _); exact E).
    assert (E2 : w_symtab (compute_tables w7) = w_symtab w) by (rewrite Ew; reflexivity).
    assert (E3 : w_eh (compute_tables w7) = w_eh wr) by (destruct (run_fields (oc_run O)) as (_ & _ & _ & _ & _ & _ & _ & _ & _ & _ & _ & _ & _ & _ & _ & _ & _ & E & _); exact E).
    assert (E4 : e_entry (w_eh w) = entry) by (rewrite Ew; reflexivity). rewrite E1, E2, E3 in Hm. rewrite E4. unfold off_of.
    destruct (st_get sn "_start") as [e|]; [exact Hm|]. rewrite Hm.
    destruct (winv_const _ _ _ _ (oc_new O) (oc_winv O)) as (-> & _). reflexivity.
  Qed.
  (** ** Undefined symbols *)
  Lemma shndx_special (k : list section) t r sn' secn skip : st_shndx ∘ s_sym <$> syt_get (fold_left (special_tab sn' secn skip) k t) r = st_shndx ∘ s_sym <$> syt_get t r.
  Proof using.
    revert t. induction k as [|x k IH]; intros t; [done|]. cbn [fold_left]. rewrite IH. unfold special_tab, set_end. destruct (array_kind secn skip x); [|done]. destruct (name_ref _ _); [|done].
    rewrite get_modify. case_decide; [|done]. destruct (syt_get t r); done.
  Qed.
  Lemma unpatched n s : n <> "" -> named n (all_syms es) <> [] -> ~ object_defines es n -> ~ linker_defines es n ->
    (forall b kd, b ∈ secs -> sec_name w b = Some (array_name kd) -> contribs (array_name kd) (all_secs es) <> []) ->
    syt_symbols (w_symtab w7) !! off_of sn n = Some s -> st_shndx (s_sym s) = 0.
  Proof using O Fin V P NF R.
    intros Hn Hne Hod Hld Hon Hs. pose proof (named_known R n Hne) as Hk. fold sn in Hk.
    assert (Hu : only_referenced es n).
    { split; [exact Hne|]. intros x y Hx Hxn Hy Hl. apply Hod. exists y. split; [exact Hy|]. right. by exists x. }
    assert (Hg : n <> gotn) by (intros ->; apply Hld; by left).
    assert (H7 : syt_get (w_symtab w7) (RNamed (off_of sn n)) = syt_get (w_symtab w6) (RNamed (off_of sn n))).
    { destruct (rest6 O) as (null6 & r6 & E6 & El & ->). rewrite steps_get, rest_steps_none; [by destruct (syt_get (w_symtab w6) _)|].
      intros i' j' s' c' Hi' Hj' Hr'. destruct (lookup_lt_is_Some_2 out i') as [b' Hb']; [rewrite <- El; by eapply lookup_lt_Some|].
      destruct (history O Fin V) as (pd' & gd' & _ & Hh). destruct (Hh i' b' Hb') as (z0 & z1 & z3 & z6 & z7 & HZ).
      pose proof (h_w6 HZ) as Z6. rewrite E6 in Z6. simpl in Z6. rewrite Hi' in Z6. injection Z6 as <-. pose proof (special_a6 O _ _ _ _ _ _ _ _ _ HZ) as Ez6. rewrite (w5_strtab O) in Ez6. fold sn in Ez6.
      rewrite Ez6 in Hj'. destruct (special_regs _ _ _ _ _ _ _ Hj' Hr') as [(c5 & Hc5 & Hr5)|(kd' & Hkd' & Hw)].
      + destruct (regs5 O P _ _ _ _ _ _ _ _ _ _ _ _ HZ Hc5 Hr5) as (cz & Hcz & Hrz).
        destruct (sv_chunk _ _ _ _ (wr_sinv O R) _ _ _ _ (h_wr HZ) Hcz) as (_ & _ & _ & Hdf). apply Hdf in Hrz as (v & Hv & Hdv). apply (ref_defines n) in Hdv; [|done..]. simpl in Hdv. pose proof (h_pos HZ). lia.
      + destruct (stage5 _ _ (h_w5 HZ)) as (b & Hb & Hbn & _). pose proof (kind_name _ _ _ Hkd' Hbn) as Hbn'. apply elem_of_list_lookup_2 in Hb. pose proof (Hon _ _ Hb Hbn') as Hcs.
        apply Hld. right. destruct Hw as [[Hw _]|[Hw _]]; apply ref_name in Hw; try done; subst n; destruct kd'; eexists _, _, _; (split; [|split; [|exact Hcs]]);
          [by left|by left|by right; left|by left|by left|by right; left|by right; left|by right; left]. }
    destruct (special_exact _ _ (rn_special (oc_run O))) as (_ & E6 & _).
    pose proof (shndx_special (w_sections w5) (w_symtab (set_got_symbol w5)) (RNamed (off_of sn n)) (w_strtab w5) (w_shstrtab w5) (skip_of w5)) as Hsp. rewrite <- E6, <- H7 in Hsp.
    rewrite got_symbol_get in Hsp. 2:{ rewrite (w5_strtab O). intros E. apply ref_name in E; [|done]. by apply Hg. }
    change (syt_get (w_symtab w7) (RNamed (off_of sn n))) with (syt_symbols (w_symtab w7) !! off_of sn n) in Hsp. rewrite Hs in Hsp.
    pose proof (core_w5 O (RNamed (off_of sn n))) as Hcore. destruct (syt_get (w_symtab w5) (RNamed (off_of sn n))) as [s5|]; [|discriminate].
    change (syt_get (w_symtab wr) (RNamed (off_of sn n))) with (syt_symbols (w_symtab wr) !! off_of sn n) in Hcore.
    destruct (syt_symbols (w_symtab wr) !! off_of sn n) as [s0|] eqn:E0; [|discriminate].
    cbn [fmap option_fmap option_map] in Hcore, Hsp. apply (inj Some) in Hcore, Hsp. injection Hcore as Hc1 _. cbn in Hsp. rewrite Hsp, Hc1.
    destruct (decide (st_shndx (s_sym s0) = 0)) as [|Hd]; [done|]. exfalso. apply Hod.
    assert (H0 : syt_symbols (syt_new false) !! off_of sn n = None) by (simpl; apply lookup_singleton_None; intros E; by apply (off_pos O NF R n Hn Hk)).
    destruct (defined_by _ _ _ _ H0 (table_events R) (strip s0)) as (e & He & Ha & Hde); [cbn; by rewrite lookup_fmap, E0|exact Hd|].
    apply elem_of_list_fmap in He as (y & -> & Hy). apply (about_named O NF R n y Hk Hy) in Ha. exists y. split; [by apply elem_of_list_filter|]. left. exact Hde.
  Qed.
  (** A name of a library's dynamic symbol, seen from the table. *)
  Lemma dynamic_listed n s : is_Some (st_get sn n) -> syt_symbols (w_symtab w) !! off_of sn n = Some s -> is_Some (s_dynamic s) -> exists sym, library_lists wd l n sym.
  Proof using O NF R.
    intros Hk Es Hd. destruct (keeps_all O sym_static) as [KA _]. unfold ProofStatic.keeps in KA. apply (f_equal (fun m : gmap N _ => m !! off_of sn n)) in KA. rewrite !lookup_fmap, Es in KA.
    destruct (syt_symbols (w_symtab wr) !! off_of sn n) as [s0|] eqn:Hs0; [|discriminate]. cbn [fmap option_fmap option_map] in KA. apply (inj Some) in KA. unfold sym_static in KA. injection KA as _ _ _ _ _ _ _ K8. rewrite K8 in Hd.
    destruct (yv_dyn _ _ (yinv_wr R) _ _ Hs0 Hd) as (path & e & sym & name & so & r & Hev & Hnk & Hoff). fold sn in Hnk, Hoff. apply (off_inj O NF _ _ Hnk Hk) in Hoff as ->.
    apply elem_of_list_split in Hev as (pre & post & Hev). destruct (ld_ok _ _ _ _ _ R _ _ _ Hev) as (H1 & H2 & H3 & _). exists sym, path, e. done.
  Qed.
  (** Such a name is left to a library, or is in the list of the final check. *)
  Lemma left_over n y : n <> "" -> y ∈ named n (all_syms es) -> all_standard n (all_syms es) -> binding (yi_sym y) <> 0 -> ~ object_defines es n -> ~ linker_defines es n ->
    (forall b kd, b ∈ secs -> sec_name w b = Some (array_name kd) -> contribs (array_name kd) (all_secs es) <> []) ->
    exists s, syt_symbols (w_symtab w) !! off_of sn n = Some s /\ st_shndx (s_sym s) = 0 /\ (is_Some (s_dynamic s) \/ RNamed (off_of sn n) ∈ undefined_symbols o w).
  Proof using O Fin V P NF R.
    intros Hn Hy Hst Hb Hod Hld Hon. assert (Hne : named n (all_syms es) <> []) by (intros E; rewrite E in Hy; by apply elem_of_nil in Hy).
    pose proof (named_known R n Hne) as Hk. fold sn in Hk.
    destruct (table_wr O NF R n Hn Hne Hst) as (s0 & z & Hs0 & Hw & Ed). fold sn in Hs0.
    destruct (keeps_all O sym_static) as [KA _]. assert (Ew : w_symtab w = w_symtab w7) by (destruct (run_fields (oc_run O)) as (_ & _ & _ & _ & _ & _ & E & _); exact E).
    unfold ProofStatic.keeps in KA. apply (f_equal (fun m : gmap N _ => m !! off_of sn n)) in KA. rewrite !lookup_fmap, Hs0 in KA.
    destruct (syt_symbols (w_symtab w) !! off_of sn n) as [s|] eqn:Es; [|discriminate]. cbn [fmap option_fmap option_map] in KA. apply (inj Some) in KA. unfold sym_static in KA. injection KA as _ K2 _ _ _ _ _ K8.
    assert (Hsh : st_shndx (s_sym s) = 0). { rewrite Ew in Es. eapply unpatched; eauto. }
    exists s. split; [done|]. split; [done|]. rewrite K8. destruct (s_dynamic s0) as [d|] eqn:Edy; [by left|]. right.
    assert (Hrk : rank (yi_sym z) = top_rank n (all_syms es)).
    { unfold winner in Hw. destruct (filter _ _) as [|z' zs] eqn:Ef; [discriminate|]. injection Hw as ->. assert (Hz : z ∈ filter (fun y => rank (yi_sym y) = top_rank n (all_syms es)) (named n (all_syms es))) by (rewrite Ef; by left).
      by apply elem_of_list_filter in Hz as [Hz _]. }
    assert (Hry : rank (yi_sym y) <= top_rank n (all_syms es)). { unfold top_rank, nmax. apply foldr_max_in. apply elem_of_list_fmap. by exists y. }
    assert (H1 : 1 <= rank (yi_sym y)).
    { specialize (Hst y Hy). unfold standard, strength in Hst. unfold rank, strength. revert Hst Hb. clear. generalize (binding (yi_sym y)). intros b.
      destruct (N.eqb_spec b 0); [done|]. destruct (N.eqb_spec b 2); [simpl; lia|]. destruct (N.eqb_spec b 1); [simpl; lia|]. intros [? ?]; discriminate. }
    assert (Hbz : binding (yi_sym z) = 1 \/ binding (yi_sym z) = 2).
    { assert (H2 : 1 <= rank (yi_sym z)) by lia. unfold rank, strength in H2. revert H2. clear. generalize (binding (yi_sym z)). intros b.
      destruct (N.eqb_spec b 0); [simpl; lia|]. destruct (N.eqb_spec b 2); [by right|]. destruct (N.eqb_spec b 1); [by left|]. simpl. lia. }
    unfold sym_def in Ed. injection Ed as Ei _ _ _.
    unfold undefined_symbols. apply elem_of_list_fmap. exists (off_of sn n). split; [done|]. apply elem_of_list_filter. split.
    - rewrite Es. cbn [fmap option_fmap option_map from_option]. unfold is_unresolved, is_global, is_weak, st_bind. rewrite Hsh, K2, Ei, K8. rewrite N.shiftr_div_pow2. change (2^4) with 16. fold (binding (yi_sym z)).
      rewrite (bool_decide_eq_true_2 (None = None)) by reflexivity. destruct Hbz as [-> | ->]; reflexivity.
    - unfold o; rewrite (vo_sym _ V). unfold keys. apply elem_of_elements, elem_of_dom. by rewrite Es.
  Qed.
  Lemma must_dynamic n y : undefined_symbols o w = [] -> n <> "" -> y ∈ named n (all_syms es) -> all_standard n (all_syms es) -> binding (yi_sym y) <> 0 -> ~ object_defines es n -> ~ linker_defines es n ->
    (forall b kd, b ∈ secs -> sec_name w b = Some (array_name kd) -> contribs (array_name kd) (all_secs es) <> []) ->
    exists s, syt_symbols (w_symtab w) !! off_of sn n = Some s /\ is_Some (s_dynamic s) /\ st_shndx (s_sym s) = 0.
  Proof using O Fin V P NF R.
    intros Hun Hn Hy Hst Hb Hod Hld Hon. destruct (left_over n y Hn Hy Hst Hb Hod Hld Hon) as (s & Hs & Hsh & [Hd|Hin]); [by exists s|].
    rewrite Hun in Hin. by apply elem_of_nil in Hin.
  Qed.
  Lemma settled n y : undefined_symbols o w = [] -> n <> "" -> y ∈ named n (all_syms es) -> all_standard n (all_syms es) -> binding (yi_sym y) <> 0 ->
    (forall b kd, b ∈ secs -> sec_name w b = Some (array_name kd) -> contribs (array_name kd) (all_secs es) <> []) ->
    object_defines es n \/ linker_defines es n \/ exists sym, library_lists wd l n sym.
  Proof using O Fin V P NF R.
    intros Hun Hn Hy Hst Hb Hon. destruct (object_dec es n) as [|Hod]; [by left|]. destruct (linker_dec es n) as [|Hld]; [by right; left|]. right. right.
    destruct (must_dynamic n y Hun Hn Hy Hst Hb Hod Hld Hon) as (s & Hs & Hd & _). eapply dynamic_listed; [|exact Hs|exact Hd].
    apply (named_known R n). intros E; rewrite E in Hy; by apply elem_of_nil in Hy.
  Qed.
End links.

Section good.
  Context {wd : world} {lo : lib_oracle} {l : linker} {fuel : nat} {w : writer} {secs : list section}.
  Context (G : good_link wd lo l fuel w secs).
  Context {es : list (string * elf_obj)} {evs : list event} (L : loading wd lo l fuel es evs).
  Context (Hnn : forall y, y ∈ all_syms es -> nonul (yi_name y)).

  Lemma good_start kd y : contribs (array_name kd) (all_secs es) <> [] -> only_referenced es (start_of kd) -> all_standard (start_of kd) (all_syms es) -> winner (start_of kd) (all_syms es) = Some y -> few_sections secs ->
    exists s sym, the_sec w secs (array_name kd) s /\ symtab_entry w secs (start_of kd) sym /\ secs !! N.to_nat (st_shndx sym) = Some s /\ st_value sym = addr s + st_value (yi_sym y).
  Proof using G L Hnn.
    intros Hc Hu Hst Hw Hf.
    destruct (links_outcome _ _ _ _ _ _ (gl_links _ _ _ _ _ _ G)) as (w0 & wr & ws & w1 & extra & null & rest & rest' & st & w3 & w4 & w5 & w6 & w7 & null' & out & O).
    pose proof (proj2 (gl_links _ _ _ _ _ _ G)) as Fin. destruct G as [_ V P PL NF AF SF].
    destruct L as (wr' & Hr & R). rewrite (oc_resolve O) in Hr. injection Hr as <-.
    destruct (array_start O Fin V P NF R kd y Hc Hu Hst Hw) as (k & b & s & Hk & Hthe & Hs & Hix & Hv).
    assert (Ew : w_symtab w = w_symtab w7) by (destruct (run_fields (oc_run O)) as (_ & _ & _ & _ & _ & _ & E & _); exact E).
    exists b, (s_sym s). split; [done|]. split; [|split; [by eapply (sym_index O)|done]].
    eapply (entry_written O Fin V P NF R PL SF); [by apply (named_known R), Hu| |done|by rewrite Ew]. destruct kd; apply (bool_decide_unpack _); vm_compute; exact I.
  Qed.
  Lemma good_end kd : contribs (array_name kd) (all_secs es) <> [] -> only_referenced es (end_of kd) -> all_standard (end_of kd) (all_syms es) -> few_sections secs ->
    exists s sym, the_sec w secs (array_name kd) s /\ symtab_entry w secs (end_of kd) sym /\ secs !! N.to_nat (st_shndx sym) = Some s /\
      st_value sym = addr s + if is_nobits s then 0 else memsz s + ntotal (si_size <$> take (length (contribs (array_name kd) (all_secs es)) - 1) (contribs (array_name kd) (all_secs es))).
  Proof using G L Hnn.
    intros Hc Hu Hst Hf.
    destruct (links_outcome _ _ _ _ _ _ (gl_links _ _ _ _ _ _ G)) as (w0 & wr & ws & w1 & extra & null & rest & rest' & st & w3 & w4 & w5 & w6 & w7 & null' & out & O).
    pose proof (proj2 (gl_links _ _ _ _ _ _ G)) as Fin. destruct G as [_ V P PL NF AF SF].
    destruct L as (wr' & Hr & R). rewrite (oc_resolve O) in Hr. injection Hr as <-.
    destruct (array_end O Fin V P NF R kd Hc Hu Hst) as (k & b & s & Hk & Hthe & Hs & Hix & Hv).
    assert (Ew : w_symtab w = w_symtab w7) by (destruct (run_fields (oc_run O)) as (_ & _ & _ & _ & _ & _ & E & _); exact E).
    exists b, (s_sym s). split; [done|]. split; [|split; [by eapply (sym_index O)|done]].
    eapply (entry_written O Fin V P NF R PL SF); [by apply (named_known R), Hu| |done|by rewrite Ew]. destruct kd; apply (bool_decide_unpack _); vm_compute; exact I.
  Qed.
  Lemma good_got : only_referenced es "_GLOBAL_OFFSET_TABLE_" -> all_standard "_GLOBAL_OFFSET_TABLE_" (all_syms es) -> few_sections secs ->
    exists s sym, the_sec w secs ".got.plt" s /\ symtab_entry w secs "_GLOBAL_OFFSET_TABLE_" sym /\ secs !! N.to_nat (st_shndx sym) = Some s /\ st_value sym = addr s.
  Proof using G L Hnn.
    intros Hu Hst Hf.
    destruct (links_outcome _ _ _ _ _ _ (gl_links _ _ _ _ _ _ G)) as (w0 & wr & ws & w1 & extra & null & rest & rest' & st & w3 & w4 & w5 & w6 & w7 & null' & out & O).
    pose proof (proj2 (gl_links _ _ _ _ _ _ G)) as Fin. destruct G as [_ V P PL NF AF SF].
    destruct L as (wr' & Hr & R). rewrite (oc_resolve O) in Hr. injection Hr as <-.
    destruct (got_symbol O Fin V P NF R Hu Hst) as (k & b & s & Hk & Hthe & Hs & Hix & Hv).
    assert (Ew : w_symtab w = w_symtab w7) by (destruct (run_fields (oc_run O)) as (_ & _ & _ & _ & _ & _ & E & _); exact E).
    exists b, (s_sym s). split; [done|]. split; [|split; [by eapply (sym_index O)|done]].
    eapply (entry_written O Fin V P NF R PL SF); [by apply (named_known R), Hu| |done|by rewrite Ew]. apply (bool_decide_unpack _); vm_compute; exact I.
  Qed.
  Lemma good_entry : if decide (Exists (fun y => yi_name y = "_start") (all_syms es)) then exists sym, symtab_entry w secs "_start" sym /\ e_entry (w_eh w) = st_value sym else e_entry (w_eh w) = 0.
  Proof using G L Hnn.
    destruct (links_outcome _ _ _ _ _ _ (gl_links _ _ _ _ _ _ G)) as (w0 & wr & ws & w1 & extra & null & rest & rest' & st & w3 & w4 & w5 & w6 & w7 & null' & out & O).
    pose proof (proj2 (gl_links _ _ _ _ _ _ G)) as Fin. destruct G as [_ V P PL NF AF SF].
    destruct L as (wr' & Hr & R). rewrite (oc_resolve O) in Hr. injection Hr as <-.
    pose proof (entry_point O) as HE. case_decide as Hd.
    - apply Exists_exists in Hd as (y & Hy & Hyn). pose proof (sym_known R y Hy) as Hk. rewrite Hyn in Hk. destruct Hk as [e He]. rewrite He in HE. destruct HE as (s & Hs & HE).
      exists (s_sym s). split; [|done]. eapply (entry_written O Fin V P NF R PL SF); [by rewrite He| |done|done]. apply (bool_decide_unpack _); vm_compute; exact I.
    - destruct (st_get (w_strtab wr) "_start") as [e|] eqn:He; [|done]. exfalso.
      assert (Hk : is_Some (st_get (w_strtab wr) "_start")) by (by rewrite He). apply (yv_names _ _ (yinv_wr R)) in Hk as [Hk|(y & Hy & Hyn)]; [discriminate|].
      rewrite (ld_syms _ _ _ _ _ R) in Hy. apply Hd. apply Exists_exists. by exists y.
  Qed.
  Lemma good_settled n y : n <> "" -> y ∈ named n (all_syms es) -> all_standard n (all_syms es) -> binding (yi_sym y) <> 0 ->
    object_defines es n \/ linker_defines es n \/ exists sym, library_lists wd l n sym.
  Proof using G L.
    intros Hn Hy Hst Hb. pose proof (good_only G L) as Hon. pose proof (link_settled _ _ _ _ _ (proj1 (gl_links _ _ _ _ _ _ G))) as Hun.
    destruct (links_outcome _ _ _ _ _ _ (gl_links _ _ _ _ _ _ G)) as (w0 & wr & ws & w1 & extra & null & rest & rest' & st & w3 & w4 & w5 & w6 & w7 & null' & out & O).
    pose proof (proj2 (gl_links _ _ _ _ _ _ G)) as Fin. destruct G as [_ V P PL NF AF SF].
    destruct L as (wr' & Hr & R). rewrite (oc_resolve O) in Hr. injection Hr as <-.
    apply (settled O Fin V P NF R n y Hun Hn Hy Hst Hb). intros b kd Hbs Hbn. apply (Hon b); [done|done|by destruct kd|]. destruct kd; apply (bool_decide_unpack _); vm_compute; exact I.
  Qed.
End good.
