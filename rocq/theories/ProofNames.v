(** The symbol table of the output, name by name (C10-C15, C58). *)
From Verif Require Export SpecNames ProofLinks ProofFields.

(** An entry's section index comes from one of the symbols of that name. *)
Lemma shndx_from t0 n l t : syt_symbols t0 !! n = None -> add_events t0 l = Some t ->
  forall s, syt_symbols t !! n = Some s -> exists e, e ∈ l /\ SpecSym.about n e /\ st_shndx (s_sym s) = st_shndx (ev_sym e).
Proof.
  intros Hn H. apply (add_events_ind (fun l t => forall s, syt_symbols t !! n = Some s -> exists e, e ∈ l /\ SpecSym.about n e /\ st_shndx (s_sym s) = st_shndx (ev_sym e)) t0); [| |done].
  - intros s Hs. congruence.
  - clear. intros l t e t' Hl IH He s Hs. rewrite (add_event_at _ _ _ n He) in Hs.
    assert (G : (exists old, syt_symbols t !! n = Some old /\ st_shndx (s_sym s) = st_shndx (s_sym old)) \/ SpecSym.about n e /\ st_shndx (s_sym s) = st_shndx (ev_sym e)).
    { destruct (decide (SpecSym.about n e)) as [Ha|Ha]; [|by left; exists s]. destruct (syt_symbols t !! n) as [old|]; simpl in Hs.
      - unfold merge_symbol in Hs. destruct (_ && _); [discriminate|]. destruct (negb _); [injection Hs as <-; by right|].
        destruct (_ =? _) eqn:E; injection Hs as <-; [by right|]. left. by exists old.
      - injection Hs as <-. by right. }
    destruct G as [(old & Ho & E)|[Ha E]].
    + destruct (IH old Ho) as (e' & He' & ? & ?). exists e'. split; [apply elem_of_app; by left|]. split; [done|congruence].
    + exists e. split; [apply elem_of_app; right; by left|done].
Qed.
(** Two strong definitions are refused; only symbols of that name matter. *)
Lemma two_strong t0 l1 e1 l2 e2 l3 t : add_events t0 (l1 ++ e1 :: l2 ++ e2 :: l3) = Some t -> is_named e1 -> is_named e2 -> st_name (ev_sym e1) = st_name (ev_sym e2) ->
  binding (ev_sym e1) = 1 -> binding (ev_sym e2) = 1 -> defined (ev_sym e1) -> defined (ev_sym e2) -> syt_symbols t0 !! st_name (ev_sym e1) = None ->
  Forall (fun e => SpecSym.about (st_name (ev_sym e1)) e -> standard (ev_sym e)) (l1 ++ e1 :: l2) -> False.
Proof.
  intros H Hn1 Hn2 Hname Hb1 Hb2 Hd1 Hd2 H0 Hst.
  assert (Happ : forall a b t, add_events t (a ++ b) = (t' ← add_events t a; add_events t' b)).
  { intros a b; induction a as [|x a IH]; intros t1; [done|]. simpl. destruct (add_event t1 x); simpl; auto. }
  replace (l1 ++ e1 :: l2 ++ e2 :: l3) with ((l1 ++ e1 :: l2) ++ e2 :: l3) in H by (by rewrite <- app_assoc).
  rewrite Happ in H. destruct (add_events t0 (l1 ++ e1 :: l2)) as [t1|] eqn:H1; [|discriminate]. simpl in H.
  destruct (strong_survives t0 l1 e1 l2 t1) as (s & Hs & Hb & Hd); [done..|].
  assert (E : add_event t1 e2 = None); [|rewrite E in H; discriminate].
  apply add_refused_iff. split; [done|]. exists s. rewrite <- Hname. done.
Qed.

(** The number of locals survives scanning. *)
Lemma modify_locals t r f : syt_num_locals (syt_modify t r f) = syt_num_locals t.
Proof. by destruct r. Qed.
Lemma scan_locals w w' : scan_relocations w = Ok w' -> syt_num_locals (w_symtab w') = syt_num_locals (w_symtab w).
Proof.
  intros H. destruct (scan_flat _ _ H) as (st & Hs & ->). cbn.
  assert (G : syt_num_locals (sn_symbols st) = syt_num_locals (sn_symbols (mkScan (w_symtab w) (w_got_len w) (w_got_plt w) (w_plt w)))); [|exact G].
  revert Hs. generalize (mkScan (w_symtab w) (w_got_len w) (w_got_plt w) (w_plt w)). generalize (all_relocs (w_sections w')). intros k' s Hs.
  apply (mapM_st_trace (fun _ _ t' => syt_num_locals (sn_symbols t') = syt_num_locals (sn_symbols s))) in Hs; [exact Hs|done|].
  intros _ _ _ t1 [rel r] t2 a' _ H1 H2. rewrite <- H1. 
  clear -H2. unfold scan_reloc in H2. cbv zeta in H2. destruct (needs_got _).
  - apply bind_Ok in H2 as (y & _ & H2). destruct (s_in_got y); injection H2 as <- <-; [done|]. cbn. apply modify_locals.
  - destruct (_ =? _); [|by injection H2 as <- <-]. apply bind_Ok in H2 as (y & _ & H2).
    destruct (s_dynamic y); [|by injection H2 as <- <-]. destruct (or_insert _ _ _) as [gp off], (plt_insert _ _) as [pl ix]. injection H2 as <- <-. cbn. apply modify_locals.
Qed.

Section links.
  Context {wd : world} {lo : lib_oracle} {l : linker} {fuel : nat} {w : writer} {secs : list section}
    {w0 wr ws w1 : writer} {extra : N} {null : section} {rest rest' : list section} {st : layout} {w3 w4 w5 w6 w7 : writer}
    {null' : section} {out : list section}.
  Context (O : outcome wd lo l fuel w secs w0 wr ws w1 extra null rest rest' st w3 w4 w5 w6 w7 null' out).
  Context (Fin : mapM_res (sec_finalize (lo_writer lo) w) (w_sections w) = Ok secs).
  Context (V : valid_oracle (lo_writer lo)) (P : plain_inputs wd l) (NF : names_fit w).
  Context {es : list (string * elf_obj)} {evs : list event} (R : reads wd l es evs wr).
  Let o := lo_writer lo.
  Let sn := w_strtab wr.

  (** A symbol no section defines is not moved. *)
  Lemma unplaced n y : n <> "" -> n ∉ linker_names -> all_standard n (all_syms es) -> only_referenced es n -> winner n (all_syms es) = Some y ->
    exists s, syt_symbols (w_symtab w7) !! off_of sn n = Some s /\ sym_def (s_sym s) = sym_def (yi_sym y) /\
      exists y', y' ∈ named n (all_syms es) /\ st_shndx (s_sym s) = st_shndx (yi_sym y').
  Proof using O Fin V P NF R.
    intros Hn Hl Hst Hu Hw. pose proof (named_known R n (proj1 Hu)) as Hk. fold sn in Hk.
    destruct (table_wr O NF R n Hn (proj1 Hu) Hst) as (s0 & y' & Hs0 & Hw' & Ed). rewrite Hw in Hw'. injection Hw' as <-. fold sn in Hs0.
    destruct (not_special O NF n Hl Hk) as [Hns Hnt].
    assert (H7 : syt_get (w_symtab w7) (RNamed (off_of sn n)) = syt_get (w_symtab w6) (RNamed (off_of sn n))).
    { apply (sym_none O Fin V P R); [exact Hns|]. intros v sr Hv Hd. eapply (ref_defines O NF R); [exact Hu|exact Hk|exact Hv|exact Hd]. }
    pose proof (core_w6 O _ Hnt) as Hcore. fold sn in Hcore. change (syt_get (w_symtab wr) (RNamed (off_of sn n))) with (syt_symbols (w_symtab wr) !! off_of sn n) in Hcore. rewrite Hs0 in Hcore.
    destruct (syt_get (w_symtab w6) (RNamed (off_of sn n))) as [s6|] eqn:E6; [|discriminate]. cbn [fmap option_fmap option_map] in Hcore. apply (inj Some) in Hcore. injection Hcore as Hc1 _.
    exists s6. split; [exact H7|]. rewrite Hc1. split; [exact Ed|].
    assert (H0 : syt_symbols (syt_new false) !! off_of sn n = None) by (simpl; apply lookup_singleton_None; intros E; by apply (off_pos O NF R n Hn Hk)).
    destruct (shndx_from _ _ _ _ H0 (table_events R) (strip s0)) as (e & He & Ha & Hde); [cbn; by rewrite lookup_fmap, Hs0|].
    apply elem_of_list_fmap in He as (z & -> & Hz). apply (about_named O NF R n z Hk Hz) in Ha. exists z. split; [by apply elem_of_list_filter|]. exact Hde.
  Qed.
  (** No name has two strong definitions. *)
  Lemma no_clash n i j a b : n <> "" -> all_standard n (all_syms es) -> i <> j -> named n (all_syms es) !! i = Some a -> named n (all_syms es) !! j = Some b ->
    binding (yi_sym a) = 1 -> binding (yi_sym b) = 1 -> defined (yi_sym a) -> defined (yi_sym b) -> False.
  Proof using O NF R.
    intros Hn Hst. assert (W : forall i j a b, (i < j)%nat -> named n (all_syms es) !! i = Some a -> named n (all_syms es) !! j = Some b ->
      binding (yi_sym a) = 1 -> binding (yi_sym b) = 1 -> defined (yi_sym a) -> defined (yi_sym b) -> False).
    2:{ intros Hij Ha Hb B1 B2 D1 D2. destruct (decide (i < j)%nat); [eapply (W i j); eassumption|]. eapply (W j i); try eassumption. lia. }
    clear i j a b. intros i j a b Hij Ha Hb B1 B2 D1 D2.
    assert (Hne : named n (all_syms es) <> []) by (intros E; rewrite E in Ha; discriminate). pose proof (named_known R n Hne) as Hk. fold sn in Hk.
    assert (Hsp : exists l1 l2 l3, all_syms es = l1 ++ a :: l2 ++ b :: l3).
    { unfold named in Ha, Hb. revert Ha Hb Hij. clear. generalize (all_syms es). intros k. revert i j. induction k as [|x k IH]; intros i j Ha Hb Hij; [discriminate|].
      destruct (decide (typ (yi_sym x) <> 3 /\ yi_name x = n)) as [D|D]; [rewrite filter_cons_True in Ha, Hb by exact D|rewrite filter_cons_False in Ha, Hb by exact D].
      - destruct j as [|j]; [lia|]. cbn in Hb. destruct i as [|i].
        + injection Ha as ->. apply elem_of_list_lookup_2, elem_of_list_filter in Hb as [_ Hb]. apply elem_of_list_split in Hb as (l2 & l3 & ->). by exists [], l2, l3.
        + cbn in Ha. destruct (IH i j Ha Hb) as (l1 & l2 & l3 & ->); [lia|]. by exists (x :: l1), l2, l3.
      - destruct (IH i j Ha Hb Hij) as (l1 & l2 & l3 & ->). by exists (x :: l1), l2, l3. }
    destruct Hsp as (l1 & l2 & l3 & E). apply elem_of_list_lookup_2, elem_of_list_filter in Ha as [[Ta Na] Ia]. apply elem_of_list_lookup_2, elem_of_list_filter in Hb as [[Tb Nb] Ib].
    pose proof (table_events R) as HT. fold sn in HT.
    assert (E' : ev_of sn <$> all_syms es = (ev_of sn <$> l1) ++ ev_of sn a :: (ev_of sn <$> l2) ++ ev_of sn b :: (ev_of sn <$> l3)) by (rewrite E, fmap_app, fmap_cons, fmap_app, fmap_cons; reflexivity).
    rewrite E' in HT.
    apply two_strong in HT; [exact HT|exact Ta|exact Tb|cbn; congruence|exact B1|exact B2|exact D1|exact D2| |].
    - cbn. rewrite Na. apply lookup_singleton_None. intros E0. by apply (off_pos O NF R n Hn Hk).
    - apply Forall_forall. intros e He Hab. cbn in Hab. rewrite Na in Hab.
      assert (He' : e ∈ ev_of sn <$> all_syms es). { rewrite E'. apply elem_of_app in He as [He|He]; apply elem_of_app; [by left|right]. apply elem_of_cons in He as [He|He]; apply elem_of_cons; [by left|right]. apply elem_of_app. by left. }
      apply elem_of_list_fmap in He' as (z & -> & Hz). apply (about_named O NF R n z Hk Hz) in Hab. apply (Hst z). by apply elem_of_list_filter.
  Qed.
  (** Every name of the inputs is in the final table, with what the strongest symbol says. *)
  Lemma in_table n : n <> "" -> named n (all_syms es) <> [] -> all_standard n (all_syms es) ->
    exists s y, syt_symbols (w_symtab w) !! off_of sn n = Some s /\ winner n (all_syms es) = Some y /\ st_info (s_sym s) = st_info (yi_sym y) /\ st_other (s_sym s) = st_other (yi_sym y) /\ st_size (s_sym s) = st_size (yi_sym y).
  Proof using O NF R.
    intros Hn Hne Hst. destruct (table_wr O NF R n Hn Hne Hst) as (s0 & y & Hs0 & Hw & Ed). fold sn in Hs0.
    destruct (keeps_all O sym_static) as [KA _]. destruct (keeps_lookup' _ _ _ _ _ KA Hs0) as (s & Hs & Es). exists s, y. split; [exact Hs|]. split; [exact Hw|].
    unfold sym_static in Es. injection Es as _ E2 E3 E4 _ _ _ _. unfold sym_def in Ed. injection Ed as D1 D2 _ D4. split_and!; congruence.
  Qed.
  (** ** Locals *)
  Lemma symtab_info b pd gd : own_sec (lo := lo) (l := l) (w := w) (secs := secs) (wr := wr) (ws := ws) (w1 := w1) (extra := extra) (rest' := rest') (w4 := w4) (w5 := w5) (w6 := w6) (w7 := w7) (out := out) pd gd 8 ".symtab" b ->
    sh_info (sc_sh b) = u32 (syt_num_locals (w_symtab wr)).
  Proof using O P.
    intros H8. destruct (os_hist _ _ _ _ _ H8) as (j & a0 & a1 & a3 & a6 & a7 & HH). pose proof (os_id _ _ _ _ _ H8) as Hid.
    destruct (own_hist O P _ _ _ _ _ _ _ _ _ HH) as (Hown & Hid1 & _). rewrite Hid in Hid1. rewrite Hid1 in Hown. destruct Hown as [Hsy Hty]. cbn in Hsy.
    destruct (finalize_spec _ _ _ _ (h_fin HH)) as (Eb & _). 
    assert (Eon : forall id (f : section -> section) x, (forall y, sc_sh (f y) = sc_sh y) -> sc_sh (on id f x) = sc_sh x) by (clear; intros id f x Hf; unfold on; destruct (_ =? _)%nat; [apply Hf|reflexivity]).
    assert (E7 : sc_sh (tables_fn w7 a7) = sc_sh a7) by (unfold tables_fn; rewrite !Eon; reflexivity).
    assert (E4 : sc_sh (patched_plt w4 pd gd a3) = sc_sh a3) by (unfold patched_plt; destruct (w_got_plt w4); rewrite !Eon; reflexivity).
    destruct (h_special HH) as [K6 _]. destruct (h_rel HH) as [K7 _]. destruct (h_placed HH) as [K3 _].
    assert (E3 : sh_info (sc_sh b) = sh_info (sc_sh (size_fn o ws (w_hash w1) (w_gnu_hash w1) (blen (w_dyn_rels w1)) (blen (w_plt_rels w1)) extra a1))).
    { rewrite Eb. cbn [sc_sh sh_info set]. change (sh_info (sc_sh (tables_fn w7 a7)) = sh_info (sc_sh (size_fn o ws (w_hash w1) (w_gnu_hash w1) (blen (w_dyn_rels w1)) (blen (w_plt_rels w1)) extra a1))).
      rewrite E7. rewrite K7. change (sh_info (sc_sh a6) = sh_info (sc_sh (size_fn o ws (w_hash w1) (w_gnu_hash w1) (blen (w_dyn_rels w1)) (blen (w_plt_rels w1)) extra a1))).
      rewrite K6. change (sh_info (sc_sh (patched_plt w4 pd gd a3)) = sh_info (sc_sh (size_fn o ws (w_hash w1) (w_gnu_hash w1) (blen (w_dyn_rels w1)) (blen (w_plt_rels w1)) extra a1))).
      rewrite E4, K3. reflexivity. }
    rewrite E3, <- (scan_locals _ _ (sz_scan _ _ _ _ _ (rn_sizing (oc_run O)))).
    destruct a1 as [id ix lk sy sh cs]. cbn [sc_id sc_synth sc_sh] in *. subst id sy.
    unfold size_fn, pre_dynamic. rewrite (on_ne id_got), (on_ne id_got_plt), (on_ne id_dynsym) by discriminate. cbv beta.
    assert (Hne : (sh_type sh =? SHT_DYNSYM) = false) by (apply N.eqb_neq; intros E; apply Hty in E; discriminate). cbn [sc_sh]. rewrite Hne. cbn [sec_expand sc_synth].
    rewrite (on_ne id_dynrel), (on_ne id_pltrel), (on_ne id_dynamic) by discriminate. reflexivity.
  Qed.
End links.

Lemma num_locals_le t0 l t : add_events t0 l = Some t -> syt_num_locals t <= syt_num_locals t0 + N.of_nat (length l).
Proof.
  revert t0. induction l as [|e l IH]; intros t0 H; [injection H as <-; simpl; lia|]. simpl in H. destruct (add_event t0 e) as [t1|] eqn:E; [|discriminate]. simpl in H. apply IH in H.
  assert (K : syt_num_locals t1 <= syt_num_locals t0 + 1).
  { unfold add_event, syt_add_symbol in E. destruct (_ =? _); [injection E as <-; simpl; lia|]. destruct (syt_symbols t0 !! _); [destruct (merge_symbol _ _); [injection E as <-; simpl; lia|discriminate]|].
    destruct (is_local _); injection E as <-; simpl; lia. }
  simpl length. lia.
Qed.
Lemma local_keys_static m m' : sym_static <$> m' = sym_static <$> m -> size (local_keys m') = size (local_keys m).
Proof.
  intros H. rewrite <- !size_dom. apply set_size_proper. apply set_equiv. intros n. rewrite !elem_of_dom. apply (f_equal (fun k : gmap N _ => k !! n)) in H. rewrite !lookup_fmap in H.
  split; intros [s Hs]; apply map_filter_lookup_Some in Hs as [Hs Hb]; cbn in Hb; rewrite Hs in H.
  - destruct (m !! n) as [s'|] eqn:E; [|discriminate]. cbn [fmap option_fmap option_map] in H. apply (inj Some) in H. unfold sym_static in H. injection H as _ Hi _ _ _ _ _ _. exists s'. apply map_filter_lookup_Some. split; [done|]. cbn. unfold binding in *. by rewrite <- Hi.
  - destruct (m' !! n) as [s'|] eqn:E; [|discriminate]. cbn [fmap option_fmap option_map] in H. apply (inj Some) in H. unfold sym_static in H. injection H as _ Hi _ _ _ _ _ _. exists s'. apply map_filter_lookup_Some. split; [done|]. cbn. unfold binding in *. by rewrite Hi.
Qed.

Section good.
  Context {wd : world} {lo : lib_oracle} {l : linker} {fuel : nat} {w : writer} {secs : list section}.
  Context (G : good_link wd lo l fuel w secs).
  Context {es : list (string * elf_obj)} {evs : list event} (L : loading wd lo l fuel es evs).

  Lemma good_unplaced n y : ordinary es n -> only_referenced es n -> winner n (all_syms es) = Some y ->
    exists sym, symtab_entry w secs n sym /\ st_info sym = st_info (yi_sym y) /\ st_size sym = st_size (yi_sym y) /\ st_value sym = st_value (yi_sym y) /\
      exists y', y' ∈ named n (all_syms es) /\ st_shndx sym = st_shndx (yi_sym y').
  Proof using G L.
    intros (Hn & Hl & Hst & Hnn) Hu Hw.
    destruct (links_outcome _ _ _ _ _ _ (gl_links _ _ _ _ _ _ G)) as (w0 & wr & ws & w1 & extra & null & rest & rest' & st & w3 & w4 & w5 & w6 & w7 & null' & out & O).
    pose proof (proj2 (gl_links _ _ _ _ _ _ G)) as Fin. destruct G as [_ V P PL NF AF SF].
    destruct L as (wr' & Hr & R). rewrite (oc_resolve O) in Hr. injection Hr as <-.
    destruct (unplaced O Fin V P NF R n y Hn Hl Hst Hu Hw) as (s & Hs & Ed & Hy').
    assert (Ew : w_symtab w = w_symtab w7) by (destruct (run_fields (oc_run O)) as (_ & _ & _ & _ & _ & _ & E & _); exact E).
    exists (s_sym s). unfold sym_def in Ed. injection Ed as D1 D2 D3 D4. split; [|split_and!; assumption].
    eapply (entry_written O Fin V P NF R PL SF); [by apply (named_known R), Hu| |done|by rewrite Ew].
    destruct (named n (all_syms es)) as [|z zs] eqn:En; [by destruct (proj1 Hu)|]. assert (Hz : z ∈ named n (all_syms es)) by (rewrite En; by left). apply elem_of_list_filter in Hz as [[_ <-] Hz]. by apply Hnn.
  Qed.
  Lemma good_no_clash n i j a b : n <> "" -> all_standard n (all_syms es) -> i <> j -> named n (all_syms es) !! i = Some a -> named n (all_syms es) !! j = Some b ->
    binding (yi_sym a) = 1 -> binding (yi_sym b) = 1 -> defined (yi_sym a) -> defined (yi_sym b) -> False.
  Proof using G L.
    destruct (links_outcome _ _ _ _ _ _ (gl_links _ _ _ _ _ _ G)) as (w0 & wr & ws & w1 & extra & null & rest & rest' & st & w3 & w4 & w5 & w6 & w7 & null' & out & O).
    destruct G as [_ V P PL NF AF SF]. destruct L as (wr' & Hr & R). rewrite (oc_resolve O) in Hr. injection Hr as <-. exact (no_clash O NF R n i j a b).
  Qed.
  Lemma good_named n : n <> "" -> (forall y, y ∈ all_syms es -> nonul (yi_name y)) -> named n (all_syms es) <> [] -> all_standard n (all_syms es) ->
    exists sym y, symtab_entry w secs n sym /\ winner n (all_syms es) = Some y /\ st_info sym = st_info (yi_sym y) /\ st_other sym = st_other (yi_sym y) /\ st_size sym = st_size (yi_sym y).
  Proof using G L.
    intros Hn Hnn Hne Hst.
    destruct (links_outcome _ _ _ _ _ _ (gl_links _ _ _ _ _ _ G)) as (w0 & wr & ws & w1 & extra & null & rest & rest' & st & w3 & w4 & w5 & w6 & w7 & null' & out & O).
    pose proof (proj2 (gl_links _ _ _ _ _ _ G)) as Fin. destruct G as [_ V P PL NF AF SF].
    destruct L as (wr' & Hr & R). rewrite (oc_resolve O) in Hr. injection Hr as <-.
    destruct (in_table O NF R n Hn Hne Hst) as (s & y & Hs & Hw & H). exists (s_sym s), y. split; [|split; [exact Hw|exact H]].
    eapply (entry_written O Fin V P NF R PL SF); [by apply (named_known R)| |done|exact Hs].
    destruct (named n (all_syms es)) as [|z zs] eqn:En; [done|]. assert (Hz : z ∈ named n (all_syms es)) by (rewrite En; by left). apply elem_of_list_filter in Hz as [[_ <-] Hz]. by apply Hnn.
  Qed.
  (** Nothing else is in the table. *)
  Lemma good_entries t i sym : (forall y, y ∈ all_syms es -> nonul (yi_name y)) -> the_sec w secs ".symtab" t -> rd_sym (contents t) (24 * i) = Some sym ->
    exists n s, the_sec w secs ".strtab" s /\ cstr_at (contents s) (st_name sym) = Some (string_bytes n) /\ (n = "" \/ named n (all_syms es) <> []).
  Proof using G L.
    intros Hall Ht Hi.
    destruct (links_outcome _ _ _ _ _ _ (gl_links _ _ _ _ _ _ G)) as (w0 & wr & ws & w1 & extra & null & rest & rest' & st & w3 & w4 & w5 & w6 & w7 & null' & out & O).
    pose proof (proj2 (gl_links _ _ _ _ _ _ G)) as Fin. destruct G as [_ V P PL NF AF SF].
    destruct L as (wr' & Hr & R). rewrite (oc_resolve O) in Hr. injection Hr as <-.
    destruct (own_all O Fin V P NF) as (pd & gd & _ & Hown).
    destruct (Hown 8%nat ".symtab") as [b8 H8]; [lia|destruct (opt_hash_style (lk_options l)); vm_compute; reflexivity|].
    destruct (Hown 2%nat ".strtab") as [b2 H2]; [lia|destruct (opt_hash_style (lk_options l)); vm_compute; reflexivity|].
    pose proof (os_bytes _ _ _ _ _ H8) as E8. pose proof (os_bytes _ _ _ _ _ H2) as E2. cbn [fixed_bytes] in E8, E2.
    pose proof (the_one _ _ _ _ _ (os_the _ _ _ _ _ H8) Ht) as ->. rewrite E8 in Hi.
    assert (Esn : w_strtab w = w_strtab wr) by (destruct (run_fields (oc_run O)) as (_ & E & _); exact E). rewrite Esn in E2.
    rewrite <- (N2Nat.id i), (rd_chunk_sym _ _ _ (vo_sym _ V) (proj1 SF)) in Hi. destruct (syt_sorted (o_sym (lo_writer lo)) (w_symtab w) !! N.to_nat i) as [s'|] eqn:Es'; [|discriminate]. cbn [fmap option_fmap option_map] in Hi. apply (inj Some) in Hi. subst sym.
    apply elem_of_list_lookup_2, (elem_of_sorted _ _ _ (vo_sym _ V)) in Es' as (m & Hm). pose proof (sym_keyed O PL _ _ Hm) as Hm'.
    destruct (keeps_all O sym_static) as [K _]. destruct (keeps_lookup _ _ _ _ _ K Hm) as (s1 & H1 & _).
    destruct (ti_sym _ (wr_tables O PL) _ _ H1) as (_ & n' & ix & po & Hin & Em & _).
    assert (He' : exists e, st_get (w_strtab wr) n' = Some e /\ off_of (w_strtab wr) n' = m).
    { unfold off_of, st_get. rewrite (assoc_elem_Some _ _ _ (ok_nodup _ (sn_ok O)) Hin). simpl. by eexists. }
    destruct He' as (e' & He' & Em').
    assert (Hnn' : nonul n').
    { destruct (proj1 (yv_names _ _ (yinv_wr R) n')) as [->|(y & Hy & <-)]; [by exists e'|intros H; by apply elem_of_nil in H|]. apply Hall. by rewrite <- (ld_syms _ _ _ _ _ R). }
    exists n', b2. split; [exact (os_the _ _ _ _ _ H2)|]. rewrite E2, Hm'. split.
    - rewrite <- Em'. unfold off_of. rewrite He'. apply get_entry in He' as (ix' & He'). pose proof (entry_off_lt _ _ _ _ (sn_ok O) He'). pose proof (sn_small O NF).
      unfold u32. rewrite N.mod_small by lia. apply elem_of_list_lookup in He' as (j & Hj). eapply cstr_at_entry; [exact (sn_ok O)|exact Hj|done].
    - destruct (decide (n' = "")) as [|Hne]; [by left|right]. intros Hno.
      assert (Hk : is_Some (st_get (w_strtab wr) n')) by (by exists e').
      assert (H0 : syt_symbols (syt_new false) !! off_of (w_strtab wr) n' = None) by (simpl; apply lookup_singleton_None; intros E; by apply (off_pos O NF R n' Hne Hk)).
      destruct (shndx_from _ _ _ _ H0 (table_events R) (strip s1)) as (e & He & Ha & _); [cbn; by rewrite lookup_fmap, Em', H1|].
      apply elem_of_list_fmap in He as (z & -> & Hz). apply (about_named O NF R n' z Hk Hz) in Ha. assert (Hz' : z ∈ named n' (all_syms es)) by (by apply elem_of_list_filter). rewrite Hno in Hz'. by apply elem_of_nil in Hz'.
  Qed.
  (** Locals first, and their number. *)
  Lemma good_locals : N.of_nat (length (all_syms es)) + 1 < 2^32 -> sane_bindings es ->
    exists t k, the_sec w secs ".symtab" t /\ (forall i sym, rd_sym (contents t) (24 * i) = Some sym -> (binding sym = 0 <-> i < k)) /\
      k <= sh_info (sc_sh t) /\ (locals_stay es -> sh_info (sc_sh t) = k).
  Proof using G L.
    intros Hlen [Hst Hun].
    destruct (links_outcome _ _ _ _ _ _ (gl_links _ _ _ _ _ _ G)) as (w0 & wr & ws & w1 & extra & null & rest & rest' & st & w3 & w4 & w5 & w6 & w7 & null' & out & O).
    pose proof (proj2 (gl_links _ _ _ _ _ _ G)) as Fin. destruct G as [_ V P PL NF AF SF].
    destruct L as (wr' & Hr & R). rewrite (oc_resolve O) in Hr. injection Hr as <-.
    destruct (own_all O Fin V P NF) as (pd & gd & _ & Hown).
    destruct (Hown 8%nat ".symtab") as [b8 H8]; [lia|destruct (opt_hash_style (lk_options l)); vm_compute; reflexivity|].
    pose proof (os_bytes _ _ _ _ _ H8) as E8. cbn [fixed_bytes] in E8. pose proof (symtab_info O P _ _ _ H8) as Hinfo.
    pose proof (table_events R) as HT. pose proof (num_locals_le _ _ _ HT) as Hle. change (syt_num_locals (strip_tab (w_symtab wr))) with (syt_num_locals (w_symtab wr)) in Hle. rewrite fmap_length in Hle. change (syt_num_locals (syt_new false)) with 1 in Hle.
    assert (Hu : u32 (syt_num_locals (w_symtab wr)) = syt_num_locals (w_symtab wr)) by (unfold u32; apply N.mod_small; lia). rewrite Hu in Hinfo.
    destruct (locals_first (o_sym (lo_writer lo)) (w_symtab w)) as (ls & gs & Es & Hls & Hgs).
    exists b8, (N.of_nat (length ls)). split; [exact (os_the _ _ _ _ _ H8)|]. split.
    { intros i sym Hi. rewrite E8 in Hi. rewrite <- (N2Nat.id i), (rd_chunk_sym _ _ _ (vo_sym _ V) (proj1 SF)) in Hi. rewrite Es in Hi.
      destruct ((ls ++ gs) !! N.to_nat i) as [s'|] eqn:E; [|discriminate]. cbn [fmap option_fmap option_map] in Hi. apply (inj Some) in Hi. subst sym.
      apply lookup_app_Some in E as [E|[Hge E]].
      - pose proof (lookup_lt_Some _ _ _ E). rewrite Forall_forall in Hls. apply elem_of_list_lookup_2 in E. specialize (Hls _ E). split; [lia|intros _; exact Hls].
      - rewrite Forall_forall in Hgs. apply elem_of_list_lookup_2 in E. specialize (Hgs _ E). split; [intros H; by destruct Hgs|lia]. }
    rewrite Hinfo. rewrite (locals_first_count _ _ ls gs Es Hls Hgs), (count_locals_perm _ _ (sorted_perm _ _ (vo_sym _ V))), count_locals_map.
    destruct (keeps_all O sym_static) as [K _]. rewrite (local_keys_static _ _ K).
    assert (Ek : size (local_keys (syt_symbols (w_symtab wr))) = size (local_keys (syt_symbols (strip_tab (w_symtab wr))))).
    { clear. rewrite <- !size_dom. apply set_size_proper. apply set_equiv. intros n. rewrite !elem_of_dom. unfold local_keys. cbn. 
      split; intros [s Hs]; apply map_filter_lookup_Some in Hs as [Hs Hb]; cbn in Hb.
      - exists (strip s). apply map_filter_lookup_Some. rewrite lookup_fmap, Hs. done.
      - rewrite lookup_fmap in Hs. destruct (syt_symbols (w_symtab wr) !! n) as [s'|] eqn:E; [|discriminate]. cbn in Hs. injection Hs as <-. exists s'. apply map_filter_lookup_Some. done. }
    rewrite Ek. change (syt_num_locals (w_symtab wr)) with (syt_num_locals (strip_tab (w_symtab wr))).
    destruct (num_locals_spec _ _ _ HT) as [N1 N2].
    { apply Forall_forall. intros e He. apply elem_of_list_fmap in He as (y & -> & Hy). apply (Hst y Hy). }
    { apply Forall_forall. intros e He [Ht Hn]. apply elem_of_list_fmap in He as (y & -> & Hy). apply (Hun y). apply elem_of_list_filter. split; [|exact Hy]. split; [exact Ht|].
      destruct (decide (yi_name y = "")) as [|Hne]; [done|]. exfalso. apply (off_pos O NF R _ Hne (sym_known R y Hy)). exact Hn. }
    split; [exact N1|]. intros Hstay. apply N2. intros n e He [Ht Hn] Hf. apply elem_of_list_fmap in He as (y & -> & Hy). cbn in Hn.
    unfold first_binding in Hf. destruct (decide (n = 0)) as [->|Hn0].
    - apply (Hun y). apply elem_of_list_filter. split; [|exact Hy]. split; [exact Ht|]. destruct (decide (yi_name y = "")) as [|Hne]; [done|]. exfalso. apply (off_pos O NF R _ Hne (sym_known R y Hy)). exact Hn.
    - rewrite <- Hn in Hf. rewrite (filter_named O NF R (yi_name y)) in Hf by (by apply (sym_known R) || done). destruct (named (yi_name y) (all_syms es)) as [|z zs] eqn:En; [discriminate|]. cbn in Hf. injection Hf as Hf.
      apply (Hstay (yi_name y) z y); [rewrite En; reflexivity|exact Hf|]. apply elem_of_list_filter. done.
  Qed.
End good.
