(** The symbol table in terms of the sequence of additions. *)
From Verif Require Export SpecSyms ProofResolve ProofMerge ProofSym.

Definition off_of (sn : strtab) (n : string) : N := match st_get sn n with Some e => u32 (en_offset e) | None => 0 end.
(** The addition of a symbol once names are offsets. *)
Definition ev_of (sn : strtab) (y : sym_in) : sym_event :=
  mkEvent (yi_sym y <| st_name := off_of sn (yi_name y) |>) (elf_hash (yi_name y)) (elf_gnu_hash (yi_name y)) (yi_file y).
Definition sec_syms (k : N) (l : list sym_in) : list sym_in := filter (fun y => typ (yi_sym y) = 3 /\ st_shndx (yi_sym y) = k) l.

(** * Ignoring links to shared libraries *)
Definition strip (s : symbol) : symbol := s <| s_dynamic := None |>.
Definition strip_tab (t : symtab) : symtab := t <| syt_symbols := strip <$> syt_symbols t |>.
Lemma strip_merge old new : merge_symbol (strip old) new = strip <$> merge_symbol old new.
Proof. unfold merge_symbol, is_global, higher_bind_than. destruct old as [y ? ? ? ? ? ? ? ?]. simpl. destruct (_ && _); [done|]. destruct (negb _); [done|]. by destruct (st_shndx y =? SHN_UNDEF). Qed.
Lemma strip_add t e h g ref : syt_add_symbol (strip_tab t) e h g ref =
  match syt_add_symbol t e h g ref with inl (t', r) => inl (strip_tab t', r) | inr p => inr p end.
Proof.
  unfold syt_add_symbol. destruct (st_type e =? STT_SECTION); [done|]. simpl syt_symbols. rewrite lookup_fmap.
  destruct (syt_symbols t !! st_name e) as [old|] eqn:E; cbn [fmap option_fmap option_map].
  - rewrite strip_merge. destruct (merge_symbol old _) as [s|]; cbn [fmap option_fmap option_map]; [|done]. unfold strip_tab. simpl. rewrite fmap_insert. done.
  - unfold strip_tab. destruct (is_local _); simpl; rewrite fmap_insert; done.
Qed.
Lemma strip_new d : strip_tab (syt_new d) = syt_new d.
Proof. unfold strip_tab, syt_new. simpl. rewrite map_fmap_singleton. done. Qed.
Lemma strip_modify t r f : (forall s, strip (f s) = strip s) -> strip_tab (syt_modify t r f) = 
  match r with RNamed _ => strip_tab t | RSection _ _ => syt_modify (strip_tab t) r f end.
Proof.
  intros Hf. destruct r as [n|a b]; [|done]. 
  assert (E : strip <$> alter f n (syt_symbols t) = strip <$> syt_symbols t); [|unfold strip_tab, syt_modify; simpl; by rewrite E].
  apply map_eq. intros m. rewrite !lookup_fmap.
  destruct (decide (m = n)) as [->|Hne]; [rewrite lookup_alter|by rewrite lookup_alter_ne by (intros ?; by apply Hne)].
  destruct (syt_symbols t !! n); [|done]. cbn. by rewrite Hf.
Qed.

(** * Names *)
Lemma get_goc sn n sn' e m : st_get_or_create sn n = (sn', e) -> is_Some (st_get sn' m) <-> is_Some (st_get sn m) \/ m = n.
Proof.
  intros H. unfold st_get_or_create in H. destruct (ModelTables.assoc n (stt_names sn)) as [[i o]|] eqn:E.
  - injection H as <- <-. split; [by left|]. intros [?| ->]; [done|]. unfold st_get. rewrite E. eauto.
  - injection H as <- <-. unfold st_get. simpl. destruct (ModelTables.assoc m (stt_names sn)) as [[a b]|] eqn:Em.
    + rewrite (assoc_app_l _ _ _ _ Em). split; [eauto|]. eauto.
    + rewrite assoc_app_r by done. simpl. case_decide; subst; [split; eauto|]. split; [|intros [?|?]; [done|by subst]]. intros [? ?]; discriminate.
Qed.
Lemma off_goc sn n sn' e m : st_get_or_create sn n = (sn', e) -> is_Some (st_get sn m) -> off_of sn' m = off_of sn m.
Proof.
  intros H [x Hx]. unfold off_of, st_get in *. destruct (ModelTables.assoc m (stt_names sn)) as [[a b]|] eqn:Em; [|discriminate].
  unfold st_get_or_create in H. destruct (ModelTables.assoc n (stt_names sn)) as [[i o]|] eqn:E; injection H as <- <-; [by rewrite Em|]. simpl. by rewrite (assoc_app_l _ _ _ _ Em).
Qed.
Lemma off_new sn n sn' e : st_get_or_create sn n = (sn', e) -> off_of sn' n = u32 (en_offset e).
Proof. intros H. unfold off_of, st_get. rewrite (goc_assoc _ _ _ _ H). done. Qed.
Lemma ev_goc sn n sn' e y : st_get_or_create sn n = (sn', e) -> is_Some (st_get sn (yi_name y)) -> ev_of sn' y = ev_of sn y.
Proof. intros H Hy. unfold ev_of. by rewrite (off_goc _ _ _ _ _ H Hy). Qed.

(** * The invariant *)
Record yinv (evs : list event) (w : writer) : Prop := {
  yv_names : forall n, is_Some (st_get (w_strtab w) n) <-> n = "" \/ exists y, y ∈ omap sym_of evs /\ yi_name y = n;
  yv_tab : add_events (syt_new false) (ev_of (w_strtab w) <$> omap sym_of evs) = Some (strip_tab (w_symtab w));
  yv_ref : forall pre y o r post, evs = pre ++ EvSym y o r :: post ->
    r = if decide (typ (yi_sym y) = 3) then RSection (st_shndx (yi_sym y)) (length (sec_syms (st_shndx (yi_sym y)) (omap sym_of pre))) else RNamed (off_of (w_strtab w) (yi_name y));
  yv_sec : forall k, default [] (syt_section_syms (w_symtab w) !! k) = (fun y => new_of (ev_of (w_strtab w) y)) <$> sec_syms k (omap sym_of evs);
  yv_dyn : forall n s, syt_symbols (w_symtab w) !! n = Some s ->
    is_Some (s_dynamic s) -> exists path e sym name so r, EvDyn path e sym name so r ∈ evs /\ is_Some (st_get (w_strtab w) name) /\ off_of (w_strtab w) name = n }.

Lemma yinv_frame evs v w w' : sym_of v = None -> w_strtab w' = w_strtab w -> w_symtab w' = w_symtab w -> yinv evs w -> yinv (evs ++ [v]) w'.
Proof.
  intros Hv E1 E2 [A B C D F]. assert (Eo : omap sym_of (evs ++ [v]) = omap sym_of evs) by (rewrite omap_app; simpl; rewrite Hv; apply app_nil_r).
  split; rewrite ?E1, ?E2, ?Eo; [exact A|exact B| |exact D|].
  - intros pre y o r post E. apply snoc_split in E as [(-> & <- & ->)|(post' & -> & E)]; [discriminate|]. by eapply C.
  - intros n s Hs Hd. destruct (F n s Hs Hd) as (path & e & sym & name & so & r & He & Hn).
    exists path, e, sym, name, so, r. split; [apply elem_of_app; by left|done].
Qed.
Lemma section_strtab w n sh d w' sr : add_section w n sh d = Ok (w', sr) -> w_strtab w' = w_strtab w /\ w_symtab w' = w_symtab w.
Proof.
  unfold add_section. intros H. destruct (st_get_or_create _ n) as [nm en]. cbv zeta in H. destruct (en_new en); [by injection H as <- <-|].
  apply bind_Ok in H as (s & _ & H). destruct d; [by injection H as <- <-|]. destruct (sc_chunks _); [discriminate H|by injection H as <- <-].
Qed.
Lemma sec_syms_snoc k l y : sec_syms k (l ++ [y]) = sec_syms k l ++ (if decide (typ (yi_sym y) = 3 /\ st_shndx (yi_sym y) = k) then [y] else []).
Proof. unfold sec_syms. rewrite filter_app, filter_cons. by destruct (decide _). Qed.

Lemma yinv_symbol evs w x o w' r : yinv evs w -> add_symbol w (yi_sym x) o (yi_name x) (yi_file x) = Ok (w', r) -> yinv (evs ++ [EvSym x o r]) w'.
Proof.
  intros [A B C D F] H. unfold add_symbol in H. apply bind_Ok in H as ([[[names t] secs] r1] & Hin & H). injection H as <- <-.
  destruct (inner_table _ _ _ _ _ _ _ _ _ _ _ Hin) as (en & Hg & Ha). clear Hin.
  assert (Eo : omap sym_of (evs ++ [EvSym x o r1]) = omap sym_of evs ++ [x]) by (rewrite omap_app; done).
  assert (Hold : forall y, y ∈ omap sym_of evs -> is_Some (st_get (w_strtab w) (yi_name y))) by (intros y Hy; apply A; eauto).
  assert (Hev : ev_of names <$> omap sym_of evs = ev_of (w_strtab w) <$> omap sym_of evs).
  { apply list_fmap_ext. intros i y Hi. eapply ev_goc; [exact Hg|]. apply Hold. by eapply elem_of_list_lookup_2. }
  assert (Hx : ev_sym (ev_of names x) = yi_sym x <| st_name := u32 (en_offset en) |>) by (simpl; by rewrite (off_new _ _ _ _ Hg)).
  split; simpl; rewrite ?Eo.
  - intros n. rewrite (get_goc _ _ _ _ _ Hg), (A n). split.
    + intros [[->|(y & Hy & <-)]| ->]; [by left|right; exists y|right; exists x]; (split; [|done]); apply elem_of_app; [by left|right; by left].
    + intros [->|(y & Hy & <-)]; [by do 2 left|]. apply elem_of_app in Hy as [Hy|Hy]; [left; right; eauto|]. apply elem_of_list_singleton in Hy as ->. by right.
  - rewrite fmap_app. change (ev_of names <$> [x]) with [ev_of names x]. rewrite add_events_snoc, Hev, B. cbn [mbind option_bind]. unfold add_event. rewrite Hx, strip_add. simpl. by rewrite Ha.
  - intros pre y o' r post E. apply snoc_split in E as [(-> & E & ->)|(post' & -> & E)].
    + injection E as -> -> ->. clear -Ha D Hg. rewrite (off_new _ _ _ _ Hg). unfold syt_add_symbol in Ha. change (st_type (yi_sym x <| st_name := u32 (en_offset en) |>)) with (st_type (yi_sym x)) in Ha. rewrite st_type_typ in Ha.
      destruct (typ (yi_sym x) =? STT_SECTION) eqn:Et.
      * apply N.eqb_eq in Et. rewrite decide_True by done. injection Ha as <- <-. simpl. rewrite (D (st_shndx (yi_sym x))), fmap_length. done.
      * apply N.eqb_neq in Et. rewrite decide_False by done. destruct (syt_symbols _ !! _); [destruct (merge_symbol _ _); [|discriminate]|]; by injection Ha as <- <-.
    + rewrite (C _ _ _ _ _ E). destruct (decide _); [done|]. f_equal. symmetry. eapply off_goc; [exact Hg|]. apply Hold. apply elem_of_list_omap. exists (EvSym y o' r). split; [|done]. rewrite E. apply elem_of_app. right. left.
  - intros k. rewrite sec_syms_snoc, fmap_app. 
    assert (He : (fun y => new_of (ev_of names y)) <$> sec_syms k (omap sym_of evs) = (fun y => new_of (ev_of (w_strtab w) y)) <$> sec_syms k (omap sym_of evs)).
    { apply list_fmap_ext. intros i y Hi. f_equal. eapply ev_goc; [exact Hg|]. apply Hold. apply elem_of_list_lookup_2 in Hi. by apply elem_of_list_filter in Hi as [_ Hi]. }
    rewrite He, <- (D k). unfold syt_add_symbol in Ha. change (st_type (yi_sym x <| st_name := u32 (en_offset en) |>)) with (st_type (yi_sym x)) in Ha. rewrite st_type_typ in Ha.
    destruct (typ (yi_sym x) =? STT_SECTION) eqn:Et.
    + apply N.eqb_eq in Et. injection Ha as <- <-. simpl. destruct (decide (st_shndx (yi_sym x) = k)) as [<-|Hne].
      * rewrite lookup_insert. rewrite decide_True by done. simpl. unfold new_of. rewrite Hx. done.
      * rewrite lookup_insert_ne by done. rewrite decide_False by (intros [_ ?]; done). simpl. by rewrite app_nil_r.
    + apply N.eqb_neq in Et. rewrite decide_False by (intros [? _]; done). simpl. rewrite app_nil_r.
      destruct (syt_symbols _ !! _); [destruct (merge_symbol _ _); [|discriminate]|]; injection Ha as <- <-; [done|]. by destruct (is_local _).
  - intros n s Hs Hd.
    assert (G : exists s0, syt_symbols (w_symtab w) !! n = Some s0 /\ s_dynamic s = s_dynamic s0).
    { apply add_sym_cases in Ha as [(_ & E & _)|(_ & _ & _ & s1 & E & [[Hn ->]|(old & Ho & Hm)])]; rewrite E in Hs; [eauto| |].
      - apply lookup_insert_Some in Hs as [[<- <-]|[_ Hs]]; [by destruct Hd|eauto].
      - apply lookup_insert_Some in Hs as [[<- <-]|[_ Hs]]; [|eauto]. exists old. split; [done|]. by apply merge_keeps in Hm as (_ & _ & _ & ? & _). }
    destruct G as (s0 & Hs0 & E). rewrite E in Hd. destruct (F _ _ Hs0 Hd) as (path & e & sym & name & so & r & He & Hn & Ho).
    exists path, e, sym, name, so, r. split; [apply elem_of_app; by left|]. split; [apply (get_goc _ _ _ _ _ Hg); by left|]. by rewrite (off_goc _ _ _ _ _ Hg Hn).
Qed.
Lemma yinv_dyn evs w path e sym name so r w1 : yinv evs w -> is_Some (st_get (w_strtab w) name) -> add_dyn_symbol w sym None name path = Ok (w1, r) ->
  yinv (evs ++ [EvDyn path e sym name so r]) (add_needed w1 so).
Proof.
  intros [A B C D F] [en Hen] H. pose proof (add_dyn_symbol_strtab _ _ _ _ _ _ _ H) as E1.
  assert (E2 : w_symtab w1 = syt_modify (w_symtab w) (RNamed (off_of (w_strtab w) name)) (fun s => s <| s_dynamic := Some r |>)).
  { unfold add_dyn_symbol in H. cbv zeta in H. apply bind_Ok in H as ([[[names t] secs] r1] & _ & H). simpl in H. unfold off_of. rewrite Hen in *.
    apply bind_Ok in H as (? & _ & H). by injection H as <- <-. }
  assert (E' : w_strtab (add_needed w1 so) = w_strtab w1 /\ w_symtab (add_needed w1 so) = w_symtab w1).
  { unfold add_needed. destruct (st_get_or_create _ so) as [nm en']. by destruct (en_new en'). }
  destruct E' as [E3 E4]. rewrite E1 in E3. rewrite E2 in E4. clear H E1 E2.
  assert (Eo : omap sym_of (evs ++ [EvDyn path e sym name so r]) = omap sym_of evs) by (rewrite omap_app; apply app_nil_r).
  split; rewrite ?E3, ?E4, ?Eo; [exact A|by rewrite strip_modify| |exact D|].
  - intros pre y o' r' post E. apply snoc_split in E as [(-> & E & ->)|(post' & -> & E)]; [discriminate|]. by eapply C.
  - intros n s Hs Hd. simpl in Hs. apply lookup_alter_Some in Hs as [(<- & s0 & Hs & ->)|[_ Hs]].
    + exists path, e, sym, name, so, r. split; [apply elem_of_app; right; by left|]. split; [by eexists|done].
    + destruct (F _ _ Hs Hd) as (path' & e' & sym' & name' & so' & r' & He & Hn). exists path', e', sym', name', so', r'. split; [apply elem_of_app; by left|done].
Qed.
Lemma yinv_0 opts w0 : writer_new opts = Ok w0 -> yinv [] w0.
Proof.
  intros H. destruct (new_tables _ _ H) as [E1 E2]. split; rewrite ?E1, ?E2.
  - intros n. unfold st_get, st_default, st_with_name. simpl. case_decide as Hn; [split; [by left|eauto]|]. split; [intros [? ?]; discriminate|]. intros [->|(y & Hy & _)]; [done|by apply elem_of_nil in Hy].
  - rewrite strip_new. done.
  - intros pre y o r post E. by destruct pre.
  - intros k. done.
  - intros n s Hs Hd. simpl in Hs. apply lookup_singleton_Some in Hs as [<- <-]. by destruct Hd.
Qed.
Lemma reads_yinv wd l es evs w : reads wd l es evs w -> yinv evs w.
Proof.
  intros [_ (w0 & H0 & Hr) _ _ _ _]. revert Hr. apply replays_inv; [by eapply yinv_0|].
  intros pre v post w1 w2 E _ HI Hv. destruct v as [x sr|x o r|x r sr|path e sym name so r]; simpl in Hv.
  - apply section_strtab in Hv as [? ?]. by eapply yinv_frame.
  - by eapply yinv_symbol.
  - unfold add_relocation in Hv. cbv zeta in Hv. case_match; [discriminate|]. apply bind_Ok in Hv as (secs & _ & [= <-]). by apply (yinv_frame _ _ w1).
  - destruct Hv as (Hn & w3 & Ha & ->). by eapply yinv_dyn.
Qed.

(** * Patching symbol values *)
Definition step : Type := N * N * symref.
Definition step_fn (s : symbol) (x : step) : symbol := patch_symbol x.1.1 x.1.2 x.2 s.
Definition do_step (t : symtab) (x : step) : symtab := syt_modify t x.2 (patch_symbol x.1.1 x.1.2 x.2).
Definition chunk_steps (ix base : N) (c : chunk) : list step := (fun r => (ix, base, r)) <$> c_symbols c.
Fixpoint chunks_steps (ix base : N) (cs : list chunk) : list step :=
  match cs with [] => [] | c :: cs' => chunk_steps ix base c ++ chunks_steps ix (base + blen (c_data c)) cs' end.
Definition sec_steps (s : section) : list step := chunks_steps (u16 (sc_index s)) (sh_addr (sc_sh s)) (sc_chunks s).
Definition rest_steps (w : writer) (rest : list section) : list step := concat ((fun s => if relocatable w s then sec_steps s else []) <$> rest).
Lemma chunks_steps_fold ix base cs t : patch_chunks ix base cs t = fold_left do_step (chunks_steps ix base cs) t.
Proof.
  revert base t. induction cs as [|c cs IH]; intros base t; [done|]. simpl. rewrite fold_left_app, IH. f_equal.
  unfold chunk_steps. generalize (c_symbols c). intros k. revert t. induction k as [|r k IHk]; intros t; [done|]. simpl. apply IHk.
Qed.
Lemma rest_steps_fold w rest t : fold_left (fun t s => if relocatable w s then patch_symbol_values s t else t) rest t = fold_left do_step (rest_steps w rest) t.
Proof.
  revert t. induction rest as [|s rest IH]; intros t; [done|]. simpl. unfold rest_steps. rewrite fmap_cons. simpl concat. rewrite fold_left_app, <- (IH _). f_equal.
  destruct (relocatable w s); [|done]. unfold patch_symbol_values. apply chunks_steps_fold.
Qed.
Lemma get_modify t r f r' : syt_get (syt_modify t r f) r' = if decide (r = r') then f <$> syt_get t r' else syt_get t r'.
Proof.
  destruct r as [n|a b], r' as [n'|a' b']; simpl.
  - case_decide as E; [injection E as <-; by rewrite lookup_alter|]. rewrite lookup_alter_ne; [done|]. intros <-. by apply E.
  - done.
  - done.
  - case_decide as E.
    + injection E as <- <-. rewrite lookup_alter. destruct (syt_section_syms t !! a) as [v|]; [|done]. cbn [fmap option_fmap option_map mbind option_bind]. apply list_lookup_alter.
    + destruct (decide (a = a')) as [<-|Ha]; [|by rewrite lookup_alter_ne]. rewrite lookup_alter. destruct (syt_section_syms t !! a) as [v|]; [|done]. cbn [fmap option_fmap option_map mbind option_bind].
      apply list_lookup_alter_ne. intros <-. by apply E.
Qed.
Definition steps_at (r : symref) (k : list step) : list step := filter (fun x => x.2 = r) k.
Lemma steps_get k t r : syt_get (fold_left do_step k t) r = (fun s => fold_left step_fn (steps_at r k) s) <$> syt_get t r.
Proof.
  revert t. induction k as [|x k IH]; intros t; [simpl; by destruct (syt_get t r)|]. simpl. rewrite IH. unfold do_step at 1. rewrite get_modify.
  unfold steps_at. rewrite filter_cons. destruct (decide (x.2 = r)) as [E|E]; [|done]. destruct (syt_get t r); done.
Qed.
Lemma steps_at_nil r k : (forall x, x ∈ k -> x.2 <> r) -> steps_at r k = [].
Proof. intros H. apply filter_none. exact H. Qed.
Lemma elem_chunks_steps ix base cs x : x ∈ chunks_steps ix base cs <->
  exists j c, cs !! j = Some c /\ x.2 ∈ c_symbols c /\ x = (ix, base + ntotal (blen <$> take j (c_data <$> cs)), x.2).
Proof.
  revert base. induction cs as [|c cs IH]; intros base; simpl.
  - split; [by intros ?%elem_of_nil|]. intros (j & c & Hc & _). discriminate.
  - rewrite elem_of_app, IH. split.
    + intros [H|(j & c' & Hc & Hr & E)].
      * apply elem_of_list_fmap in H as (r & -> & Hr). exists 0%nat, c. split; [done|]. split; [exact Hr|]. simpl. by rewrite N.add_0_r.
      * exists (S j), c'. split; [done|]. split; [done|]. rewrite E at 1. simpl. by rewrite N.add_assoc.
    + intros ([|j] & c' & Hc & Hr & E).
      * injection Hc as <-. left. apply elem_of_list_fmap. exists x.2. split; [|done]. rewrite E at 1. simpl. by rewrite N.add_0_r.
      * right. exists j, c'. split; [done|]. split; [done|]. rewrite E at 1. simpl. by rewrite N.add_assoc.
Qed.
(** One occurrence among lists in which it occurs at most once each. *)
Lemma steps_at_app r a b : steps_at r (a ++ b) = steps_at r a ++ steps_at r b.
Proof. apply filter_app. Qed.
Lemma chunk_steps_at ix base c r : NoDup (c_symbols c) -> r ∈ c_symbols c -> steps_at r (chunk_steps ix base c) = [(ix, base, r)].
Proof.
  unfold chunk_steps. generalize (c_symbols c). intros k. induction k as [|r' k IH]; intros Hn Hr; [by apply elem_of_nil in Hr|].
  apply NoDup_cons in Hn as [Hni Hn]. rewrite fmap_cons. unfold steps_at. rewrite filter_cons. simpl. destruct (decide (r' = r)) as [->|Hne].
  - f_equal. apply steps_at_nil. intros x Hx E. apply elem_of_list_fmap in Hx as (r2 & -> & Hr2). simpl in E. by subst.
  - apply elem_of_cons in Hr as [->|Hr]; [done|]. by apply IH.
Qed.
Lemma chunks_steps_one ix base cs j c r : cs !! j = Some c -> NoDup (c_symbols c) -> r ∈ c_symbols c -> (forall j' c', cs !! j' = Some c' -> r ∈ c_symbols c' -> j' = j) ->
  steps_at r (chunks_steps ix base cs) = [(ix, base + ntotal (blen <$> take j (c_data <$> cs)), r)].
Proof.
  revert base j. induction cs as [|c0 cs IH]; intros base j Hj Hn Hr Hu; [discriminate|]. simpl. rewrite steps_at_app. destruct j as [|j].
  - injection Hj as ->. rewrite chunk_steps_at by done. rewrite steps_at_nil; [simpl; by rewrite N.add_0_r|].
    intros x Hx E. apply elem_chunks_steps in Hx as (j & c' & Hc & Hx & _). rewrite E in Hx. by specialize (Hu (S j) c' Hc Hx).
  - rewrite steps_at_nil.
    + simpl. rewrite (IH _ j); [by rewrite N.add_assoc|done|done|done|]. intros j' c' Hc Hx. by apply (Hu (S j') c') in Hx as [= ->].
    + intros x Hx E. apply elem_of_list_fmap in Hx as (r' & -> & Hx). simpl in E. subst r'. by specialize (Hu 0%nat c0 eq_refl Hx).
Qed.
Lemma rest_steps_one w rest i s j c r : rest !! i = Some s -> relocatable w s = true -> sc_chunks s !! j = Some c -> NoDup (c_symbols c) -> r ∈ c_symbols c ->
  (forall i' j' s' c', rest !! i' = Some s' -> sc_chunks s' !! j' = Some c' -> r ∈ c_symbols c' -> i' = i /\ j' = j) ->
  steps_at r (rest_steps w rest) = [(u16 (sc_index s), sh_addr (sc_sh s) + ntotal (blen <$> take j (c_data <$> sc_chunks s)), r)].
Proof.
  unfold rest_steps. revert i. induction rest as [|s0 rest IH]; intros i Hi Hrel Hj Hn Hr Hu; [discriminate|]. rewrite fmap_cons. simpl concat. rewrite steps_at_app. destruct i as [|i].
  - injection Hi as ->. rewrite Hrel. unfold sec_steps. rewrite (chunks_steps_one _ _ _ j c); [|done..|].
    + rewrite (steps_at_nil r (concat _)); [done|]. intros x Hx E. apply elem_of_concat in Hx as (l & Hx & Hl). apply elem_of_list_fmap in Hl as (s' & -> & Hs').
      destruct (relocatable w s'); [|by apply elem_of_nil in Hx]. apply elem_chunks_steps in Hx as (j' & c' & Hc & Hx & _). rewrite E in Hx. apply elem_of_list_lookup in Hs' as [i' Hi'].
      by destruct (Hu (S i') j' s' c' Hi' Hc Hx).
    + intros j' c' Hc Hx. by destruct (Hu 0%nat j' s c' eq_refl Hc Hx).
  - rewrite steps_at_nil.
    + simpl. apply (IH i); [done..|]. intros i' j' s' c' H1 H2 H3. by destruct (Hu (S i') j' s' c' H1 H2 H3) as [[= ->] ->].
    + intros x Hx E. destruct (relocatable w s0); [|by apply elem_of_nil in Hx]. apply elem_chunks_steps in Hx as (j' & c' & Hc & Hx & _). rewrite E in Hx. by destruct (Hu 0%nat j' s0 c' eq_refl Hc Hx).
Qed.
Lemma rest_steps_none w rest r : (forall i' j' s' c', rest !! i' = Some s' -> sc_chunks s' !! j' = Some c' -> r ∉ c_symbols c') -> steps_at r (rest_steps w rest) = [].
Proof.
  intros Hu. apply steps_at_nil. intros x Hx E. apply elem_of_concat in Hx as (l & Hx & Hl). apply elem_of_list_fmap in Hl as (s' & -> & Hs').
  destruct (relocatable w s'); [|by apply elem_of_nil in Hx]. apply elem_chunks_steps in Hx as (j' & c' & Hc & Hx & _). rewrite E in Hx. apply elem_of_list_lookup in Hs' as [i' Hi']. by apply (Hu i' j' s' c').
Qed.

(** * What the stages between input and patching keep *)
Definition core (s : symbol) : Sym * option symref := (s_sym s, s_dynamic s).
Definition same_core (t t' : symtab) : Prop := forall r, core <$> syt_get t' r = core <$> syt_get t r.
Lemma core_modify t r f : (forall s, core (f s) = core s) -> same_core t (syt_modify t r f).
Proof. intros H r'. rewrite get_modify. case_decide; [|done]. destruct (syt_get t r'); [|done]. cbn. by rewrite H. Qed.
Lemma core_scan w w' : scan_relocations w = Ok w' -> same_core (w_symtab w) (w_symtab w').
Proof.
  intros H. destruct (scan_flat _ _ H) as (st & Hs & ->). cbn.
  assert (G : same_core (sn_symbols (mkScan (w_symtab w) (w_got_len w) (w_got_plt w) (w_plt w))) (sn_symbols st)); [|exact G].
  revert Hs. generalize (mkScan (w_symtab w) (w_got_len w) (w_got_plt w) (w_plt w)). generalize (all_relocs (w_sections w')). intros k' s Hs.
  apply (mapM_st_trace (fun _ _ t' => same_core (sn_symbols s) (sn_symbols t'))) in Hs; [exact Hs|by intros r|].
  intros _ _ _ t1 [rel r] t2 a' _ H1 H2. 
  assert (G : same_core (sn_symbols t1) (sn_symbols t2)); [|intros r'; by rewrite (G r')].
  clear -H2. unfold scan_reloc in H2. cbv zeta in H2. destruct (needs_got _).
  - apply bind_Ok in H2 as (y & _ & H2). destruct (s_in_got y); injection H2 as <- <-; [by intros r'|]. cbn. by apply core_modify.
  - destruct (_ =? _); [|injection H2 as <- <-; by intros r']. apply bind_Ok in H2 as (y & _ & H2).
    destruct (s_dynamic y); [|injection H2 as <- <-; by intros r']. destruct (or_insert _ _ _) as [gp off], (plt_insert _ _) as [pl ix]. injection H2 as <- <-. cbn. by apply core_modify.
Qed.
Lemma core_dynrel ix l s s' : foldM (dynrel_step ix) l s = Ok s' -> core <$> dr_symbols s' = core <$> dr_symbols s.
Proof.
  revert s. induction l as [|n l IH]; intros s H; simpl in H; [by injection H as <-|]. apply bind_Ok in H as (s1 & H1 & H). apply IH in H. rewrite H. clear -H1.
  unfold dynrel_step in H1. destruct (dr_symbols s !! n) as [sym|]; [|by injection H1 as <-]. destruct (s_dynamic sym) as [d|]; [|by injection H1 as <-].
  apply bind_Ok in H1 as (i & _ & H). apply bind_Ok in H as (ds & _ & [= <-]).
  assert (E : forall x : dynrel_state, core <$> dr_symbols x = core <$> dr_symbols s ->
    core <$> dr_symbols (match s_in_got_plt sym with
             | Some offset => x <| dr_symbols := alter (fun s => s <| s_relocation_offset := Some (blen (dr_plt_rels x)) |>) n (dr_symbols x) |>
                    <| dr_plt_rels := dr_plt_rels x ++ [rela offset (N.of_nat i) R_X86_64_JUMP_SLOT] |>
             | None => x end) = core <$> dr_symbols s).
  { intros x H1. destruct (s_in_got_plt sym); cbn; [|done]. by rewrite keeps_alter. }
  apply E; clear E. destruct (is_object ds), (s_in_got sym); reflexivity.
Qed.
(** Symbols the linker sets itself. *)
Definition touched_names : list string := ["_GLOBAL_OFFSET_TABLE_"; "__init_array_end"; "__fini_array_end"].
Lemma got_symbol_get w r : name_ref (w_strtab w) "_GLOBAL_OFFSET_TABLE_" <> Some r -> syt_get (w_symtab (set_got_symbol w)) r = syt_get (w_symtab w) r.
Proof.
  unfold name_ref, set_got_symbol. intros H. destruct (st_get _ _); [|done].
  etransitivity; [apply (get_modify (w_symtab w) (RNamed _))|]. rewrite decide_False; [done|]. intros <-. by apply H.
Qed.
Lemma special_tab_get sn secn skip t s r : (forall k, name_ref sn (end_of k) <> Some r) -> syt_get (special_tab sn secn skip t s) r = syt_get t r.
Proof.
  intros H. unfold special_tab, set_end. destruct (array_kind secn skip s) as [k|]; [|done]. specialize (H k). destruct (name_ref sn (end_of k)) as [r'|]; [|done].
  rewrite get_modify, decide_False; [done|]. intros ->. done.
Qed.
Lemma special_get w w' r : handle_special_symbols w = Ok w' -> (forall n, n ∈ touched_names -> name_ref (w_strtab w) n <> Some r) ->
  syt_get (w_symtab w') r = syt_get (w_symtab w) r.
Proof.
  intros H Hn. destruct (special_exact _ _ H) as (_ & -> & _). rewrite <- (got_symbol_get w r) by (apply Hn; left).
  assert (He : forall k, name_ref (w_strtab w) (end_of k) <> Some r) by (intros []; apply Hn; apply (bool_decide_unpack _); vm_compute; exact I).
  generalize (w_symtab (set_got_symbol w)). generalize (w_sections w). intros k. induction k as [|s k IH]; intros t; [done|]. simpl. rewrite IH. by apply special_tab_get.
Qed.

(** * The surviving symbol of a name *)
Definition first_max (n : N) (l : list sym_event) : option sym_event := head (filter (fun e => rank (ev_sym e) = max_rank n l) (filter (SpecSym.about n) l)).
Lemma head_filter_app {A} (Q : A -> Prop) `{!forall x, Decision (Q x)} (a b : list A) x : head (filter Q a) = Some x -> head (filter Q (a ++ b)) = Some x.
Proof. rewrite filter_app. by destruct (filter Q a). Qed.
Lemma foldr_max_in (k : list N) x : x ∈ k -> x <= foldr N.max 0 k.
Proof. induction k as [|y k IH]; [by intros ?%elem_of_nil|]. simpl. intros [->|Hx]%elem_of_cons; [lia|]. specialize (IH Hx). lia. Qed.
Definition sym_def (s : Sym) : N * N * N * N := (st_info s, st_other s, st_value s, st_size s).
Lemma first_wins t0 n l t : syt_symbols t0 !! n = None ->
  Forall (fun e => SpecSym.about n e -> standard (ev_sym e)) l -> add_events t0 l = Some t ->
  forall s, syt_symbols t !! n = Some s -> exists e, first_max n l = Some e /\ sym_def (s_sym s) = sym_def (ev_sym e).
Proof.
  intros Hn Hst H. revert Hst.
  apply (add_events_ind (fun l t => Forall (fun e => SpecSym.about n e -> standard (ev_sym e)) l ->
     forall s, syt_symbols t !! n = Some s -> exists e, first_max n l = Some e /\ sym_def (s_sym s) = sym_def (ev_sym e)) t0); [| |done].
  - intros _ s Hs. congruence.
  - clear -Hn. intros l t e t' Hl IH He Hst s Hs. pose proof (strongest_wins t0 n l t Hn (proj1 (proj1 (Forall_app _ _ _) Hst)) Hl) as Hold.
    apply Forall_app in Hst as [Hst1 Hst2]. rewrite Forall_singleton in Hst2. specialize (IH Hst1).
    rewrite (add_event_at _ _ _ n He) in Hs. unfold first_max, max_rank. rewrite filter_app, fmap_app, foldr_max_app. fold (max_rank n l).
    destruct (decide (SpecSym.about n e)) as [Ha|Ha].
    + rewrite (filter_cons_True (SpecSym.about n) e []) by done. rewrite filter_nil. simpl foldr. rewrite N.max_0_r.
      destruct (syt_symbols t !! n) as [old|] eqn:Ho; simpl in Hs.
      * destruct Hold as (Hne & Hs0 & Hr). destruct (merge_Some _ _ _ Hs Hs0 (Hst2 Ha)) as (_ & _ & _ & _ & Hcase). simpl in Hcase. destruct (IH _ eq_refl) as (e0 & He0 & Ed).
        destruct Hcase as [(Hlt & Hd)|Hcase].
        -- exists e. split; [|unfold def_of in Hd; unfold sym_def; congruence]. rewrite N.max_r by lia. rewrite filter_app.
           assert (En : filter (fun x => rank (ev_sym x) = rank (ev_sym e)) (filter (SpecSym.about n) l) = []).
           { apply filter_none. intros x Hx E. assert (rank (ev_sym x) <= max_rank n l); [|lia]. apply foldr_max_in. apply elem_of_list_fmap. exists x. done. }
           rewrite En. simpl. by rewrite (filter_cons_True (fun x => rank (ev_sym x) = rank (ev_sym e)) e []).
        -- assert (Hle : rank (ev_sym e) <= max_rank n l) by (destruct Hcase as [(? & _)|(? & _)]; lia). rewrite N.max_l by lia.
           exists e0. split; [by apply head_filter_app|]. rewrite <- Ed. destruct Hcase as [(_ & _ & ->)|(_ & _ & ->)]; done.
      * injection Hs as <-. rewrite Hold. exists e. split; [|done]. simpl. unfold max_rank. rewrite Hold. simpl. rewrite N.max_0_l.
        by rewrite (filter_cons_True (fun x => rank (ev_sym x) = rank (ev_sym e)) e []).
    + rewrite (filter_cons_False (SpecSym.about n) e []) by done. rewrite filter_nil, app_nil_r. simpl. rewrite N.max_0_r. by apply IH.
Qed.
(** Defined in the table only if some symbol was. *)
Lemma defined_by t0 n l t : syt_symbols t0 !! n = None -> add_events t0 l = Some t ->
  forall s, syt_symbols t !! n = Some s -> defined (s_sym s) -> exists e, e ∈ l /\ SpecSym.about n e /\ defined (ev_sym e).
Proof.
  intros Hn H. apply (add_events_ind (fun l t => forall s, syt_symbols t !! n = Some s -> defined (s_sym s) -> exists e, e ∈ l /\ SpecSym.about n e /\ defined (ev_sym e)) t0); [| |done].
  - intros s Hs. congruence.
  - clear. intros l t e t' Hl IH He s Hs Hd. rewrite (add_event_at _ _ _ n He) in Hs.
    assert (G : (exists old, syt_symbols t !! n = Some old /\ defined (s_sym old)) \/ SpecSym.about n e /\ defined (ev_sym e)).
    { destruct (decide (SpecSym.about n e)) as [Ha|Ha]; [|by left; exists s]. destruct (syt_symbols t !! n) as [old|]; simpl in Hs.
      - unfold merge_symbol in Hs. destruct (_ && _); [discriminate|]. destruct (negb _); [injection Hs as <-; by right|].
        destruct (_ =? _) eqn:E; injection Hs as <-; [by right|]. left. by exists old.
      - injection Hs as <-. by right. }
    destruct G as [(old & Ho & Hdo)|[Ha Hde]].
    + destruct (IH old Ho Hdo) as (e' & He' & ?). exists e'. split; [apply elem_of_app; by left|done].
    + exists e. split; [apply elem_of_app; right; by left|done].
Qed.

(** * Sections of the input are told apart by object and index *)
Definition sec_key (x : sec_in) : nat * nat := (si_obj x, si_idx x).
Lemma obj_secs_keys k e : NoDup (sec_key <$> obj_secs k e) /\ forall x, x ∈ obj_secs k e -> si_obj x = k.
Proof.
  unfold obj_secs. split.
  - assert (G : forall (shs : list Shdr) (d : nat), NoDup (sec_key <$> omap (obj_sec k e) (imap (fun i sh => (d + i, sh)%nat) shs)) /\
      forall x, x ∈ omap (obj_sec k e) (imap (fun i sh => (d + i, sh)%nat) shs) -> (d <= si_idx x)%nat).
    { induction shs as [|sh shs IH]; intros d; [split; [constructor|by intros x ?%elem_of_nil]|].
      assert (Ei : imap (fun i sh => ((d + i)%nat, sh)) (sh :: shs) = (d, sh) :: imap (fun i sh => ((S d + i)%nat, sh)) shs).
      { simpl. rewrite Nat.add_0_r. f_equal. apply imap_ext. intros i x _. simpl. f_equal. lia. }
      rewrite Ei. destruct (IH (S d)) as [I1 I2]. change (omap (obj_sec k e) ((d, sh) :: ?l)) with (match obj_sec k e (d, sh) with Some y => y :: omap (obj_sec k e) l | None => omap (obj_sec k e) l end).
      destruct (obj_sec k e (d, sh)) as [y|] eqn:Ey.
      - assert (Hy : si_idx y = d) by (unfold obj_sec in Ey; simpl in Ey; destruct (copied sh); [|discriminate]; destruct (eo_shstr e (sh_name sh)); [|discriminate]; by injection Ey as <-).
        split.
        + rewrite fmap_cons. apply NoDup_cons. split; [|done]. intros Hin. apply elem_of_list_fmap in Hin as (z & Ez & Hz). apply I2 in Hz. unfold sec_key in Ez. injection Ez as _ Ez. lia.
        + intros x [->|Hx]%elem_of_cons; [lia|]. apply I2 in Hx. lia.
      - split; [done|]. intros x Hx. apply I2 in Hx. lia. }
    destruct (G (eo_shdrs e) 0%nat) as [G1 _]. exact G1.
  - intros x Hx. apply elem_of_list_omap in Hx as (y & _ & Hy). unfold obj_sec in Hy. destruct (copied y.2); [|discriminate]. destruct (eo_shstr e (sh_name y.2)); [|discriminate]. by injection Hy as <-.
Qed.
Lemma all_secs_keys es : NoDup (sec_key <$> all_secs es).
Proof.
  unfold all_secs. assert (G : forall (es : list (string * elf_obj)) d, NoDup (sec_key <$> concat (imap (fun k x => obj_secs (d + k)%nat x.2) es)) /\
    forall x, x ∈ concat (imap (fun k x => obj_secs (d + k)%nat x.2) es) -> (d <= si_obj x)%nat).
  { clear es. induction es as [|e es IH]; intros d; [split; [constructor|by intros x ?%elem_of_nil]|].
    assert (Ei : imap (fun k x => obj_secs (d + k)%nat x.2) (e :: es) = obj_secs d e.2 :: imap (fun k x => obj_secs (S d + k)%nat x.2) es).
    { simpl. rewrite Nat.add_0_r. f_equal. apply imap_ext. intros i x _. simpl. f_equal. lia. }
    rewrite Ei. destruct (IH (S d)) as [I1 I2]. destruct (obj_secs_keys d e.2) as [K1 K2]. simpl concat. split.
    - rewrite fmap_app. apply NoDup_app. split; [done|]. split; [|done]. intros z Hz Hz'. apply elem_of_list_fmap in Hz as (x & -> & Hx). apply elem_of_list_fmap in Hz' as (x' & E & Hx').
      apply K2 in Hx. apply I2 in Hx'. unfold sec_key in E. injection E as E _. lia.
    - intros x [Hx|Hx]%elem_of_app; [apply K2 in Hx; lia|apply I2 in Hx; lia]. }
  destruct (G es 0%nat) as [G1 _]. exact G1.
Qed.
Lemma fmap_NoDup_inj {A B} (f : A -> B) (k : list A) i j x y : NoDup (f <$> k) -> k !! i = Some x -> k !! j = Some y -> f x = f y -> i = j /\ x = y.
Proof.
  intros Hn Hi Hj E. assert (i = j) as <-. { eapply NoDup_lookup; [exact Hn| |]; rewrite list_lookup_fmap; [by rewrite Hi|by rewrite Hj, E]. } split; [done|]. congruence.
Qed.
Lemma all_secs_same es x x' : x ∈ all_secs es -> x' ∈ all_secs es -> si_obj x = si_obj x' -> si_idx x = si_idx x' -> x = x'.
Proof.
  intros [i Hi]%elem_of_list_lookup [j Hj]%elem_of_list_lookup E1 E2. eapply (fmap_NoDup_inj sec_key); [apply (all_secs_keys es)|exact Hi|exact Hj|]. unfold sec_key. congruence.
Qed.
(** Each section is added once. *)
Lemma omap_split {A B} (f : A -> option B) (k : list A) x v pre post : k = pre ++ v :: post -> f v = Some x -> omap f k !! length (omap f pre) = Some x.
Proof. intros -> Hv. rewrite omap_app. simpl. rewrite Hv. apply lookup_app_Some. right. split; [lia|]. rewrite Nat.sub_diag. done. Qed.
Lemma sec_once wd l es evs w x sr sr' : reads wd l es evs w -> EvSec x sr ∈ evs -> EvSec x sr' ∈ evs -> sr = sr'.
Proof.
  intros HR H1 H2. assert (Hn : NoDup (sec_key <$> omap sec_of evs)) by (rewrite (ld_secs _ _ _ _ _ HR); apply all_secs_keys). clear HR.
  induction evs as [|v evs IH]; [by apply elem_of_nil in H1|]. 
  assert (Hc : omap sec_of (v :: evs) = option_list (sec_of v) ++ omap sec_of evs) by (simpl; by destruct (sec_of v)).
  rewrite Hc, fmap_app in Hn. apply NoDup_app in Hn as (_ & Hd & Hn).
  assert (G : forall s, EvSec x s ∈ evs -> sec_key x ∈ sec_key <$> omap sec_of evs) by (intros s Hs; apply elem_of_list_fmap; exists x; split; [done|]; apply elem_of_list_omap; by exists (EvSec x s)).
  apply elem_of_cons in H1 as [E1|H1]; apply elem_of_cons in H2 as [E2|H2].
  - congruence.
  - exfalso. rewrite <- E1 in Hd. apply (Hd (sec_key x)); [by left|by eapply G].
  - exfalso. rewrite <- E2 in Hd. apply (Hd (sec_key x)); [by left|by eapply G].
  - by apply IH.
Qed.

Section links.
  Context {wd : world} {lo : lib_oracle} {l : linker} {fuel : nat} {w : writer} {secs : list section}
    {w0 wr ws w1 : writer} {extra : N} {null : section} {rest rest' : list section} {st : layout} {w3 w4 w5 w6 w7 : writer}
    {null' : section} {out : list section}.
  Context (O : outcome wd lo l fuel w secs w0 wr ws w1 extra null rest rest' st w3 w4 w5 w6 w7 null' out).
  Context (Fin : mapM_res (sec_finalize (lo_writer lo) w) (w_sections w) = Ok secs).
  Context (V : valid_oracle (lo_writer lo)) (P : plain_inputs wd l) (NF : names_fit w).
  Context {es : list (string * elf_obj)} {evs : list event} (R : reads wd l es evs wr).
  Let o := lo_writer lo.
  Let n0 := length (w_sections w0).

  Lemma core_w5 : same_core (w_symtab wr) (w_symtab w5).
  Proof using O.
    destruct (run_w4 (oc_run O)) as (ds & E4 & _). destruct (patch_plt_spec _ _ (rn_plt (oc_run O))) as [E5 K5].
    assert (Es5 : w_symtab w5 = w_symtab w1) by (rewrite E5, E4, (rn_w3 (oc_run O)); reflexivity).
    rewrite Es5. destruct (sz_rels _ _ _ _ _ (rn_sizing (oc_run O))) as (sd & Hd & -> & _). apply core_dynrel in Hd. cbn [dr_symbols] in Hd.
    intros r. rewrite <- (core_scan _ _ (sz_scan _ _ _ _ _ (rn_sizing (oc_run O))) r). destruct r as [n|a b]; [|done].
    apply (f_equal (fun m => m !! n)) in Hd. rewrite !lookup_fmap in Hd. exact Hd.
  Qed.
  Lemma core_w6 r : (forall n, n ∈ touched_names -> name_ref (w_strtab wr) n <> Some r) -> core <$> syt_get (w_symtab w6) r = core <$> syt_get (w_symtab wr) r.
  Proof using O. intros Hn. rewrite (special_get _ _ _ (rn_special (oc_run O))); [apply core_w5|]. by rewrite (w5_strtab O). Qed.

  Lemma special_a6 k a0 a1 a3 a6 a7 b pd gd : hist o wr ws w1 extra rest' w4 pd gd w5 w6 w7 w k a0 a1 a3 a6 a7 b ->
    a6 = special_fn (w_strtab w5) (w_shstrtab w5) (skip_of w5) (patched_plt w4 pd gd a3).
  Proof using O.
    intros HH. pose proof (h_w5 HH) as H5. pose proof (h_w6 HH) as H6. destruct (special_exact _ _ (rn_special (oc_run O))) as (E6 & _).
    rewrite E6, list_lookup_fmap, H5 in H6. cbn [fmap option_fmap option_map] in H6. by apply (inj Some) in H6.
  Qed.
  Lemma regs5 k a0 a1 a3 a6 a7 b pd gd j c5 r : hist o wr ws w1 extra rest' w4 pd gd w5 w6 w7 w k a0 a1 a3 a6 a7 b ->
    sc_chunks (patched_plt w4 pd gd a3) !! j = Some c5 -> r ∈ c_symbols c5 -> exists c0, sc_chunks a0 !! j = Some c0 /\ r ∈ c_symbols c0.
  Proof using O P.
    intros HH H5 Hr.
    assert (E5 : c_symbols <$> sc_chunks (patched_plt w4 pd gd a3) = c_symbols <$> sc_chunks a3).
    { unfold patched_plt, on, set_chunk_data. assert (G : forall (d : bytes) (cs : list chunk), c_symbols <$> alter (fun c : chunk => c <| c_data := d |>) 0%nat cs = c_symbols <$> cs) by (intros d [|c cs]; done).
      destruct (w_got_plt w4); repeat case_match; simpl; rewrite ?G; done. }
    assert (E3 : c_symbols <$> sc_chunks a3 = c_symbols <$> sc_chunks (size_fn o ws (w_hash w1) (w_gnu_hash w1) (blen (w_dyn_rels w1)) (blen (w_plt_rels w1)) extra a1)).
    { destruct (h_placed HH) as [_ F]. unfold same_chunks in F. revert F. generalize (sc_chunks a3).
      change (sc_chunks (size_fn o ws (w_hash w1) (w_gnu_hash w1) (blen (w_dyn_rels w1)) (blen (w_plt_rels w1)) extra a1 <| sc_index := N.of_nat (S k) |>)) with
        (sc_chunks (size_fn o ws (w_hash w1) (w_gnu_hash w1) (blen (w_dyn_rels w1)) (blen (w_plt_rels w1)) extra a1)).
      generalize (sc_chunks (size_fn o ws (w_hash w1) (w_gnu_hash w1) (blen (w_dyn_rels w1)) (blen (w_plt_rels w1)) extra a1)). clear. intros a b F. 
      induction F as [|x y a b E F IH]; [done|]. rewrite !fmap_cons, IH. f_equal. by rewrite E. }
    destruct (own_hist O P _ _ _ _ _ _ _ _ _ HH) as (Hown & _).
    destruct (size_made o ws (w_hash w1) (w_gnu_hash w1) (blen (w_dyn_rels w1)) (blen (w_plt_rels w1)) extra a1 Hown) as [Hch _]. rewrite Hch in E3.
    assert (E1 : c_symbols <$> sc_chunks a1 = c_symbols <$> sc_chunks a0).
    { destruct (h_scan HH) as [_ F]. clear -F. induction F as [|x y a b [E _] F IH]; [done|]. rewrite !fmap_cons, IH. f_equal. by rewrite E. }
    rewrite fmap_app, E1 in E3. rewrite E3 in E5. clear E1 E3. apply (f_equal (fun l => l !! j)) in E5. rewrite list_lookup_fmap, H5 in E5. cbn [fmap option_fmap option_map] in E5. symmetry in E5.
    apply lookup_app_Some in E5 as [E5|[_ E5]].
    - apply list_lookup_fmap_Some in E5 as (c0 & Hc0 & E). exists c0. split; [done|]. by rewrite <- E.
    - exfalso. apply list_lookup_fmap_Some in E5 as (c & Hc & E). apply elem_of_list_lookup_2 in Hc. rewrite E in Hr. clear -Hc Hr. unfold made in Hc.
      assert (G : forall (d : bytes), c ∈ [chunk_new d] -> False) by (intros d ->%elem_of_list_singleton; by apply elem_of_nil in Hr).
      destruct (sc_synth a1) as [[]|]; try (by apply elem_of_nil in Hc); try (by eapply G).
      revert Hc. generalize (sc_id a1). intros id Hc. do 13 (destruct id as [|id]; [first [by eapply G|by apply elem_of_nil in Hc]|]). by apply elem_of_nil in Hc.
  Qed.
  Lemma regs k a0 a1 a3 a6 a7 b pd gd j c6 r : hist o wr ws w1 extra rest' w4 pd gd w5 w6 w7 w k a0 a1 a3 a6 a7 b ->
    sc_chunks a6 !! j = Some c6 -> r ∈ c_symbols c6 -> special_ref (w_strtab wr) r \/ exists c0, sc_chunks a0 !! j = Some c0 /\ r ∈ c_symbols c0.
  Proof using O P.
    intros HH Hj Hr. pose proof (special_more (w_strtab w5) (w_shstrtab w5) (skip_of w5) (patched_plt w4 pd gd a3)) as M. rewrite <- (special_a6 _ _ _ _ _ _ _ _ _ HH) in M.
    rewrite (w5_strtab O) in M. destruct (Forall2_lookup_r _ _ _ _ _ M Hj) as (c5 & H5 & (tl & -> & Ft & _)). simpl in Hr. apply elem_of_app in Hr as [Hr|Hr]; [|left; by eapply Forall_forall in Ft].
    right. by eapply regs5.
  Qed.
  Lemma rest6 : exists null6 r6, w_sections w6 = null6 :: r6 /\ length r6 = length out /\ w_symtab w7 = fold_left do_step (rest_steps w6 r6) (w_symtab w6).
  Proof using O.
    destruct (kept_stages O) as (_ & K6 & _). rewrite (w4_sections O), (run_w3_secs (oc_run O)) in K6. destruct (F2_kept_head _ _ _ K6) as (n6 & r6 & Es6 & _ & Kr6).
    exists n6, r6. split; [done|]. split.
    - rewrite <- (Forall2_length _ _ _ Kr6). apply (Forall2_length _ _ _ (oc_out O)).
    - destruct (handle_relocs_spec _ _ _ _ Es6 (rn_rel (oc_run O))) as (t & r7 & -> & -> & _). simpl. apply rest_steps_fold.
  Qed.
  (** Every registration before patching comes from an addition. *)
  Lemma reg_event null6 r6 i s j c r : w_sections w6 = null6 :: r6 -> length r6 = length out -> r6 !! i = Some s -> sc_chunks s !! j = Some c -> r ∈ c_symbols c ->
    special_ref (w_strtab wr) r \/ exists b v, out !! i = Some b /\ (0 < sc_id b)%nat /\ v ∈ evs /\ defines v (mkSref (sc_id b) j) r.
  Proof using O Fin V P R.
    intros E6 El Hi Hj Hr. destruct (lookup_lt_is_Some_2 out i) as [b Hb]; [rewrite <- El; by eapply lookup_lt_Some|].
    destruct (history O Fin V) as (pd & gd & _ & Hh). destruct (Hh i b Hb) as (a0 & a1 & a3 & a6 & a7 & HH).
    pose proof (h_w6 HH) as H6. rewrite E6 in H6. simpl in H6. rewrite Hi in H6. injection H6 as <-.
    destruct (regs _ _ _ _ _ _ _ _ _ _ _ _ HH Hj Hr) as [?|(c0 & Hc0 & Hr0)]; [by left|]. right.
    destruct (sv_chunk _ _ _ _ (wr_sinv O R) _ _ _ _ (h_wr HH) Hc0) as (_ & _ & _ & Hd). apply Hd in Hr0 as (v & Hv & Hdef). exists b, v. split; [done|]. split; [exact (h_pos HH)|]. done.
  Qed.
  Lemma user_datas6 n k ofs pd gd a0 a1 a3 a6 a7 b : user (lo := lo) (w := w) (secs := secs) (w0 := w0) (wr := wr) (ws := ws) (w1 := w1) (extra := extra) (rest' := rest') (w4 := w4) (w5 := w5) (w6 := w6) (w7 := w7) (out := out) (es := es) n k ofs pd gd a0 a1 a3 a6 a7 b ->
    c_data <$> sc_chunks a6 = c_data <$> sc_chunks a0 /\ sh_addr (sc_sh a6) = addr b /\ sc_index a6 = sc_index b.
  Proof using O V P.
    intros U. pose proof (us_hist _ _ _ _ _ _ _ _ _ _ _ U) as HH. destruct (user_a3 O V P _ _ _ _ _ _ _ _ _ _ _ U) as [H3 H36]. split.
    - assert (E6 : c_data <$> sc_chunks a6 = c_data <$> sc_chunks a3).
      { rewrite H36. pose proof (special_more (w_strtab w5) (w_shstrtab w5) (skip_of w5) a3) as F. clear -F. induction F as [|x y a b (tl & -> & _) F IH]; [done|]. rewrite !fmap_cons, IH. done. }
      assert (E1 : c_data <$> sc_chunks a1 = c_data <$> sc_chunks a0).
      { destruct (h_scan HH) as [_ F]. clear -F. induction F as [|x y a b [E _] F IH]; [done|]. rewrite !fmap_cons, IH. f_equal. by rewrite E. }
      rewrite E6, H3. destruct (alloc b); [|done]. rewrite <- E1. generalize (addr b). clear. intros a. revert a. induction (sc_chunks a1) as [|c cs IH]; intros a; [done|]. simpl. f_equal. apply IH.
    - assert (K : kept a3 a6) by (rewrite H36; unfold special_fn; destruct (array_kind _ _ _); [done|by destruct a3]). destruct (h_written HH) as (_ & Hi & Ha & _). rewrite K. split; [symmetry; exact Ha|symmetry; exact Hi].
  Qed.
  Lemma sym_once n k ofs pd gd a0 a1 a3 a6 a7 b j c0 r : user (lo := lo) (w := w) (secs := secs) (w0 := w0) (wr := wr) (ws := ws) (w1 := w1) (extra := extra) (rest' := rest') (w4 := w4) (w5 := w5) (w6 := w6) (w7 := w7) (out := out) (es := es) n k ofs pd gd a0 a1 a3 a6 a7 b ->
    sc_chunks a0 !! j = Some c0 -> r ∈ c_symbols c0 -> ~ special_ref (w_strtab wr) r ->
    (forall v sr, v ∈ evs -> defines v sr r -> sr_section sr <> 0%nat -> sr = mkSref (sc_id b) j) ->
    syt_get (w_symtab w7) r = patch_symbol (u16 (sc_index b)) (addr b + ntotal (blen <$> take j (c_data <$> sc_chunks a0))) r <$> syt_get (w_symtab w6) r.
  Proof using O Fin V P NF R.
    intros U Hj Hr Hns Hu. pose proof (us_hist _ _ _ _ _ _ _ _ _ _ _ U) as HH. destruct rest6 as (null6 & r6 & E6 & El & ->). rewrite steps_get.
    destruct (user_chunk O Fin V P NF R _ _ _ _ _ _ _ _ _ _ _ _ _ U Hj) as (c6 & c7 & Hc6 & _ & F). pose proof (cf_syms _ _ _ _ _ F) as (tl & Ec6 & _ & Hnd).
    destruct (sv_chunk _ _ _ _ (wr_sinv O R) _ _ _ _ (h_wr HH) Hj) as (_ & Hnd0 & _). specialize (Hnd Hnd0).
    pose proof (h_w6 HH) as H6. rewrite E6 in H6. simpl in H6.
    rewrite (rest_steps_one w6 r6 k a6 j c6); [|done|by eapply user_relocatable|done|done| |].
    - destruct (user_datas6 _ _ _ _ _ _ _ _ _ _ _ U) as (-> & -> & ->). destruct (syt_get (w_symtab w6) r); done.
    - rewrite Ec6. simpl. apply elem_of_app. by left.
    - intros i' j' s' c' Hi' Hj' Hr'. destruct (reg_event _ _ _ _ _ _ _ E6 El Hi' Hj' Hr') as [?|(b' & v & Hb' & Hp & Hv & Hd)]; [done|].
      specialize (Hu _ _ Hv Hd ltac:(simpl; lia)). injection Hu as Hid ->. split; [|done]. by eapply (out_nodup O V); [exact Hb'|exact (us_out _ _ _ _ _ _ _ _ _ _ _ U)|].
  Qed.
  Lemma sym_none r : ~ special_ref (w_strtab wr) r -> (forall v sr, v ∈ evs -> defines v sr r -> sr_section sr = 0%nat) ->
    syt_get (w_symtab w7) r = syt_get (w_symtab w6) r.
  Proof using O Fin V P R.
    intros Hns Hu. destruct rest6 as (null6 & r6 & E6 & El & ->). rewrite steps_get, rest_steps_none; [by destruct (syt_get (w_symtab w6) r)|].
    intros i' j' s' c' Hi' Hj' Hr'. destruct (reg_event _ _ _ _ _ _ _ E6 El Hi' Hj' Hr') as [?|(b' & v & Hb' & Hp & Hv & Hd)]; [done|]. specialize (Hu _ _ Hv Hd). simpl in Hu. lia.
  Qed.
  (** ** Names *)
  Let sn := w_strtab wr.
  Lemma yinv_wr : yinv evs wr.
  Proof using R. by eapply reads_yinv. Qed.
  Lemma sn_small : stt_total_len sn < 2^32.
  Proof using O NF. unfold sn. destruct (run_fields (oc_run O)) as (_ & E & _). rewrite <- E. exact (proj1 (proj2 NF)). Qed.
  Lemma sn_ok : st_ok sn.
  Proof using O. unfold sn. exact (st_reach_ok _ (proj1 (resolve_reach _ _ _ _ _ (oc_resolve O)))). Qed.
  Lemma get_entry n e : st_get sn n = Some e -> exists i, (n, (i, en_offset e)) ∈ stt_names sn.
  Proof using.
    unfold st_get. destruct (ModelTables.assoc n (stt_names sn)) as [[i p]|] eqn:E; [|discriminate]. intros [= <-]. exists i. by apply assoc_Some_elem.
  Qed.
  Lemma off_inj n n' : is_Some (st_get sn n) -> is_Some (st_get sn n') -> off_of sn n = off_of sn n' -> n = n'.
  Proof using O NF.
    intros [e He] [e' He'] E. unfold off_of in E. rewrite He, He' in E. apply get_entry in He as [i Hi]. apply get_entry in He' as [i' Hi'].
    exact (name_inj _ _ _ _ _ _ _ sn_ok sn_small Hi Hi' E).
  Qed.
  Lemma sym_known y : y ∈ all_syms es -> is_Some (st_get sn (yi_name y)).
  Proof using R. intros Hy. apply (yv_names _ _ yinv_wr). right. exists y. split; [|done]. by rewrite (ld_syms _ _ _ _ _ R). Qed.
  Lemma about_named n y : is_Some (st_get sn n) -> y ∈ all_syms es -> SpecSym.about (off_of sn n) (ev_of sn y) <-> typ (yi_sym y) <> 3 /\ yi_name y = n.
  Proof using O NF R.
    intros Hn Hy. unfold SpecSym.about. simpl. change (typ (yi_sym y <| st_name := off_of sn (yi_name y) |>)) with (typ (yi_sym y)). split; intros [H1 H2]; (split; [done|]).
    - apply off_inj; [by apply sym_known|done|done].
    - by rewrite H2.
  Qed.
  Lemma filter_named n (ys : list sym_in) : is_Some (st_get sn n) -> (forall y, y ∈ ys -> y ∈ all_syms es) ->
    filter (SpecSym.about (off_of sn n)) (ev_of sn <$> ys) = ev_of sn <$> named n ys.
  Proof using O NF R.
    intros Hn. unfold named. induction ys as [|y ys IH]; intros Hys; [done|]. rewrite fmap_cons, !filter_cons, IH by (intros z Hz; apply Hys; by right).
    pose proof (about_named n y Hn (Hys y ltac:(by left))) as Hi. destruct (decide (SpecSym.about _ _)) as [Ha|Ha], (decide (typ (yi_sym y) <> 3 /\ yi_name y = n)) as [Hb|Hb]; [done|tauto|tauto|done].
  Qed.
  Lemma max_named n : is_Some (st_get sn n) -> max_rank (off_of sn n) (ev_of sn <$> all_syms es) = top_rank n (all_syms es).
  Proof using O NF R. intros Hn. unfold max_rank, top_rank, nmax. rewrite filter_named by done. by rewrite <- list_fmap_compose. Qed.
  Lemma first_named n : is_Some (st_get sn n) -> first_max (off_of sn n) (ev_of sn <$> all_syms es) = ev_of sn <$> winner n (all_syms es).
  Proof using O NF R.
    intros Hn. unfold first_max, winner. rewrite max_named by done. rewrite filter_named by done. generalize (top_rank n (all_syms es)). generalize (named n (all_syms es)). intros ys m.
    induction ys as [|y ys IH]; [done|]. rewrite fmap_cons, !filter_cons. change (rank (ev_sym (ev_of sn y))) with (rank (yi_sym y)). by destruct (decide (rank (yi_sym y) = m)).
  Qed.
  Lemma off_pos n : n <> "" -> is_Some (st_get sn n) -> off_of sn n <> 0.
  Proof using O NF R.
    intros Hn Hs E. assert (H0 : is_Some (st_get sn "")) by (apply (yv_names _ _ yinv_wr); by left). apply Hn. apply off_inj; [done|done|]. rewrite E.
    symmetry. destruct (ok_first _ sn_ok) as (tl & Ht). unfold off_of, st_get. rewrite Ht. reflexivity.
  Qed.
  Lemma named_known n : named n (all_syms es) <> [] -> is_Some (st_get sn n).
  Proof using R.
    intros H. destruct (named n (all_syms es)) as [|y ys] eqn:E; [done|]. assert (Hy : y ∈ named n (all_syms es)) by (rewrite E; by left).
    apply elem_of_list_filter in Hy as [[_ <-] Hy]. by apply sym_known.
  Qed.
  Lemma table_events : add_events (syt_new false) (ev_of sn <$> all_syms es) = Some (strip_tab (w_symtab wr)).
  Proof using R. rewrite <- (ld_syms _ _ _ _ _ R). exact (yv_tab _ _ yinv_wr). Qed.
  Lemma table_wr n : n <> "" -> named n (all_syms es) <> [] -> all_standard n (all_syms es) ->
    exists s y, syt_symbols (w_symtab wr) !! off_of sn n = Some s /\ winner n (all_syms es) = Some y /\ sym_def (s_sym s) = sym_def (yi_sym y).
  Proof using O NF R.
    intros Hn Hne Hst. pose proof (named_known n Hne) as Hk.
    assert (H0 : syt_symbols (syt_new false) !! off_of sn n = None) by (simpl; apply lookup_singleton_None; intros E; by apply (off_pos n Hn Hk)).
    assert (Hst' : Forall (fun e => SpecSym.about (off_of sn n) e -> standard (ev_sym e)) (ev_of sn <$> all_syms es)).
    { apply Forall_forall. intros e He Ha. apply elem_of_list_fmap in He as (y & -> & Hy). apply (about_named n y Hk Hy) in Ha. apply (Hst y). by apply elem_of_list_filter. }
    pose proof (strongest_wins _ _ _ _ H0 Hst' table_events) as Hw. simpl in Hw. rewrite lookup_fmap in Hw.
    destruct (syt_symbols (w_symtab wr) !! off_of sn n) as [s|] eqn:Es.
    - destruct (first_wins _ _ _ _ H0 Hst' table_events (strip s)) as (e & He & Ed); [simpl; by rewrite lookup_fmap, Es|].
      rewrite first_named in He by done. destruct (winner n (all_syms es)) as [y|]; [|discriminate]. injection He as <-. exists s, y. done.
    - exfalso. simpl in Hw. rewrite filter_named in Hw by done. by apply fmap_nil_inv in Hw.
  Qed.
  (** ** Where a definition is registered *)
  Lemma sec_added x : x ∈ all_secs es -> exists sr, EvSec x sr ∈ evs.
  Proof using R. intros Hx. rewrite <- (ld_secs _ _ _ _ _ R) in Hx. apply elem_of_list_omap in Hx as (v & Hv & Hs). destruct v; try discriminate. injection Hs as ->. eauto. Qed.
  Lemma sec_from x sr : EvSec x sr ∈ evs -> x ∈ all_secs es.
  Proof using R. intros Hv. rewrite <- (ld_secs _ _ _ _ _ R). apply elem_of_list_omap. by exists (EvSec x sr). Qed.
  Lemma sym_from y q r : EvSym y q r ∈ evs -> y ∈ all_syms es.
  Proof using R. intros Hv. rewrite <- (ld_syms _ _ _ _ _ R). apply elem_of_list_omap. by exists (EvSym y q r). Qed.
  Lemma sym_ref y q r : EvSym y q r ∈ evs -> typ (yi_sym y) <> 3 -> r = RNamed (off_of sn (yi_name y)).
  Proof using R. intros Hv Ht. apply elem_of_list_split in Hv as (pre & post & E). rewrite (yv_ref _ _ yinv_wr _ _ _ _ _ E), decide_False by done. done. Qed.
  Lemma section_ref_of y q r : EvSym y q r ∈ evs -> typ (yi_sym y) = 3 -> exists k, r = RSection (st_shndx (yi_sym y)) k.
  Proof using R. intros Hv Ht. apply elem_of_list_split in Hv as (pre & post & E). rewrite (yv_ref _ _ yinv_wr _ _ _ _ _ E), decide_True by done. eauto. Qed.
  Lemma defined_where v sr r : v ∈ evs -> defines v sr r -> exists x y, v = EvSym y (Some sr) r /\ EvSec x sr ∈ evs /\ y ∈ all_syms es /\ x ∈ all_secs es /\ lies_in x y.
  Proof using R.
    intros Hv (y & -> & Ha). pose proof (sym_from _ _ _ Hv) as Hy. apply elem_of_list_split in Hv as (pre & post & E). destruct (ld_ok _ _ _ _ _ R _ _ _ E) as (x & Hx & Ho & Hi).
    exists x, y. assert (Hx' : EvSec x sr ∈ evs) by (rewrite E; apply elem_of_app; by left). split; [done|]. split; [done|]. split; [done|]. split; [by eapply sec_from|].
    split; [done|]. split; [|done]. rewrite Hi. apply N2Nat.id.
  Qed.
  Lemma where_defined x y : x ∈ all_secs es -> y ∈ all_syms es -> lies_in x y -> exists r sr, EvSym y (Some sr) r ∈ evs /\ EvSec x sr ∈ evs /\ defines (EvSym y (Some sr) r) sr r.
  Proof using R.
    intros Hx Hy (Ho & Hi & Ha). pose proof Hy as Hv. rewrite <- (ld_syms _ _ _ _ _ R) in Hv. apply elem_of_list_omap in Hv as (v & Hv & Hs). destruct v as [|y' q r| |]; try discriminate. injection Hs as ->.
    pose proof Hv as Hv'. apply elem_of_list_split in Hv' as (pre & post & E). pose proof (ld_ok _ _ _ _ _ R _ _ _ E) as K. simpl in K. destruct q as [sr|].
    - destruct K as (x' & Hx' & Ho' & Hi'). assert (Hx2 : EvSec x' sr ∈ evs) by (rewrite E; apply elem_of_app; by left).
      assert (x' = x) as ->. { eapply all_secs_same; [by eapply sec_from|done|congruence|]. rewrite Hi', <- Hi. apply Nat2N.id. }
      exists r, sr. split; [done|]. split; [done|]. by exists y.
    - exfalso. destruct (sec_input _ _ _ _ _ _ R Hx) as (p & e & He & Hsh & (_ & _ & Ht & _) & _). rewrite Ho in He. rewrite <- (Nat2N.id (si_idx x)), Hi in Hsh.
      specialize (K p e (si_sh x) He Hsh). unfold copied in K. apply negb_false_iff, bool_decide_eq_true in K. done.
  Qed.
  Lemma unnamed_zero x sr : EvSec x sr ∈ evs -> si_name x = "" -> sr_section sr = 0%nat.
  Proof using O R.
    intros Hx Hn. apply elem_of_list_split in Hx as (pre & post & E). destruct (sv_ref _ _ _ _ (wr_sinv O R) _ _ _ _ E) as [(p & Hp) _]. rewrite Hn in Hp.
    destruct (ok_first _ (st_reach_ok _ (wi_st _ _ _ (oc_winv O)))) as (tl & Ht). eapply (names_unique _ _ _ _ _ _ _ _ (oc_winv O)); [exact Hp|]. rewrite Ht. reflexivity.
  Qed.
  Lemma not_special n : n ∉ linker_names -> is_Some (st_get sn n) -> ~ special_ref sn (RNamed (off_of sn n)) /\ forall m, m ∈ touched_names -> name_ref sn m <> Some (RNamed (off_of sn n)).
  Proof using O NF.
    intros Hn Hk. assert (G : forall m, m ∈ linker_names -> name_ref sn m <> Some (RNamed (off_of sn n))).
    { intros m Hm E. unfold name_ref in E. destruct (st_get sn m) as [e|] eqn:Ee; [|discriminate]. cbn [fmap option_fmap option_map] in E. apply (inj Some) in E.
      assert (m = n); [|congruence]. apply off_inj; [by rewrite Ee|done|]. unfold off_of at 1. rewrite Ee. by injection E. }
    split; [|intros m Hm; apply G; revert m Hm; apply Forall_forall; unfold touched_names; rewrite !Forall_cons, Forall_nil; split_and!; try done; apply (bool_decide_unpack _); vm_compute; exact I].
    intros (m & Hm & E). revert E. apply G. revert m Hm. apply Forall_forall. unfold special_names. rewrite !Forall_cons, Forall_nil. split_and!; try done; apply (bool_decide_unpack _); vm_compute; exact I.
  Qed.
  Lemma same_name y n : y ∈ all_syms es -> is_Some (st_get sn n) -> typ (yi_sym y) <> 3 -> off_of sn (yi_name y) = off_of sn n -> y ∈ named n (all_syms es).
  Proof using O NF R. intros Hy Hk Ht E. apply elem_of_list_filter. split; [|done]. split; [done|]. apply off_inj; [by apply sym_known|done|done]. Qed.
  Lemma names_here n y q r : is_Some (st_get sn n) -> EvSym y q r ∈ evs -> r = RNamed (off_of sn n) -> y ∈ named n (all_syms es).
  Proof using O NF R.
    intros Hk Hv ->. pose proof (sym_from _ _ _ Hv) as Hy. destruct (decide (typ (yi_sym y) = 3)) as [Ht|Ht].
    - destruct (section_ref_of _ _ _ Hv Ht). discriminate.
    - pose proof (sym_ref _ _ _ Hv Ht) as E. injection E as E. by apply same_name.
  Qed.
  Lemma contribs_nth x : x ∈ all_secs es -> exists j, contribs (si_name x) (all_secs es) !! j = Some x /\ forall j', contribs (si_name x) (all_secs es) !! j' = Some x -> j' = j.
  Proof using.
    intros Hx. assert (H : x ∈ contribs (si_name x) (all_secs es)) by (by apply elem_contribs). apply elem_of_list_lookup in H as [j Hj]. exists j. split; [done|]. intros j' Hj'.
    eapply (NoDup_lookup (contribs (si_name x) (all_secs es))); [|done|done]. unfold contribs. apply NoDup_filter. eapply NoDup_fmap_1. apply all_secs_keys.
  Qed.
  (** Where the chunk of a contribution is: zero-fill has a single one. *)
  Lemma chunk_at x sr : x ∈ all_secs es -> si_name x <> "" -> EvSec x sr ∈ evs -> exists k ofs pd gd a0 a1 a3 a6 a7 b c0,
    user (lo := lo) (w := w) (secs := secs) (w0 := w0) (wr := wr) (ws := ws) (w1 := w1) (extra := extra) (rest' := rest') (w4 := w4) (w5 := w5) (w6 := w6) (w7 := w7) (out := out) (es := es) (si_name x) k ofs pd gd a0 a1 a3 a6 a7 b /\
    sr = mkSref (sc_id b) (sr_chunk sr) /\ sc_chunks a0 !! sr_chunk sr = Some c0 /\
    forall off, offset_of es x off -> ntotal (blen <$> take (sr_chunk sr) (c_data <$> sc_chunks a0)) = if is_nobits b then 0 else off.
  Proof using O Fin V P NF R.
    intros Hx Hn Hsr. destruct (user_of O Fin V P NF R (si_name x) Hn) as (k & ofs & pd & gd & a0 & a1 & a3 & a6 & a7 & b & U).
    { intros E. assert (H : x ∈ contribs (si_name x) (all_secs es)) by (by apply elem_contribs). rewrite E in H. by apply elem_of_nil in H. }
    destruct (nth_contrib O P R _ _ _ _ _ _ _ _ _ _ _ _ _ U Hsr eq_refl) as [Hid Hj]. pose proof (user_datas O P R _ _ _ _ _ _ _ _ _ _ _ U) as D.
    assert (Hin : x ∈ contribs (si_name x) (all_secs es)) by (by apply elem_contribs).
    assert (exists c0, sc_chunks a0 !! sr_chunk sr = Some c0) as [c0 Hc0].
    { apply lookup_lt_is_Some_2. rewrite <- (fmap_length c_data). destruct (is_nobits b).
      - destruct D as [D1 D2]. rewrite D2. rewrite (D1 _ Hin) in Hj. rewrite Hj. simpl. lia.
      - destruct D as [D1 D2]. rewrite D2, fmap_length. destruct (D1 _ Hin) as [Hd _]. destruct (si_data x); [|done]. by eapply lookup_lt_Some. }
    exists k, ofs, pd, gd, a0, a1, a3, a6, a7, b, c0. split; [exact U|]. split; [rewrite <- Hid; by destruct sr|]. split; [done|]. intros off (j & Hoj & ->).
    destruct (is_nobits b); destruct D as [D1 D2]; rewrite D2.
    - rewrite (D1 _ Hin) in Hj. rewrite Hj. reflexivity.
    - destruct (D1 _ Hin) as [Hd _]. destruct (si_data x); [|done]. destruct (contribs_nth x Hx) as (j' & _ & Hu). rewrite (Hu _ Hj), (Hu _ Hoj).
      rewrite <- fmap_take, <- list_fmap_compose. f_equal. apply list_fmap_ext. intros i y Hy. simpl. apply D1. apply lookup_take_Some in Hy as [Hy _]. by eapply elem_of_list_lookup_2.
  Qed.
  (** The final entry of a name defined in one section only. *)
  Lemma placed n x y : n <> "" -> n ∉ linker_names -> all_standard n (all_syms es) -> sole_home es n x -> winner n (all_syms es) = Some y ->
    exists k b s, out !! k = Some b /\ the_sec w secs (si_name x) b /\ syt_symbols (w_symtab w7) !! off_of sn n = Some s /\ st_shndx (s_sym s) = u16 (sc_index b) /\
      st_info (s_sym s) = st_info (yi_sym y) /\ st_size (s_sym s) = st_size (yi_sym y) /\
      forall off, offset_of es x off -> st_value (s_sym s) = st_value (yi_sym y) + (addr b + if is_nobits b then 0 else off).
  Proof using O Fin V P NF R.
    intros Hn Hl Hst (Hx & Hxn & (y0 & Hy0 & Hin) & Huq) Hw. pose proof (elem_of_list_filter (fun y => typ (yi_sym y) <> 3 /\ yi_name y = n) (all_syms es) y0) as [F _]. destruct (F Hy0) as [[Ht0 E0] Hy0'].
    assert (Hne : named n (all_syms es) <> []) by (intros E; rewrite E in Hy0; by apply elem_of_nil in Hy0). pose proof (named_known n Hne) as Hk.
    destruct (table_wr n Hn Hne Hst) as (s0 & y' & Hs0 & Hw' & Ed). rewrite Hw in Hw'. injection Hw' as <-.
    destruct (where_defined _ _ Hx Hy0' Hin) as (r & sr & Hev & Hsr & Hdef). pose proof (sym_ref _ _ _ Hev Ht0) as Er. rewrite E0 in Er. subst r.
    destruct (chunk_at x sr Hx Hxn Hsr) as (k & ofs & pd & gd & a0 & a1 & a3 & a6 & a7 & b & c0 & U & Esr & Hc0 & Hoff).
    destruct (not_special n Hl Hk) as [Hns Hnt].
    assert (Hreg : RNamed (off_of sn n) ∈ c_symbols c0).
    { destruct (sv_chunk _ _ _ _ (wr_sinv O R) _ _ _ _ (h_wr (us_hist _ _ _ _ _ _ _ _ _ _ _ U)) Hc0) as (_ & _ & _ & Hd). apply Hd. exists (EvSym y0 (Some sr) (RNamed (off_of sn n))). split; [done|]. by rewrite <- Esr. }
    pose proof (sym_once _ _ _ _ _ _ _ _ _ _ _ _ _ (RNamed (off_of sn n)) U Hc0 Hreg Hns) as Honce.
    pose proof (core_w6 _ Hnt) as Hcore. change (syt_get (w_symtab wr) (RNamed (off_of sn n))) with (syt_symbols (w_symtab wr) !! off_of sn n) in Hcore. rewrite Hs0 in Hcore.
    destruct (syt_get (w_symtab w6) (RNamed (off_of sn n))) as [s6|] eqn:E6; [|discriminate]. cbn [fmap option_fmap option_map] in Hcore. apply (inj Some) in Hcore. injection Hcore as Hc1 _.
    assert (H7 : syt_get (w_symtab w7) (RNamed (off_of sn n)) = Some (patch_symbol (u16 (sc_index b)) (addr b + ntotal (blen <$> take (sr_chunk sr) (c_data <$> sc_chunks a0))) (RNamed (off_of sn n)) s6)).
    { apply Honce. intros v sr' Hv Hd' Hnz. destruct (defined_where _ _ _ Hv Hd') as (x' & y' & -> & Hx' & Hy' & Hxs' & Hin').
      assert (x' = x) as ->.
      { apply (Huq x' y'); [done| |by eapply names_here|done]. intros E. apply Hnz. by eapply unnamed_zero. }
      rewrite <- Esr. by eapply sec_once. }
    exists k, b, (patch_symbol (u16 (sc_index b)) (addr b + ntotal (blen <$> take (sr_chunk sr) (c_data <$> sc_chunks a0))) (RNamed (off_of sn n)) s6).
    split; [exact (us_out _ _ _ _ _ _ _ _ _ _ _ U)|]. split; [exact (us_the _ _ _ _ _ _ _ _ _ _ _ U)|]. split; [exact H7|]. split; [done|].
    unfold sym_def in Ed. injection Ed as Ei _ Ev Es. rewrite <- Hc1 in Ei, Ev, Es. split; [exact Ei|]. split; [exact Es|].
    intros off Ho. specialize (Hoff off Ho). cbn [patch_symbol]. unfold patch_symbol. simpl st_value. rewrite Hoff, Ev. reflexivity.
  Qed.
  (** ** The entry in the file *)
  Context (PL : plain_libs wd l) (SF : symbols_fit w).
  Lemma entry_written n s : is_Some (st_get sn n) -> nonul n -> (forall y, y ∈ all_syms es -> nonul (yi_name y)) -> syt_symbols (w_symtab w) !! off_of sn n = Some s ->
    symtab_entry w secs n (s_sym s).
  Proof using O Fin V P NF R PL SF.
    intros Hk Hnn Hall Hs. destruct (own_all O Fin V P NF) as (pd & gd & _ & Hown).
    destruct (Hown 8%nat ".symtab") as [b8 H8]; [lia|destruct (opt_hash_style (lk_options l)); vm_compute; reflexivity|].
    destruct (Hown 2%nat ".strtab") as [b2 H2]; [lia|destruct (opt_hash_style (lk_options l)); vm_compute; reflexivity|].
    pose proof (os_bytes _ _ _ _ _ H8) as E8. pose proof (os_bytes _ _ _ _ _ H2) as E2. cbn [fixed_bytes] in E8, E2.
    assert (Esn : w_strtab w = sn) by (destruct (run_fields (oc_run O)) as (_ & E & _); exact E). rewrite Esn in E2.
    destruct (emitted_once (o_sym (lo_writer lo)) (w_symtab w) _ s (vo_sym _ V) (sym_keyed O PL) (proj1 SF) Hs) as (i & Hi & Hu).
    pose proof (sym_keyed O PL _ _ Hs) as Hname.
    assert (Hstr : forall m, is_Some (st_get sn m) -> nonul m -> cstr_at (st_chunk_data sn) (off_of sn m) = Some (string_bytes m)).
    { intros m [e He] Hm. unfold off_of. rewrite He. apply get_entry in He as (ix & He). pose proof (entry_off_lt _ _ _ _ sn_ok He). pose proof sn_small.
      unfold u32. rewrite N.mod_small by lia. apply elem_of_list_lookup in He as (j & Hj). eapply cstr_at_entry; [exact sn_ok|exact Hj|done]. }
    exists b8, b2, (N.of_nat i). split; [exact (os_the _ _ _ _ _ H8)|]. split; [exact (os_the _ _ _ _ _ H2)|]. rewrite E8, E2.
    split; [exact Hi|]. split; [rewrite Hname; by apply Hstr|]. intros j sym' Hj Hc. rewrite <- (N2Nat.id j) in Hj |- *. f_equal. eapply Hu; [exact Hj|].
    rewrite (rd_chunk_sym _ _ _ (vo_sym _ V) (proj1 SF)) in Hj. destruct (syt_sorted (o_sym (lo_writer lo)) (w_symtab w) !! N.to_nat j) as [s'|] eqn:Es'; [|discriminate]. cbn [fmap option_fmap option_map] in Hj. apply (inj Some) in Hj. subst sym'.
    apply elem_of_list_lookup_2, (elem_of_sorted _ _ _ (vo_sym _ V)) in Es' as (m & Hm). pose proof (sym_keyed O PL _ _ Hm) as Hm'. change (st_name (s_sym s') = off_of sn n).
    destruct (keeps_all O sym_static) as [K _]. destruct (keeps_lookup _ _ _ _ _ K Hm) as (s1 & H1 & _). destruct (ti_sym _ (wr_tables O PL) _ _ H1) as (_ & n' & ix & po & Hin & Em & _). fold sn in Hin.
    assert (He' : exists e, st_get sn n' = Some e /\ off_of sn n' = m).
    { unfold off_of, st_get. rewrite (assoc_elem_Some _ _ _ (ok_nodup _ sn_ok) Hin). simpl. by eexists. }
    destruct He' as (e' & He' & Em'). rewrite Hm', <- Em' in Hc |- *. f_equal. 
    assert (Hnn' : nonul n').
    { destruct (proj1 (yv_names _ _ yinv_wr n')) as [->|(y & Hy & <-)]; [by exists e'|intros H; by apply elem_of_nil in H|]. apply Hall. by rewrite <- (ld_syms _ _ _ _ _ R). }
    rewrite Hstr in Hc by (done || by exists e'). apply (inj Some) in Hc. by apply string_bytes_inj.
  Qed.
End links.

Section good.
  Context {wd : world} {lo : lib_oracle} {l : linker} {fuel : nat} {w : writer} {secs : list section}.
  Context (G : good_link wd lo l fuel w secs).
  Context {es : list (string * elf_obj)} {evs : list event} (L : loading wd lo l fuel es evs).

  Lemma good_symbol n x y off : ordinary es n -> sole_home es n x -> winner n (all_syms es) = Some y -> offset_of es x off -> few_sections secs ->
    exists s sym, the_sec w secs (si_name x) s /\ symtab_entry w secs n sym /\ secs !! N.to_nat (st_shndx sym) = Some s /\
      st_info sym = st_info (yi_sym y) /\ st_size sym = st_size (yi_sym y) /\
      st_value sym = addr s + (if is_nobits s then 0 else off) + st_value (yi_sym y).
  Proof using G L.
    intros (Hn & Hl & Hst & Hnn) Hh Hw Ho Hf.
    destruct (links_outcome _ _ _ _ _ _ (gl_links _ _ _ _ _ _ G)) as (w0 & wr & ws & w1 & extra & null & rest & rest' & st & w3 & w4 & w5 & w6 & w7 & null' & out & O).
    pose proof (proj2 (gl_links _ _ _ _ _ _ G)) as Fin. destruct G as [_ V P PL NF AF SF].
    destruct L as (wr' & Hr & R). rewrite (oc_resolve O) in Hr. injection Hr as <-.
    destruct (placed O Fin V P NF R n x y Hn Hl Hst Hh Hw) as (k & b & s & Hk & Hthe & Hs & Hix & Hi & Hz & Hv). specialize (Hv off Ho).
    assert (Ew : w_symtab w = w_symtab w7) by (destruct (run_fields (oc_run O)) as (_ & _ & _ & _ & _ & _ & E & _); exact E).
    destruct Hh as (_ & _ & (y0 & Hy0 & _) & _). pose proof (named_known R n) as Hkn.
    assert (Hne : named n (all_syms es) <> []) by (intros E; rewrite E in Hy0; by apply elem_of_nil in Hy0).
    apply elem_of_list_filter in Hy0 as [[_ <-] Hy0].
    exists b, (s_sym s). split; [done|]. split.
    - eapply (entry_written O Fin V P NF R PL SF); [by apply Hkn|by apply Hnn|done|by rewrite Ew].
    - split; [|split; [done|]; split; [done|]; rewrite Hv; lia].
      rewrite Hix, (out_index O _ _ Hk), (oc_secs O). unfold few_sections in Hf. rewrite (oc_secs O) in Hf. apply lookup_lt_Some in Hk as Hlt. simpl length in Hf.
      unfold u16. rewrite N.mod_small by lia. rewrite Nat2N.id. exact Hk.
  Qed.
  Lemma good_plain n s : n <> "" -> contribs n (all_secs es) <> [] -> the_sec w secs n s -> sc_synth s = None.
  Proof using G L.
    intros Hn Hc Hs.
    destruct (links_outcome _ _ _ _ _ _ (gl_links _ _ _ _ _ _ G)) as (w0 & wr & ws & w1 & extra & null & rest & rest' & st & w3 & w4 & w5 & w6 & w7 & null' & out & O).
    pose proof (proj2 (gl_links _ _ _ _ _ _ G)) as Fin. destruct G as [_ V P PL NF AF SF].
    destruct L as (wr' & Hr & R). rewrite (oc_resolve O) in Hr. injection Hr as <-.
    destruct (user_of O Fin V P NF R n Hn Hc) as (k & ofs & pd & gd & a0 & a1 & a3 & a6 & a7 & b & U).
    assert (s = b) as ->. { destruct (us_the _ _ _ _ _ _ _ _ _ _ _ U) as (_ & _ & Hu). apply Hu; apply Hs. }
    pose proof (us_hist _ _ _ _ _ _ _ _ _ _ _ U) as HH. destruct (user_start O P _ _ (us_new _ _ _ _ _ _ _ _ _ _ _ U) (h_wr HH)) as (_ & _ & Hsy0 & _).
    destruct (hist_decl _ _ _ _ _ _ _ _ _ HH) as (D0 & _). by rewrite (decl_synth _ _ D0).
  Qed.
  Lemma good_kind x s : si_name x <> "" -> x ∈ all_secs es -> the_sec w secs (si_name x) s -> if is_nobits s then si_data x = None else si_data x <> None.
  Proof using G L.
    intros Hn Hx Hs. assert (Hin : x ∈ contribs (si_name x) (all_secs es)) by (by apply elem_contribs).
    destruct (links_outcome _ _ _ _ _ _ (gl_links _ _ _ _ _ _ G)) as (w0 & wr & ws & w1 & extra & null & rest & rest' & st & w3 & w4 & w5 & w6 & w7 & null' & out & O).
    pose proof (proj2 (gl_links _ _ _ _ _ _ G)) as Fin. destruct G as [_ V P PL NF AF SF].
    destruct L as (wr' & Hr & R). rewrite (oc_resolve O) in Hr. injection Hr as <-.
    destruct (user_of O Fin V P NF R (si_name x) Hn) as (k & ofs & pd & gd & a0 & a1 & a3 & a6 & a7 & b & U); [intros E; rewrite E in Hin; by apply elem_of_nil in Hin|].
    assert (s = b) as ->. { destruct (us_the _ _ _ _ _ _ _ _ _ _ _ U) as (_ & _ & Hu). apply Hu; apply Hs. }
    pose proof (user_datas O P R _ _ _ _ _ _ _ _ _ _ _ U) as D. destruct (is_nobits b); destruct D as [D _]; by apply D.
  Qed.
  (** Contributions do not exceed their output section. *)
  Lemma good_within x s off : si_name x <> "" -> x ∈ all_secs es -> the_sec w secs (si_name x) s -> offset_of es x off -> off + si_size x <= memsz s.
  Proof using G L.
    intros Hn Hx Hs (j & Hj & ->). destruct (good_merge G L (si_name x) Hn) as (s' & Hs' & Hm & _); [intros E; by rewrite E in Hj|].
    assert (s' = s) as ->. { destruct Hs as (_ & _ & Hu). apply Hu; apply Hs'. }
    rewrite Hm. rewrite <- (take_drop_middle _ _ _ Hj) at 2. rewrite fmap_app, fmap_cons, ntotal_app, ntotal_cons. lia.
  Qed.
End good.
Lemma offsets_apart es x x' off off' : si_name x = si_name x' -> x <> x' -> offset_of es x off -> offset_of es x' off' -> off + si_size x <= off' \/ off' + si_size x' <= off.
Proof.
  intros En Hne (j & Hj & ->) (j' & Hj' & ->). rewrite <- En in *. set (k := contribs (si_name x) (all_secs es)) in *.
  assert (G : forall (k : list sec_in) j j' x x', (j < j')%nat -> k !! j = Some x -> k !! j' = Some x' -> ntotal (si_size <$> take j k) + si_size x <= ntotal (si_size <$> take j' k)).
  { clear. intros k j j' x x' Hlt Hj _. replace (take j' k) with (take j k ++ x :: take (j' - S j) (drop (S j) k)).
    - rewrite fmap_app, fmap_cons, ntotal_app, ntotal_cons. lia.
    - rewrite <- (take_drop_middle _ _ _ Hj) at 3. rewrite take_app_ge by (rewrite take_length; lia). f_equal. rewrite take_length_le by (apply lookup_lt_Some in Hj; lia).
      replace (j' - j)%nat with (S (j' - S j)) by lia. reflexivity. }
  destruct (Nat.lt_trichotomy j j') as [H|[->|H]]; [left; eauto|congruence|right; eauto].
Qed.
