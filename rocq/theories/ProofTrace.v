(** Every run of the resolution phase is a sequence of additions. *)
From Verif Require Export SpecTrace ProofRun.

Lemma replays_app w0 a w1 b w2 : replays w0 a w1 -> replays w1 b w2 -> replays w0 (a ++ b) w2.
Proof.
  intros Ha Hb. revert Ha. induction Hb as [w|w evs w1 v w2 Hb IH Hv]; intros Ha; [by rewrite app_nil_r|].
  rewrite app_assoc. econstructor; [by apply IH|done].
Qed.
Lemma replays_one w v w' : replay w v w' -> replays w [v] w'.
Proof. intros H. apply (replays_snoc w [] w v w'); [constructor|done]. Qed.
Lemma replays_cons w v w1 evs w2 : replay w v w1 -> replays w1 evs w2 -> replays w (v :: evs) w2.
Proof. intros H1 H2. apply (replays_app w [v] w1 evs w2); [by apply replays_one|done]. Qed.
(** Induction over the events, seeing those before. *)
Lemma replays_inv (P : list event -> writer -> Prop) w0 evs w : P [] w0 ->
  (forall pre v post w w', evs = pre ++ v :: post -> replays w0 pre w -> P pre w -> replay w v w' -> P (pre ++ [v]) w') ->
  replays w0 evs w -> P evs w.
Proof.
  intros H0 Hs H.
  assert (G : forall pre w1, replays w0 pre w1 -> forall post, evs = pre ++ post -> P pre w1).
  { intros pre w1 Hr. induction Hr as [w1|w1 pre w2 v w3 Hr IH Hv]; intros post E; [done|].
    rewrite <- app_assoc in E. apply (Hs pre v post w2 w3 E Hr); [|done]. by apply (IH H0 Hs H (v :: post)). }
  apply (G evs w H []). by rewrite app_nil_r.
Qed.
Lemma replays_split w0 a b w : replays w0 (a ++ b) w -> exists w1, replays w0 a w1 /\ replays w1 b w.
Proof.
  revert w. induction b as [|v b IH] using rev_ind; intros w H.
  - rewrite app_nil_r in H. exists w. split; [done|constructor].
  - rewrite app_assoc in H. remember ((a ++ b) ++ [v]) as evs eqn:E. destruct H as [w|w evs w1 v' w2 H1 H2]; [by destruct (a ++ b)|].
    apply app_inj_tail in E as [-> ->]. destruct (IH w1 H1) as (w3 & A & B). exists w3. split; [done|]. by econstructor.
Qed.

Lemma copied_skipped sh : copied sh = true <-> sh_type sh ∉ SKIPPED_SECTIONS.
Proof. unfold copied. rewrite negb_true_iff, bool_decide_eq_false. done. Qed.
Lemma section_data_file d sh o : section_data d sh = Ok o -> o = file_data d sh.
Proof.
  unfold section_data, file_data. change SHT_NOBITS with 8. destruct (sh_type sh =? 8); [by intros [= <-]|].
  intros H. apply bind_Ok in H as (b & Hb & [= <-]). unfold slice in Hb. destruct (_ <=? _); [|done]. by injection Hb as <-.
Qed.

Section trace.
  Context (wd : world) (l : linker) (w0 : writer).
  (** A stage of the run: the sections, symbols and relocations added so far. *)
  Record tr (es : list (string * elf_obj)) (sk : list sec_in) (yk : list sym_in) (rk : list rel_in) (evs : list event) (w : writer) : Prop := {
    tr_run : replays w0 evs w;
    tr_secs : omap sec_of evs = sk;
    tr_syms : omap sym_of evs = yk;
    tr_rels : omap rel_of evs = rk;
    tr_ok : events_ok wd l es evs }.
  Lemma events_ok_snoc es evs v : events_ok wd l es evs -> event_ok wd l es evs v -> events_ok wd l es (evs ++ [v]).
  Proof using.
    intros H Hv pre u post E. destruct post as [|x post _] using rev_ind.
    - apply app_inj_tail in E as [-> ->]. done.
    - rewrite app_comm_cons, app_assoc in E. apply app_inj_tail in E as [E _]. by apply (H pre u post).
  Qed.
  Lemma tr_snoc es sk yk rk evs w v w' : tr es sk yk rk evs w -> replay w v w' -> event_ok wd l es evs v ->
    tr es (sk ++ option_list (sec_of v)) (yk ++ option_list (sym_of v)) (rk ++ option_list (rel_of v)) (evs ++ [v]) w'.
  Proof using.
    intros [T1 T2 T3 T4 T5] Hv Hok. split; rewrite ?omap_app, ?T2, ?T3, ?T4.
    - by econstructor.
    - by destruct v.
    - by destruct v.
    - by destruct v.
    - by apply events_ok_snoc.
  Qed.
  Lemma sec_event_mono evs new k i sr : sec_event evs k i sr -> sec_event (evs ++ new) k i sr.
  Proof using. intros (x & H & E). exists x. split; [|done]. apply elem_of_app. by left. Qed.
  Lemma sym_event_mono evs new k key r : sym_event_of evs k key r -> sym_event_of (evs ++ new) k key r.
  Proof using. intros (x & o & H & E). exists x, o. split; [|done]. apply elem_of_app. by left. Qed.
  Lemma events_ok_more es ms evs : events_ok wd l es evs -> Forall (fun x => (yi_obj x < length es)%nat) (omap sym_of evs) -> events_ok wd l (es ++ ms) evs.
  Proof using.
    intros H Hb pre v post E. specialize (H pre v post E). destruct v as [| x [sr|] r| |]; try done. simpl in *. intros p e sh Hk. rewrite lookup_app_l in Hk; [by eauto|].
    rewrite Forall_forall in Hb. apply Hb. rewrite E, omap_app. apply elem_of_app. right. simpl. apply elem_of_list_here.
  Qed.

  Definition secs_known (es : list (string * elf_obj)) (evs : list event) (k : nat) (m : gmap nat section_ref) : Prop :=
    (forall i sr, m !! i = Some sr -> sec_event evs k i sr /\ forall p e, es !! k = Some (p, e) -> exists sh, eo_shdrs e !! i = Some sh /\ copied sh = true) /\
    (forall p e i sh, es !! k = Some (p, e) -> eo_shdrs e !! i = Some sh -> copied sh = true -> is_Some (m !! i)).
  Definition syms_known (evs : list event) (k : nat) (m : list ((N * N * N * N * N) * symref)) : Prop :=
    forall key r, kassoc key m = Some r -> sym_event_of evs k key r.
  Lemma secs_known_mono es evs new k m : secs_known es evs k m -> secs_known es (evs ++ new) k m.
  Proof using. intros [H1 H2]. split; [|done]. intros i sr Hi. destruct (H1 i sr Hi). split; [by apply sec_event_mono|done]. Qed.

  Lemma sections_tr es sk yk rk evs w k p e w' st : es !! k = Some (p, e) -> tr es sk yk rk evs w ->
    process_sections e w = Ok (w', st) ->
    exists new, tr es (sk ++ obj_secs k e) yk rk (evs ++ new) w' /\ secs_known es (evs ++ new) k (es_sections st) /\ es_symbols st = [].
  Proof using.
    intros Hk HT H. unfold process_sections in H. apply bind_Ok in H as ([w1 m] & H & [= <- <-]). cbn [es_sections es_symbols].
    assert (G : exists new, tr es (sk ++ omap (obj_sec k e) (imap pair (eo_shdrs e))) yk rk (evs ++ new) w1 /\
      (forall i sr, m !! i = Some sr -> sec_event (evs ++ new) k i sr /\ exists sh, eo_shdrs e !! i = Some sh /\ copied sh = true) /\
      forall i sh, (i, sh) ∈ imap pair (eo_shdrs e) -> copied sh = true -> is_Some (m !! i)).
    { revert H. apply (foldM_trace (fun pre st => exists new, tr es (sk ++ omap (obj_sec k e) pre) yk rk (evs ++ new) st.1 /\
        (forall i sr, st.2 !! i = Some sr -> sec_event (evs ++ new) k i sr /\ exists sh, eo_shdrs e !! i = Some sh /\ copied sh = true) /\
        forall i sh, (i, sh) ∈ pre -> copied sh = true -> is_Some (st.2 !! i))); cbn [fst snd].
      - exists []. simpl. rewrite !app_nil_r. split; [done|]. split; [intros i sr Hx; by rewrite lookup_empty in Hx|]. by intros i sh Hx%elem_of_nil.
      - intros pre [i sh] post [w2 m2] [w3 m3] Hl (new & HT2 & HR & HC) Hst. cbn [fst snd] in *. unfold process_section in Hst.
        rewrite omap_app. simpl omap at 2. unfold obj_sec at 2. cbn [fst snd].
        destruct (bool_decide_reflect (sh_type sh ∈ SKIPPED_SECTIONS)) as [Hsk|Hsk].
        { assert (copied sh = false) as Ec by (destruct (copied sh) eqn:Ec; [|done]; by apply copied_skipped in Ec).
          rewrite Ec. injection Hst as <- <-. exists new. rewrite app_nil_r. split; [done|]. split; [done|].
          intros j sh' [Hj|Hj]%elem_of_app Ht; [by apply HC with sh'|]. apply elem_of_list_singleton in Hj. injection Hj as -> ->. congruence. }
        apply copied_skipped in Hsk. rewrite Hsk.
        destruct (eo_shstr e (sh_name sh)) as [name|] eqn:En; [|done]. cbn [fmap option_fmap option_map].
        apply bind_Ok in Hst as (data & Hd & Hst). apply bind_Ok in Hst as ([w4 r] & H4 & [= <- <-]). apply section_data_file in Hd as ->.
        set (x := mkSecIn k i name sh (file_data (eo_data e) sh)) in *.
        exists (new ++ [EvSec x r]). rewrite (app_assoc evs). split; [|split].
        + pose proof (tr_snoc _ _ _ _ _ _ (EvSec x r) w4 HT2 H4 I) as HT3. cbn [sec_of sym_of rel_of option_list] in HT3.
          by rewrite !app_nil_r, <- app_assoc in HT3.
        + intros j sr [[<- <-]|[_ Hj]]%lookup_insert_Some; [|destruct (HR j sr Hj); split; [by apply sec_event_mono|done]].
          split; [exists x; split; [|done]; apply elem_of_app; right; apply elem_of_list_here|]. exists sh. split; [|done].
          assert (Hin : (i, sh) ∈ imap pair (eo_shdrs e)) by (rewrite Hl; apply elem_of_app; right; apply elem_of_list_here).
          apply elem_of_lookup_imap in Hin as (j & y & [= -> ->] & Hj). done.
        + intros j sh' [Hj|Hj]%elem_of_app Ht.
          * apply lookup_insert_is_Some. destruct (decide (i = j)); [by left|right]. split; [done|]. by apply HC with sh'.
          * apply elem_of_list_singleton in Hj. injection Hj as -> ->. rewrite lookup_insert. done. }
    destruct G as (new & G1 & G2 & G3). exists new. split; [done|]. split; [|done]. split.
    { intros i sr Hi. destruct (G2 i sr Hi) as [A B]. split; [done|]. intros p' e' Hk'. rewrite Hk in Hk'. by injection Hk' as <- <-. }
    intros p' e' i sh Hk' Hi. rewrite Hk in Hk'. injection Hk' as <- <-. apply G3. apply elem_of_lookup_imap. eauto.
  Qed.

  Lemma symbols_tr es sk yk rk evs w k path e st w' st' : es !! k = Some (path, e) -> tr es sk yk rk evs w ->
    secs_known es evs k (es_sections st) -> es_symbols st = [] -> process_symbols e path w st = Ok (w', st') ->
    exists new, tr es sk (yk ++ obj_syms k path e) rk (evs ++ new) w' /\ es_sections st' = es_sections st /\
      secs_known es (evs ++ new) k (es_sections st) /\ syms_known (evs ++ new) k (es_symbols st') /\
      (forall sym, sym ∈ eo_syms e -> is_Some (kassoc (sym_key sym) (es_symbols st'))).
  Proof using.
    intros Hk HT Hse Hsy H. unfold process_symbols in H.
    assert (G : exists new, tr es sk (yk ++ omap (obj_sym k path e) (eo_syms e)) rk (evs ++ new) w' /\ es_sections st' = es_sections st /\
      syms_known (evs ++ new) k (es_symbols st') /\ (forall sym, sym ∈ eo_syms e -> is_Some (kassoc (sym_key sym) (es_symbols st')))).
    { revert H. apply (foldM_trace (fun pre s => exists new, tr es sk (yk ++ omap (obj_sym k path e) pre) rk (evs ++ new) s.1 /\ es_sections s.2 = es_sections st /\
        syms_known (evs ++ new) k (es_symbols s.2) /\ (forall sym, sym ∈ pre -> is_Some (kassoc (sym_key sym) (es_symbols s.2))))); cbn [fst snd].
      - exists []. simpl. rewrite !app_nil_r. split; [done|]. split; [done|]. rewrite Hsy. split; [done|]. by intros s Hx%elem_of_nil.
      - intros pre sym post [w1 s1] [w2 s2] Hl (new & HT1 & HS & HQ & HC) Hst. cbn [fst snd] in *. unfold process_symbol in Hst.
        rewrite omap_app. simpl omap at 2. unfold obj_sym at 2.
        destruct (eo_strtab e (st_name sym)) as [name|] eqn:En; [|done]. cbn [fmap option_fmap option_map].
        apply bind_Ok in Hst as ([w3 r] & H3 & [= <- <-]). cbn [es_sections es_symbols].
        set (x := mkSymIn k sym name path). set (o := es_sections s1 !! N.to_nat (st_shndx sym)) in *.
        exists (new ++ [EvSym x o r]). rewrite (app_assoc evs). split; [|split; [done|split]].
        + assert (Hok : event_ok wd l es (evs ++ new) (EvSym x o r)).
          { cbn [event_ok]. pose proof (secs_known_mono es evs new k _ Hse) as [K1 K2]. rewrite <- HS in K1, K2. fold o.
            unfold x. cbn [yi_obj yi_sym]. destruct o as [sr|] eqn:Eo; [by apply (K1 _ _ Eo)|]. intros p' e' sh Hk' Hi.
            destruct (copied sh) eqn:Ec; [|done]. destruct (K2 p' e' _ sh Hk' Hi Ec) as [y Hy]. subst o. congruence. }
          pose proof (tr_snoc _ _ _ _ _ _ (EvSym x o r) w3 HT1 H3 Hok) as HT3. cbn [sec_of sym_of rel_of option_list] in HT3.
          by rewrite !app_nil_r, <- app_assoc in HT3.
        + intros key r'. cbn [kassoc]. destruct (decide (key = sym_key sym)) as [->|Hne].
          * intros [= <-]. exists x, o. split; [|done]. apply elem_of_app. right. apply elem_of_list_here.
          * intros Hr. by apply sym_event_mono, HQ.
        + intros s [Hs|Hs]%elem_of_app; cbn [kassoc]; (destruct (decide (sym_key s = sym_key sym)); [by eauto|]); [by apply HC|].
          apply elem_of_list_singleton in Hs as ->. done. }
    destruct G as (new & G1 & G2 & G3 & G4). exists new. split; [done|]. split; [done|]. split; [by apply secs_known_mono|]. done.
  Qed.

  Lemma relocation_tr es sk yk rk evs w k path e st idx rel w' : es !! k = Some (path, e) -> tr es sk yk rk evs w ->
    secs_known es evs k (es_sections st) -> syms_known evs k (es_symbols st) ->
    (forall sym, sym ∈ eo_syms e -> is_Some (kassoc (sym_key sym) (es_symbols st))) ->
    process_relocation e st idx w rel = Ok w' ->
    exists new, tr es sk yk (rk ++ match obj_rel k e idx rel with Some x => [x] | None => [] end) (evs ++ new) w'.
  Proof using.
    intros Hk HT [Hs1 Hs2] Hq Hc H. unfold process_relocation in H. unfold obj_rel.
    destruct (N.eqb_spec (gr_sym rel) 0) as [E0|E0].
    { injection H as <-. exists []. by rewrite !app_nil_r. }
    apply bind_Ok in H as (sym & Hs & H). apply unwrap_Ok in Hs. apply bind_Ok in H as (tgt & Ht & H).
    unfold usub in Ht. destruct (N.leb_spec 1 idx) as [Hle|Hle]; [|done]. injection Ht as <-. rewrite Hs.
    destruct (Hc sym ltac:(by eapply elem_of_list_lookup_2)) as [r Hr]. rewrite Hr in H.
    destruct (es_sections st !! N.to_nat (idx - 1)) as [sref|] eqn:Esr.
    - destruct (Hs1 _ _ Esr) as (Hx & Hx2). destruct (Hx2 _ _ Hk) as (sh & Hsh & Hcp).
      rewrite Hsh, Hcp. exists [EvRel (mkRelIn k idx rel sym) r sref]. 
      pose proof (tr_snoc _ _ _ _ _ _ (EvRel (mkRelIn k idx rel sym) r sref) w' HT H) as HT3. cbn [sec_of sym_of rel_of option_list] in HT3.
      rewrite !app_nil_r in HT3. apply HT3. split; [done|]. by apply Hq.
    - injection H as <-. exists []. destruct (eo_shdrs e !! N.to_nat (idx - 1)) as [sh|] eqn:Esh; [|by rewrite !app_nil_r].
      destruct (copied sh) eqn:Ec; [|by rewrite !app_nil_r]. destruct (Hs2 _ _ _ _ Hk Esh Ec). congruence.
  Qed.

  Lemma relocations_tr es sk yk rk evs w k path e st w' : es !! k = Some (path, e) -> tr es sk yk rk evs w ->
    secs_known es evs k (es_sections st) -> syms_known evs k (es_symbols st) ->
    (forall sym, sym ∈ eo_syms e -> is_Some (kassoc (sym_key sym) (es_symbols st))) ->
    process_relocations e st w = Ok w' -> exists new, tr es sk yk (rk ++ obj_rels k e) (evs ++ new) w'.
  Proof using.
    intros Hk HT Hs Hq Hc H. unfold process_relocations in H. unfold obj_rels. revert H.
    apply (foldM_trace (fun pre w => exists new, tr es sk yk (rk ++ (pre ≫= fun x => omap (obj_rel k e x.1) x.2)) (evs ++ new) w)).
    { exists []. by rewrite !app_nil_r. }
    intros pre [idx rels] post w1 w2 Hl (new & HT1) H1. rewrite bind_app, bind_cons, (app_assoc rk). cbn [fst snd]. change ([] ≫= _) with (@nil rel_in). rewrite app_nil_r.
    revert H1. apply (foldM_trace (fun pre' w => exists new, tr es sk yk ((rk ++ (pre ≫= fun x => omap (obj_rel k e x.1) x.2)) ++ omap (obj_rel k e idx) pre') (evs ++ new) w)).
    { exists new. by rewrite app_nil_r. }
    intros pre' rel post' w3 w4 Hl' (new' & HT3) H3. rewrite omap_app, (app_assoc _ (omap _ pre')).
    destruct (relocation_tr es sk yk _ (evs ++ new') w3 k path e st idx rel w4 Hk HT3) as (new4 & HT4); [by apply secs_known_mono| |done|done|].
    { intros key r Hr. by apply sym_event_mono, Hq. }
    exists (new' ++ new4). rewrite app_assoc. simpl omap. by destruct (obj_rel k e idx rel).
  Qed.

  Lemma all_secs_snoc es x : all_secs (es ++ [x]) = all_secs es ++ obj_secs (length es) x.2.
  Proof using. unfold all_secs. rewrite imap_app, concat_app. simpl. by rewrite Nat.add_0_r, app_nil_r. Qed.
  Lemma all_syms_snoc es x : all_syms (es ++ [x]) = all_syms es ++ obj_syms (length es) x.1 x.2.
  Proof using. unfold all_syms. rewrite imap_app, concat_app. simpl. by rewrite Nat.add_0_r, app_nil_r. Qed.
  Lemma all_rels_snoc es x : all_rels (es ++ [x]) = all_rels es ++ obj_rels (length es) x.2.
  Proof using. unfold all_rels. rewrite imap_app, concat_app. simpl. by rewrite Nat.add_0_r, app_nil_r. Qed.
  Lemma obj_syms_obj k path e x : x ∈ obj_syms k path e -> yi_obj x = k /\ yi_file x = path /\ yi_sym x ∈ eo_syms e /\ eo_strtab e (st_name (yi_sym x)) = Some (yi_name x).
  Proof using.
    intros (s & Hs & Hx)%elem_of_list_omap. unfold obj_sym in Hx. destruct (eo_strtab e (st_name s)) eqn:E; [|done]. injection Hx as <-. done.
  Qed.
  Lemma all_syms_obj es x : x ∈ all_syms es -> exists path e, es !! yi_obj x = Some (path, e) /\ x ∈ obj_syms (yi_obj x) path e.
  Proof using.
    induction es as [|[path e] es IH] using rev_ind; [by intros Hx%elem_of_nil|]. rewrite all_syms_snoc. intros [Hx|Hx]%elem_of_app.
    - destruct (IH Hx) as (p & e' & H1 & H2). exists p, e'. split; [|done]. by apply lookup_app_l_Some.
    - cbn [fst snd] in Hx. pose proof (proj1 (obj_syms_obj _ _ _ _ Hx)) as E. exists path, e. rewrite E. split; [|done].
      by rewrite lookup_app_r, Nat.sub_diag by lia.
  Qed.
  Lemma tr_more es ms sk rk evs w : tr es sk (all_syms es) rk evs w -> tr (es ++ ms) sk (all_syms es) rk evs w.
  Proof using.
    intros [T1 T2 T3 T4 T5]. split; try done. apply events_ok_more; [done|]. rewrite T3, Forall_forall. intros x Hx.
    destruct (all_syms_obj es x Hx) as (p & e & H & _). by eapply lookup_lt_Some.
  Qed.

  Lemma member_tr ar path es evs w m w' : path ∈ lk_archives l -> wd_archive wd path = Some (Some ar) ->
    tr es (all_secs es) (all_syms es) (all_rels es) evs w -> load_member ar path w m = Ok w' ->
    exists e new, is_member wd l (path, e) /\ tr (es ++ [(path, e)]) (all_secs (es ++ [(path, e)])) (all_syms (es ++ [(path, e)])) (all_rels (es ++ [(path, e)])) (evs ++ new) w'.
  Proof using.
    intros Hp Har HT H. unfold load_member in H. apply bind_Ok in H as ([e|] & He & H); [|done]. apply unwrap_Ok in He.
    destruct (eo_is_object e) eqn:Eo; [|done]. apply bind_Ok in H as ([w1 s1] & H1 & H). apply bind_Ok in H as ([w2 s2] & H2 & H).
    set (es' := es ++ [(path, e)]). assert (Hk : es' !! length es = Some (path, e)) by (unfold es'; by rewrite lookup_app_r, Nat.sub_diag by lia).
    pose proof (tr_more es [(path, e)] _ _ _ _ HT) as HT'. fold es' in HT'.
    destruct (sections_tr es' _ _ _ evs w (length es) path e w1 s1 Hk HT' H1) as (n1 & T1 & K1 & K2).
    destruct (symbols_tr es' _ _ _ _ w1 (length es) path e s1 w2 s2 Hk T1 K1 K2 H2) as (n2 & T2 & E2 & K3 & K4 & K5).
    destruct (relocations_tr es' _ _ _ _ w2 (length es) path e s2 w' Hk T2) as (n3 & T3); [by rewrite E2|done|done|done|].
    exists e, (n1 ++ n2 ++ n3). split; [by exists ar, m|]. fold es'. unfold es'. rewrite all_secs_snoc, all_syms_snoc, all_rels_snoc. fold es'.
    by rewrite !app_assoc.
  Qed.

  Lemma read_objects_eq paths inputs : mapM_res (read_object wd) paths = Ok inputs ->
    paths = inputs.*1 /\ Forall (fun x => wd_elf wd x.1 = Some x.2) inputs.
  Proof using.
    revert inputs; induction paths as [|q paths IH]; intros inputs H; simpl in H; [injection H as <-; by split|].
    apply bind_Ok in H as ([q' x] & Hx & H). apply bind_Ok in H as (xs & Hxs & [= <-]). destruct (IH xs Hxs) as [-> HF].
    unfold read_object in Hx. destruct (wd_elf wd q) eqn:Eq; [|done]. injection Hx as <- <-. split; [done|]. by constructor.
  Qed.

  Lemma load_objects_tr evs w w' : tr (cmd_objs wd l) [] [] [] evs w -> load_objects wd l w = Ok w' ->
    exists new, tr (cmd_objs wd l) (all_secs (cmd_objs wd l)) (all_syms (cmd_objs wd l)) (all_rels (cmd_objs wd l)) (evs ++ new) w'.
  Proof using.
    intros HT H. unfold load_objects in H. apply bind_Ok in H as (inputs & Hi & H). apply bind_Ok in H as ([w1 elfs] & H1 & H2).
    destruct (read_objects_eq _ _ Hi) as [Ein Hin]. set (es := cmd_objs wd l) in *.
    assert (Ees : es = omap (cmd_obj wd) inputs.*1) by (unfold es, cmd_objs; by rewrite Ein).
    assert (A : elfs.*1 = omap (cmd_obj wd) inputs.*1 /\ exists new, tr es (all_secs (omap (cmd_obj wd) inputs.*1)) [] [] (evs ++ new) w1 /\
      forall k x s, elfs !! k = Some (x, s) -> secs_known es (evs ++ new) k (es_sections s) /\ es_symbols s = []).
    { revert H1.
      apply (foldM_trace (fun pre st => st.2.*1 = omap (cmd_obj wd) pre.*1 /\ exists new, tr es (all_secs (omap (cmd_obj wd) pre.*1)) [] [] (evs ++ new) st.1 /\
        forall k x s, st.2 !! k = Some (x, s) -> secs_known es (evs ++ new) k (es_sections s) /\ es_symbols s = [])); cbn [fst snd].
      { split; [done|]. exists []. rewrite app_nil_r. split; [done|]. intros k x s Hk. by rewrite lookup_nil in Hk. }
      intros pre [path x] post [w2 e2] [w3 e3] Hl (HE & new & HT2 & HK) Hst. cbn [fst snd] in *. unfold add_object_sections in Hst. cbn [fst snd] in Hst.
      assert (Hx : wd_elf wd path = Some x).
      { rewrite Hl in Hin. apply Forall_app in Hin as [_ Hin]. by apply Forall_cons in Hin as [Hin _]. }
      rewrite fmap_app, omap_app. assert (E1 : omap (cmd_obj wd) ([(path, x)].*1) = match x with Some e => if eo_is_object e then [(path, e)] else [] | None => [] end) by (simpl; unfold cmd_obj; rewrite Hx; by destruct x as [e|]; [destruct (eo_is_object e)|]). rewrite E1.
      destruct x as [e|]; [|done]. destruct (eo_is_object e) eqn:Eo.
      2:{ injection Hst as <- <-. rewrite app_nil_r. split; [done|]. by exists new. }
      apply bind_Ok in Hst as ([w4 s4] & H4 & [= <- <-]).
      set (pe := omap (cmd_obj wd) pre.*1) in *.
      assert (Hk : es !! length pe = Some (path, e)).
      { rewrite Ees, Hl, fmap_app, omap_app. fold pe. rewrite lookup_app_r, Nat.sub_diag by lia. simpl. unfold cmd_obj. by rewrite Hx, Eo. }
      destruct (sections_tr es _ _ _ _ w2 (length pe) path e w4 s4 Hk HT2 H4) as (n4 & T4 & K4 & S4).
      split; [by rewrite fmap_app, HE|]. exists (new ++ n4). rewrite all_secs_snoc, app_assoc. split; [done|].
      intros k y s [Hy|[Hge Hy]]%lookup_app_Some.
      - destruct (HK k y s Hy). split; [by apply secs_known_mono|done].
      - assert (length e2 = length pe) as El by (rewrite <- HE; by rewrite fmap_length). rewrite El in Hge, Hy.
        destruct (k - length pe)%nat as [|j] eqn:Ej; [|done]. simpl in Hy. apply (inj Some) in Hy. assert (s = s4) as -> by congruence.
        assert (k = length pe) as -> by lia. by split. }
    rewrite <- Ees in A. destruct A as (EA & new & TA & KA).
    assert (B : exists new', tr es (all_secs es) (all_syms elfs.*1) (all_rels elfs.*1) (evs ++ new ++ new') w').
    { revert H2. apply (foldM_trace (fun pre w => exists new', tr es (all_secs es) (all_syms pre.*1) (all_rels pre.*1) (evs ++ new ++ new') w)).
      { exists []. rewrite app_nil_r. done. }
      intros pre [[path e] s] post w2 w3 Hl (new' & T2) Hst. unfold add_object_symbols in Hst. apply bind_Ok in Hst as ([w4 s4] & H4 & H5).
      assert (Hk : elfs !! length pre = Some (path, e, s)) by (rewrite Hl; by rewrite lookup_app_r, Nat.sub_diag by lia).
      destruct (KA _ _ _ Hk) as [K1 K2]. rewrite app_assoc in T2. apply (secs_known_mono _ _ new') in K1.
      assert (Hk' : es !! length pre = Some (path, e)) by (rewrite <- EA, list_lookup_fmap, Hk; done).
      destruct (symbols_tr es _ _ _ _ w2 (length pre) path e s w4 s4 Hk' T2 K1 K2 H4) as (n2 & T4 & E4 & K3 & K4 & K5).
      destruct (relocations_tr es _ _ _ _ w4 (length pre) path e s4 w3 Hk' T4) as (n3 & T5); [by rewrite E4|done|done|done|].
      exists (new' ++ n2 ++ n3). rewrite fmap_app. cbn [fmap list_fmap fst]. rewrite all_syms_snoc, all_rels_snoc, fmap_length. cbn [fst snd].
      by rewrite !app_assoc in *. }
    destruct B as (new' & B). rewrite EA in B. by exists (new ++ new').
  Qed.

  Lemma match_dynsyms_tr es sk yk rk e path name syms found evs w w' found' : is_lib wd l path e ->
    (forall s, s ∈ syms -> s ∈ eo_dynsyms e) -> is_Some (st_get (w_strtab w) name) -> tr es sk yk rk evs w ->
    match_dynsyms e path name syms found w = Ok (w', found') -> exists new, tr es sk yk rk (evs ++ new) w'.
  Proof using.
    intros Hl. revert found evs w; induction syms as [|sym syms IH]; intros found evs w Hin Hn HT H; simpl in H.
    { injection H as <- <-. exists []. by rewrite app_nil_r. }
    assert (Hin' : forall s, s ∈ syms -> s ∈ eo_dynsyms e) by (intros s Hs; apply Hin; by apply elem_of_list_further).
    destruct (eo_dynstr e (st_name sym)) as [n|] eqn:En; [|done].
    destruct (decide (name = n)) as [->|]; [|by eapply IH].
    apply bind_Ok in H as ([w1 r] & H1 & H). apply bind_Ok in H as (so & Hso & H). apply unwrap_Ok in Hso.
    pose proof (tr_snoc es sk yk rk evs w (EvDyn path e sym n so r) (add_needed w1 so) HT) as HT1. cbn [sec_of sym_of rel_of option_list] in HT1.
    rewrite !app_nil_r in HT1. assert (HT2 : tr es sk yk rk (evs ++ [EvDyn path e sym n so r]) (add_needed w1 so)).
    { apply HT1; [split; [done|by exists w1]|]. split; [done|]. split; [apply Hin, elem_of_list_here|done]. }
    destruct (IH true (evs ++ [EvDyn path e sym n so r]) (add_needed w1 so) Hin') as (new & HT3); [|done|done|].
    { rewrite add_needed_strtab. by rewrite (add_dyn_symbol_strtab _ _ _ _ _ _ _ H1). }
    exists ([EvDyn path e sym n so r] ++ new). by rewrite app_assoc.
  Qed.
  Lemma match_undefines_tr es sk yk rk e path us evs w w' us' : is_lib wd l path e -> tr es sk yk rk evs w ->
    match_undefines e path us w = Ok (w', us') -> exists new, tr es sk yk rk (evs ++ new) w'.
  Proof using.
    intros Hl. revert w evs us'; induction us as [|u us IH]; intros w evs us' HT H; simpl in H.
    { injection H as <- <-. exists []. by rewrite app_nil_r. }
    apply bind_Ok in H as (name & Hn & H). apply bind_Ok in H as ([w1 found] & H1 & H).
    apply bind_Ok in H as ([w2 rest] & H2 & [= <- <-]).
    assert (exists new, tr es sk yk rk (evs ++ new) w1) as [n1 T1].
    { destruct name as [name|]; [|injection H1 as <- <-; exists []; by rewrite app_nil_r].
      eapply match_dynsyms_tr; [done|done| |done|exact H1].
      unfold symbol_name in Hn. destruct u as [n|]; [|done]. apply bind_Ok in Hn as (s & Hs & [= <-]). apply unwrap_Ok in Hs.
      by eapply st_name_at_get. }
    destruct (IH w1 _ rest T1 H2) as [n2 T2]. exists (n1 ++ n2). by rewrite app_assoc.
  Qed.
  Lemma libs_tr es sk yk rk us evs w w' us' : tr es sk yk rk evs w -> find_undefined_symbols_in_libs wd l us w = Ok (w', us') ->
    exists new, tr es sk yk rk (evs ++ new) w'.
  Proof using.
    intros HT H. assert (G : exists new, tr es sk yk rk (evs ++ new) (w', us').1); [|exact G].
    revert H. apply (foldM_trace (fun _ st => exists new, tr es sk yk rk (evs ++ new) st.1)); [exists []; by rewrite app_nil_r|].
    intros pre lib post [w1 us1] [w2 us2] Hl [n1 T1] H1. unfold search_lib in H1.
    destruct (wd_elf wd lib.1) as [[e|]|] eqn:Ee; [|done|done]. simpl in *.
    destruct (match_undefines_tr es sk yk rk e lib.1 us1 (evs ++ n1) w1 w2 us2) as [n2 T2]; [|done|done|exists (n1 ++ n2); by rewrite app_assoc].
    split; [|done]. apply elem_of_list_fmap. exists lib. split; [done|]. rewrite Hl. apply elem_of_app; right; apply elem_of_list_here.
  Qed.

  (** The stages after the objects of the command line. *)
  Definition full (ms : list (string * elf_obj)) (evs : list event) (w : writer) : Prop :=
    Forall (is_member wd l) ms /\
    tr (cmd_objs wd l ++ ms) (all_secs (cmd_objs wd l ++ ms)) (all_syms (cmd_objs wd l ++ ms)) (all_rels (cmd_objs wd l ++ ms)) evs w.
  Lemma archives_tr lo round us ms evs w w' us' : full ms evs w -> process_archives_containing wd lo round l us w = Ok (w', us') ->
    exists ms' new, full (ms ++ ms') (evs ++ new) w'.
  Proof using.
    intros HT H. assert (G : exists ms' new, full (ms ++ ms') (evs ++ new) (w', us').1); [|exact G].
    revert H. apply (foldM_trace (fun _ st => exists ms' new, full (ms ++ ms') (evs ++ new) st.1)); [exists [], []; by rewrite !app_nil_r|].
    intros pre path post [w1 us1] [w2 us2] Hl (m1 & n1 & T1) H1. unfold search_archive in H1.
    destruct (wd_archive wd path) as [[ar|]|] eqn:Ea; [|done|done].
    apply bind_Ok in H1 as ([mem un] & _ & H1). apply bind_Ok in H1 as (w3 & H3 & [= <- <-]). cbn [fst snd] in *.
    revert H3. apply (foldM_trace (fun _ st => exists ms' new, full (ms ++ ms') (evs ++ new) st)); [by exists m1, n1|].
    intros pre' m post' w4 w5 _ (m4 & n4 & F4 & T4) H4.
    destruct (member_tr ar path (cmd_objs wd l ++ ms ++ m4) (evs ++ n4) w4 m w5) as (e & n5 & M5 & T5); [|exact Ea|exact T4|exact H4|].
    { rewrite Hl. apply elem_of_app; right; apply elem_of_list_here. }
    exists (m4 ++ [(path, e)]), (n4 ++ n5). split; [|by rewrite !app_assoc in *]. rewrite app_assoc. apply Forall_app. split; [done|]. by constructor.
  Qed.
  Lemma resolve_loop_tr lo fuel round us ms evs w w' : full ms evs w -> resolve_loop wd lo l fuel round us w = Ok w' ->
    exists ms' new, full (ms ++ ms') (evs ++ new) w'.
  Proof using.
    revert round us ms evs w; induction fuel as [|fuel IH]; intros round us ms evs w [HF HT] H; simpl in H; [done|].
    apply bind_Ok in H as ([w1 n1] & H1 & H). apply bind_Ok in H as ([w2 n2] & H2 & H).
    destruct (libs_tr _ _ _ _ _ _ _ _ _ HT H1) as [v1 T1]. destruct (archives_tr _ _ _ ms _ _ _ _ (conj HF T1) H2) as (m2 & v2 & T2).
    destruct (_ =? _)%nat; [injection H as <-; exists m2, (v1 ++ v2); by rewrite app_assoc|].
    destruct (IH _ _ _ _ _ T2 H) as (m3 & v3 & T3). exists (m2 ++ m3), (v1 ++ v2 ++ v3). by rewrite !app_assoc in *.
  Qed.
End trace.

(** The whole phase. *)
Lemma resolve_trace wd lo l fuel w : resolve wd lo l fuel = Ok w -> exists es evs, reads wd l es evs w.
Proof.
  intros H. unfold resolve in H. apply bind_Ok in H as (w0 & Hw0 & H). apply bind_Ok in H as (w1 & H1 & H).
  destruct (load_objects_tr wd l w0 [] w0 w1) as (n1 & T1); [|done|].
  { split; try done; [constructor|]. intros pre v post E. by destruct pre. }
  destruct (resolve_loop_tr wd l w0 lo fuel 0 (undefined_symbols (lo_writer lo) w1) [] n1 w1 w) as (ms & n2 & F & T); [|exact H|].
  { split; [constructor|]. by rewrite app_nil_r. }
  simpl in F, T. exists (cmd_objs wd l ++ ms), (n1 ++ n2). destruct T as [R1 R2 R3 R4 R5]. split; try done.
  - exists ms. split; [done|]. exact F.
  - exists w0. done.
Qed.
