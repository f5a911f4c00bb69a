(** Members of archives: brought in for an undefined name, and so not again. *)
From Verif Require Export SpecArchive ProofMissing.
From Verif Require Import ProofBase.

(** * Names keep their place *)
Lemma name_at_climbs w w' k name : climbs w w' -> st_name_at (w_strtab w) k = Some name -> st_name_at (w_strtab w') k = Some name.
Proof.
  intros [[tl E] _] H. unfold st_name_at in *. rewrite E. clear E. revert H. induction (stt_names (w_strtab w)) as [|[x [i o]] q IH]; [done|]. simpl. destruct (o =? k); [done|exact IH].
Qed.
Lemma symbol_name_at w r name : symbol_name w r = Ok (Some name) <-> exists k, r = RNamed k /\ st_name_at (w_strtab w) k = Some name.
Proof.
  unfold symbol_name. destruct r as [k|]; [|split; [discriminate|intros (? & [=] & _)]]. split.
  - intros H. apply bind_Ok in H as (x & Hx & [= <-]). apply unwrap_Ok in Hx. eauto.
  - intros (? & [= <-] & ->). reflexivity.
Qed.

Section archive.
  Context (wd : world) (l : linker).

  (** * Libraries *)
  Lemma undefines_rest e path us w w' us' : match_undefines e path us w = Ok (w', us') -> w_strtab w' = w_strtab w /\ us' ⊆ us /\
    forall k name s, RNamed k ∈ us' -> st_name_at (w_strtab w) k = Some name -> s ∈ eo_dynsyms e -> eo_dynstr e (st_name s) <> Some name.
  Proof using.
    revert w us'. induction us as [|u us IH]; intros w us' H; cbn [match_undefines] in H.
    { injection H as <- <-. split; [reflexivity|]. split; [done|]. intros k name s Hk. by apply elem_of_nil in Hk. }
    apply bind_Ok in H as (name & Hn & H). apply bind_Ok in H as ([w1 found] & H1 & H). apply bind_Ok in H as ([w2 rest] & H2 & [= <- <-]).
    assert (E1 : w_strtab w1 = w_strtab w).
    { destruct name as [name|]; [|by injection H1 as <- <-]. clear -H1. revert H1. generalize false. revert w. induction (eo_dynsyms e) as [|s syms IH]; intros w b H1; cbn [match_dynsyms] in H1; [by injection H1 as <- <-|].
      destruct (eo_dynstr e (st_name s)) as [inner|]; [|discriminate H1]. destruct (decide (name = inner)); [|by apply IH in H1].
      apply bind_Ok in H1 as ([w3 r] & Ha & H1). apply bind_Ok in H1 as (so & _ & H1). apply IH in H1. rewrite H1, add_needed_strtab. exact (add_dyn_symbol_strtab _ _ _ _ _ _ _ Ha). }
    destruct (IH _ _ H2) as (I1 & I2 & I3). rewrite E1 in I1, I3. split; [exact I1|]. destruct found.
    - split; [set_solver|exact I3].
    - split; [set_solver|]. intros k nm s [<-|Hk]%elem_of_cons Hat; [|by apply I3 with k]. assert (E : symbol_name w (RNamed k) = Ok (Some nm)) by (apply symbol_name_at; eauto).
      rewrite E in Hn. injection Hn as <-. apply dynsyms_none in H1 as [_ H1]. apply H1.
  Qed.
  Lemma libs_rest us w w' us' : find_undefined_symbols_in_libs wd l us w = Ok (w', us') -> w_strtab w' = w_strtab w /\ us' ⊆ us /\
    forall k name, RNamed k ∈ us' -> st_name_at (w_strtab w) k = Some name -> forall sym, ~ library_lists wd l name sym.
  Proof using.
    unfold find_undefined_symbols_in_libs, library_lists, is_lib.
    assert (G : forall libs us w, foldM (search_lib wd) libs (w, us) = Ok (w', us') -> w_strtab w' = w_strtab w /\ us' ⊆ us /\
      forall k name, RNamed k ∈ us' -> st_name_at (w_strtab w) k = Some name -> forall path e sym, path ∈ libs.*1 -> wd_elf wd path = Some (Some e) -> sym ∈ eo_dynsyms e -> eo_dynstr e (st_name sym) <> Some name).
    { intros libs. induction libs as [|[p b] libs IH]; intros us0 w0 H; cbn [foldM] in H.
      - injection H as <- <-. split; [done|]. split; [done|]. intros k name _ _ path e sym Hp. by apply elem_of_nil in Hp.
      - apply bind_Ok in H as ([w1 us1] & H1 & H). unfold search_lib in H1. cbn [fst] in H1. destruct (wd_elf wd p) as [[e|]|] eqn:Ee; [|discriminate H1|discriminate H1].
        destruct (undefines_rest _ _ _ _ _ _ H1) as (A1 & A2 & A3). destruct (IH _ _ H) as (B1 & B2 & B3). rewrite A1 in B1, B3. split; [exact B1|]. split; [set_solver|].
        intros k name Hk Hat path e' sym Hp He Hs. cbn [fmap list_fmap] in Hp. apply elem_of_cons in Hp as [->|Hp].
        + cbn [fst] in He. rewrite Ee in He. injection He as <-. apply (A3 k); [by apply B2|exact Hat|exact Hs].
        + exact (B3 k name Hk Hat path e' sym Hp He Hs). }
    intros H. destruct (G _ _ _ H) as (A & B & C). split; [exact A|]. split; [exact B|]. intros k name Hk Hat sym (path & e & (Hp & He) & Hs & Hn). exact (C k name Hk Hat path e sym Hp He Hs Hn).
  Qed.

  (** * What reading keeps *)
  Lemma t_sec a e (i : nat) name sh data b sr : tidy_names a -> input_section wd l e name sh -> eo_shdrs e !! i = Some sh ->
    section_data (eo_data e) sh = Ok data -> add_section a name sh data = Ok (b, sr) -> tidy_names b /\ climbs a b /\ True.
  Proof using. intros Ha _ _ _ H. destruct (section_own _ _ _ _ _ _ Ha H) as (X & Y & _). by split. Qed.
  Lemma t_sym a e sym o name path b r : tidy_names a -> is_input wd l e -> sym ∈ eo_syms e ->
    eo_strtab e (st_name sym) = Some name -> sec_ref_of (fun _ _ _ _ => True) e a (N.to_nat (st_shndx sym)) o ->
    add_symbol a sym o name path = Ok (b, r) -> tidy_names b /\ climbs a b /\ strong_at e sym b r.
  Proof using.
    intros Ha _ _ Hn _ H. destruct (add_symbol_own _ _ _ _ _ _ _ Ha H) as (X & Y & _ & W). split; [exact X|]. split; [exact Y|].
    intros name' Hn' H1 H2 H3. rewrite Hn in Hn'. injection Hn' as <-. by apply W.
  Qed.
  Lemma t_rel a e idx (rels : list greloc) rel sym sym' r sr b : tidy_names a -> is_input wd l e -> (idx, rels) ∈ eo_relocs e -> rel ∈ rels ->
    gr_sym rel <> 0 -> eo_syms e !! N.to_nat (gr_sym rel) = Some sym -> idx <> 0 -> True ->
    sym' ∈ eo_syms e -> sym_key sym' = sym_key sym -> strong_at e sym' a r ->
    add_relocation a (mkRela (gr_offset rel) (u64 (gr_sym rel * 2^32) + gr_type rel) (default 0%Z (gr_addend rel))) r sr = Ok b ->
    tidy_names b /\ climbs a b.
  Proof using. intros Ha _ _ _ _ _ _ _ _ _ _ H. destruct (relocation_own _ _ _ _ _ Ha H) as (X & Y & _). by split. Qed.
  Lemma t_dyn a path e sym name so b r : tidy_names a -> is_lib wd l path e -> sym ∈ eo_dynsyms e ->
    eo_dynstr e (st_name sym) = Some name -> file_name path = Some so -> is_Some (st_get (w_strtab a) name) ->
    add_dyn_symbol a sym None name path = Ok (b, r) -> tidy_names (add_needed b so) /\ climbs a (add_needed b so).
  Proof using. intros Ha _ _ _ _ Hn H. destruct (add_dyn_up _ _ _ _ _ so _ _ (tidy_up _ "" Ha) Hn H) as (X & Y & _). split; [exact (up_tidy _ _ X)|exact Y]. Qed.
  Lemma t_keep e sym a b r : tidy_names a -> tidy_names b -> climbs a b -> strong_at e sym a r -> strong_at e sym b r.
  Proof using. intros _ _ Hc Hs name H1 H2 H3 H4. pose proof (Hs name H1 H2 H3 H4). pose proof (proj2 Hc name). lia. Qed.

  Lemma objects_tidy w w' : tidy_names w -> load_objects wd l w = Ok w' -> tidy_names w'.
  Proof using.
    intros HP H. exact (proj1 (load_objects_refs wd l tidy_names climbs (fun _ _ _ _ => True) strong_at climbs_refl climbs_trans
      (fun _ _ _ _ _ _ _ _ _ => I) t_keep t_sec t_sym t_rel t_dyn w w' HP H)).
  Qed.
  Lemma libs_tidy us w w' us' : tidy_names w -> find_undefined_symbols_in_libs wd l us w = Ok (w', us') -> tidy_names w' /\ climbs w w'.
  Proof using.
    intros HP H. exact (libs_refs wd l tidy_names climbs (fun _ _ _ _ => True) strong_at climbs_refl climbs_trans
      (fun _ _ _ _ _ _ _ _ _ => I) t_keep t_sec t_sym t_rel t_dyn us w w' us' HP H).
  Qed.
  Lemma member_tidy ar path w m w' : path ∈ lk_archives l -> wd_archive wd path = Some (Some ar) -> tidy_names w ->
    load_member ar path w m = Ok w' -> tidy_names w' /\ climbs w w' /\
    exists e, ar_get ar m = Some (Some e) /\ forall sym, sym ∈ eo_syms e -> exists r, strong_at e sym w' r.
  Proof using.
    intros Hp Har HP H. unfold load_member in H. apply bind_Ok in H as ([e|] & He & H); [|done]. apply unwrap_Ok in He.
    assert (is_input wd l e) as Hi by (right; eauto 10).
    destruct (eo_is_object e); [|done]. apply bind_Ok in H as ([w1 es1] & H1 & H). apply bind_Ok in H as ([w2 es2] & H2 & H).
    destruct (process_sections_refs wd l tidy_names climbs (fun _ _ _ _ => True) strong_at climbs_refl climbs_trans
      (fun _ _ _ _ _ _ _ _ _ => I) t_keep t_sec t_sym t_rel t_dyn e w w1 es1 Hi HP H1) as (A1 & A2 & A3 & A4).
    destruct (process_symbols_refs wd l tidy_names climbs (fun _ _ _ _ => True) strong_at climbs_refl climbs_trans
      (fun _ _ _ _ _ _ _ _ _ => I) t_keep t_sec t_sym t_rel t_dyn e path w1 es1 w2 es2 Hi A1 A3) as (B1 & B2 & B3 & B4 & B5); [|done|].
    { intros k r Hk. by rewrite A4 in Hk. }
    destruct (process_relocations_refs wd l tidy_names climbs (fun _ _ _ _ => True) strong_at climbs_refl climbs_trans
      (fun _ _ _ _ _ _ _ _ _ => I) t_keep t_sec t_sym t_rel t_dyn e es2 w2 w' Hi B1) as (C1 & C2); [rewrite B3; split; [done|]; by apply A3|done|done|].
    split; [done|]. split; [eapply climbs_trans; [exact A2|]; by eapply climbs_trans|]. exists e. split; [done|].
    intros sym Hs. destruct (B5 sym Hs) as [r Hr]. exists r. exact (t_keep _ _ _ _ _ B1 C1 C2 Hr).
  Qed.

  (** * Members for undefined names *)
  Lemma wanted_why w ar us ms us' : wanted_members w ar us = Ok (ms, us') -> us' ⊆ us /\
    forall m, m ∈ ms -> exists k name, RNamed k ∈ us /\ st_name_at (w_strtab w) k = Some name /\ ar_member_of_symbol ar name = Some m.
  Proof using.
    revert ms us'. induction us as [|u us IH]; intros ms us' H; cbn [wanted_members] in H; [injection H as <- <-; split; [done|]; intros m Hm; by apply elem_of_nil in Hm|].
    apply bind_Ok in H as (name & Hn & H). apply bind_Ok in H as ([ms1 us1] & H1 & H). destruct (IH _ _ H1) as [I1 I2].
    assert (K : forall m, m ∈ ms1 -> exists k name, RNamed k ∈ u :: us /\ st_name_at (w_strtab w) k = Some name /\ ar_member_of_symbol ar name = Some m).
    { intros m Hm. destruct (I2 m Hm) as (k & nm & A & B & C). exists k, nm. split; [by right|]. by split. }
    destruct name as [name|]; cbn [mbind option_bind] in H; [|injection H as <- <-; split; [set_solver|exact K]].
    destruct (ar_member_of_symbol ar name) as [m0|] eqn:Em; injection H as <- <-; [|split; [set_solver|exact K]]. split; [set_solver|].
    intros m [->|Hm]%elem_of_cons; [|exact (K m Hm)]. apply symbol_name_at in Hn as (k & -> & Hat). exists k, name. split; [by left|]. by split.
  Qed.

  Lemma wanted_named w ar us ms us' : wanted_members w ar us = Ok (ms, us') -> forall k, RNamed k ∈ us -> is_Some (st_name_at (w_strtab w) k).
  Proof using.
    revert ms us'. induction us as [|u us IH]; intros ms us' H k Hk; cbn [wanted_members] in H; [by apply elem_of_nil in Hk|].
    apply bind_Ok in H as (name & Hnm & H). apply bind_Ok in H as ([ms1 un1] & H1 & H). apply elem_of_cons in Hk as [<-|Hk]; [|by eapply IH].
    unfold symbol_name in Hnm. apply bind_Ok in Hnm as (s & Hs & _). apply unwrap_Ok in Hs. eauto.
  Qed.
  Lemma named_later ws w w' ar us ms us' : wanted_members w ar us = Ok (ms, us') -> climbs w w' ->
    (forall k name, RNamed k ∈ us -> st_name_at (w_strtab w) k = Some name -> st_name_at (w_strtab ws) k = Some name) ->
    forall k name, RNamed k ∈ us' -> st_name_at (w_strtab w') k = Some name -> st_name_at (w_strtab ws) k = Some name.
  Proof using.
    intros Hw Hc H k name Hk Hat. apply (proj1 (wanted_why _ _ _ _ _ Hw)) in Hk. destruct (wanted_named _ _ _ _ _ Hw k Hk) as [nm Hnm].
    rewrite (name_at_climbs _ _ _ _ Hc Hnm) in Hat. injection Hat as <-. by apply H.
  Qed.

  (** Every name the index has for a member is defined by now. *)
  Definition settled (w : writer) (x : string * string) : Prop :=
    forall ar name, wd_archive wd x.1 = Some (Some ar) -> ar_member_of_symbol ar name = Some x.2 -> (5 <= climb_of w name)%nat.
  Lemma settled_climbs w w' x : climbs w w' -> settled w x -> settled w' x.
  Proof using. intros Hc Hs ar name H1 H2. pose proof (Hs ar name H1 H2). pose proof (proj2 Hc name). lia. Qed.

  Context (lo : lib_oracle) (V : valid_orders lo).
  Lemma round_why ps : forall (round : nat) (ws : writer) (st : writer * list symref),
    (forall p, p ∈ ps -> p ∈ lk_archives l) -> tidy_names st.1 -> climbs ws st.1 ->
    (forall k name, RNamed k ∈ st.2 -> st_name_at (w_strtab st.1) k = Some name -> st_name_at (w_strtab ws) k = Some name) ->
    forall x, x ∈ asked_for wd lo round ps st -> x.1 ∈ ps /\
      exists k name ar, RNamed k ∈ st.2 /\ st_name_at (w_strtab ws) k = Some name /\ wd_archive wd x.1 = Some (Some ar) /\ ar_member_of_symbol ar name = Some x.2.
  Proof using V.
    induction ps as [|p ps IH]; intros round ws [w us] Hps HT Hc Hk x Hx; cbn [asked_for] in Hx; [by apply elem_of_nil in Hx|]. cbn [fst snd] in *.
    destruct (wd_archive wd p) as [[ar|]|] eqn:Ea; [|by apply elem_of_nil in Hx..]. destruct (wanted_members w ar us) as [[ms us1]| |] eqn:Ew; [|by apply elem_of_nil in Hx..].
    destruct (wanted_why _ _ _ _ _ Ew) as [W1 W2]. apply elem_of_app in Hx as [Hx|Hx].
    - apply elem_of_list_fmap in Hx as (m & -> & Hm). cbn [fst snd]. split; [by left|]. rewrite (proj2 (proj2 V)) in Hm. apply (proj1 (elem_of_remove_dups _ _)) in Hm.
      destruct (W2 m Hm) as (k & name & A & B & C). exists k, name, ar. split; [exact A|]. split; [|by split].
      by apply Hk.
    - destruct (search_archive wd lo round (w, us) p) as [[w2 us2]| |] eqn:Es; [|by apply elem_of_nil in Hx..].
      assert (G : us2 = us1 /\ tidy_names w2 /\ climbs w w2).
      { unfold search_archive in Es. rewrite Ea, Ew in Es. cbn [mbind res_bind] in Es. apply bind_Ok in Es as (w3 & Hf & [= <- <-]). split; [done|]. revert Hf.
        apply (foldM_trace (fun _ s => tidy_names s /\ climbs w s)); [split; [done|apply climbs_refl]|]. intros pre m post a b _ [Ta Ca] Hm.
        destruct (member_tidy ar p a m b (Hps p (elem_of_list_here _ _)) Ea Ta Hm) as (Tb & Cb & _). split; [exact Tb|]. by eapply climbs_trans. }
      destruct G as (-> & T2 & C2). destruct (IH round ws (w2, us1)) with (x := x) as (A & k & name & ar' & B & C); [intros q Hq; apply Hps; by right|exact T2|by eapply climbs_trans|exact (named_later _ _ _ _ _ _ _ Ew C2 Hk)|exact Hx|].
      split; [by right|]. exists k, name, ar'. split; [cbn [snd] in B; by apply W1|exact C].
  Qed.

  Context (HS : strong_index wd l).
  Lemma round_once ps : forall (round : nat) (ws : writer) (st : writer * list symref),
    NoDup ps -> (forall p, p ∈ ps -> p ∈ lk_archives l) -> tidy_names st.1 -> climbs ws st.1 ->
    (forall k name, RNamed k ∈ st.2 -> st_name_at (w_strtab st.1) k = Some name -> st_name_at (w_strtab ws) k = Some name) ->
    NoDup (asked_for wd lo round ps st) /\
    forall st', foldM (search_archive wd lo round) ps st = Ok st' -> tidy_names st'.1 /\ climbs st.1 st'.1 /\
      forall x, x ∈ asked_for wd lo round ps st -> settled st'.1 x.
  Proof using V HS.
    induction ps as [|p ps IH]; intros round ws [w us] Hnd Hps HT Hc Hk; cbn [asked_for foldM].
    { split; [constructor|]. intros st' [= <-]. split; [exact HT|]. split; [apply climbs_refl|]. intros x Hx. by apply elem_of_nil in Hx. }
    cbn [fst snd] in *. apply NoDup_cons in Hnd as [Hp Hnd]. pose proof (Hps p (elem_of_list_here _ _)) as Hpl.
    destruct (search_archive wd lo round (w, us) p) as [[w2 us2]|er|pn] eqn:Es; cbn [mbind res_bind].
    2, 3: split; [|intros st' E; discriminate E]; destruct (wd_archive wd p) as [[ar|]|]; [|constructor..]; destruct (wanted_members w ar us) as [[ms us1]| |]; [|constructor..];
      rewrite app_nil_r; apply NoDup_fmap_2; [intros a b [= ->]; done|]; rewrite (proj2 (proj2 V)); apply NoDup_remove_dups.
    pose proof Es as Es'. unfold search_archive in Es. destruct (wd_archive wd p) as [[ar|]|] eqn:Ea; [|discriminate Es..]. destruct (wanted_members w ar us) as [[ms us1]| |] eqn:Ew; [|discriminate Es..].
    cbn [mbind res_bind] in Es. apply bind_Ok in Es as (w3 & Hf & [= <- <-]). destruct (wanted_why _ _ _ _ _ Ew) as [W1 W2].
    assert (G : tidy_names w3 /\ climbs w w3 /\ forall m, m ∈ lo_members lo round p (remove_dups ms) -> settled w3 (p, m)).
    { revert Hf. apply (foldM_trace (fun pre s => tidy_names s /\ climbs w s /\ forall m, m ∈ pre -> settled s (p, m))).
      { split; [done|]. split; [apply climbs_refl|]. intros m Hm. by apply elem_of_nil in Hm. }
      intros pre m post a b _ (Ta & Ca & Sa) Hm. destruct (member_tidy ar p a m b Hpl Ea Ta Hm) as (Tb & Cb & e & He & Hstr). split; [exact Tb|]. split; [by eapply climbs_trans|].
      intros m' [Hm'|Hm'%elem_of_list_singleton]%elem_of_app; [eapply settled_climbs; [exact Cb|by apply Sa]|]. subst m'. intros ar' name Ha' Hi. cbn [fst snd] in Ha', Hi. rewrite Ea in Ha'. injection Ha' as <-.
      destruct (HS p ar name m e Hpl Ea Hi He) as (sym & S1 & S2 & S3 & S4 & S5). destruct (Hstr sym S1) as [r Hr]. by apply Hr. }
    destruct G as (T3 & C3 & S3).
    destruct (IH round ws (w3, us1)) as [N1 N2]; [exact Hnd|intros q Hq; apply Hps; by right|exact T3|by eapply climbs_trans|exact (named_later _ _ _ _ _ _ _ Ew C3 Hk)|].
    split.
    - apply NoDup_app. split; [|split; [|exact N1]].
      + apply NoDup_fmap_2; [intros a b [= ->]; done|]. rewrite (proj2 (proj2 V)). apply NoDup_remove_dups.
      + intros x Hx Hx'. apply elem_of_list_fmap in Hx as (m & -> & Hm).
        destruct (round_why ps round ws (w3, us1)) with (x := (p, m)) as [Q _]; [intros q Hq; apply Hps; by right|exact T3|by eapply climbs_trans|exact (named_later _ _ _ _ _ _ _ Ew C3 Hk)|exact Hx'|]. done.
    - intros st' Hst. destruct (N2 st' Hst) as (T4 & C4 & S4). split; [exact T4|]. cbn [fst] in C4. split; [by eapply climbs_trans|].
      intros x [Hx|Hx]%elem_of_app; [|by apply S4]. apply elem_of_list_fmap in Hx as (m & -> & Hm). eapply settled_climbs; [exact C4|by apply S3].
  Qed.
  Lemma rounds_once (Hnd : NoDup (lk_archives l)) fuel : forall (round : nat) (w : writer) (past : list (string * string)), tidy_names w -> (forall x, x ∈ past -> settled w x) ->
    NoDup (concat (rounds wd lo l fuel round w).*2) /\ forall x, x ∈ concat (rounds wd lo l fuel round w).*2 -> x ∉ past.
  Proof using V HS.
    induction fuel as [|fuel IH]; intros round w past HT Hpast; cbn [rounds]; cbv zeta; [split; [constructor|]; intros x Hx; by apply elem_of_nil in Hx|].
    destruct (find_undefined_symbols_in_libs wd l _ w) as [[w1 next]| |] eqn:El; [|split; [constructor|]; intros x Hx; by apply elem_of_nil in Hx..].
    destruct (libs_rest _ _ _ _ El) as (L1 & L2 & L3). destruct (libs_tidy _ _ _ _ HT El) as [T1 C1].
    set (us := lo_undef lo (2 * round + 1) next) in *. assert (Hus : forall r, r ∈ us -> r ∈ undefined_symbols (lo_writer lo) w).
    { intros r Hr. unfold us in Hr. rewrite (proj1 (proj2 V)) in Hr. apply L2 in Hr. by rewrite (proj1 (proj2 V)) in Hr. }
    assert (Hk : forall k name, RNamed k ∈ (w1, us).2 -> st_name_at (w_strtab (w1, us).1) k = Some name -> st_name_at (w_strtab w) k = Some name) by (cbn [fst snd]; intros k name _; by rewrite L1).
    destruct (round_once (lk_archives l) round w (w1, us) Hnd (fun _ H => H) T1 C1 Hk) as [N1 N2].
    pose proof (round_why (lk_archives l) round w (w1, us) (fun _ H => H) T1 C1 Hk) as W. cbn [fst snd] in N2, W.
    assert (Hnot : forall x, x ∈ asked_for wd lo round (lk_archives l) (w1, us) -> x ∉ past).
    { intros x Hx Hp. destruct (W x Hx) as (_ & k & name & ar & A & B & C & D). pose proof (Hpast x Hp ar name C D) as Q.
      destruct (undefined_open _ _ _ k name (tidy_up _ "" HT) (vo_sym _ (proj1 V)) (Hus _ A) B) as [[O _] _]. lia. }
    cbn [fmap list_fmap concat snd]. unfold process_archives_containing.
    destruct (foldM (search_archive wd lo round) (lk_archives l) (w1, us)) as [[w2 next2]| |] eqn:Ea; [|cbn [fmap list_fmap concat]; rewrite app_nil_r; by split..].
    destruct (_ =? _)%nat; [cbn [fmap list_fmap concat]; rewrite app_nil_r; by split|]. destruct (N2 _ eq_refl) as (T2 & C2 & S2). cbn [fst] in T2, C2, S2.
    destruct (IH (S round) w2 (past ++ asked_for wd lo round (lk_archives l) (w1, us)) T2) as [I1 I2].
    { intros x [Hx|Hx]%elem_of_app; [|by apply S2]. eapply settled_climbs; [|by apply Hpast]. by eapply climbs_trans. }
    split.
    - apply NoDup_app. split; [exact N1|]. split; [|exact I1]. intros x Hx Hx'. apply I2 in Hx'. apply Hx'. apply elem_of_app. by right.
    - intros x [Hx|Hx]%elem_of_app; [by apply Hnot|]. apply I2 in Hx. intros Hp. apply Hx. apply elem_of_app. by left.
  Qed.
End archive.

Lemma rounds_why wd l lo (V : valid_orders lo) fuel : forall round w, tidy_names w ->
  forall w0 ms p m, (w0, ms) ∈ rounds wd lo l fuel round w -> (p, m) ∈ ms ->
  p ∈ lk_archives l /\ exists k name ar, RNamed k ∈ undefined_symbols (lo_writer lo) w0 /\ st_name_at (w_strtab w0) k = Some name /\
    wd_archive wd p = Some (Some ar) /\ ar_member_of_symbol ar name = Some m /\ forall sym, ~ library_lists wd l name sym.
Proof.
  induction fuel as [|fuel IH]; intros round w HT w0 ms p m Hr Hm; cbn [rounds] in Hr; cbv zeta in Hr; [by apply elem_of_nil in Hr|].
  destruct (find_undefined_symbols_in_libs wd l _ w) as [[w1 next]| |] eqn:El; [|by apply elem_of_nil in Hr..].
  destruct (libs_rest _ _ _ _ _ _ El) as (L1 & L2 & L3). destruct (libs_tidy _ _ _ _ _ _ HT El) as [T1 C1].
  set (us := lo_undef lo (2 * round + 1) next) in *.
  apply elem_of_cons in Hr as [[= -> ->]|Hr].
  - destruct (round_why wd l lo V (lk_archives l) round w (w1, us) (fun _ H => H) T1 C1) with (x := (p, m)) as (A & k & name & ar & B & C & D & E); [cbn [fst snd]; intros k name _; by rewrite L1|exact Hm|].
    cbn [fst snd] in *. split; [exact A|]. unfold us in B. rewrite (proj1 (proj2 V)) in B. exists k, name, ar. split; [apply L2 in B; by rewrite (proj1 (proj2 V)) in B|]. split; [exact C|]. split; [exact D|]. split; [exact E|]. exact (L3 k name B C).
  - destruct (process_archives_containing wd lo round l us w1) as [[w2 next2]| |] eqn:Ea; [|by apply elem_of_nil in Hr..]. destruct (_ =? _)%nat; [by apply elem_of_nil in Hr|].
    refine (IH (S round) w2 _ w0 ms p m Hr Hm).
    exact (proj1 (archives_refs wd l tidy_names climbs (fun _ _ _ _ => True) strong_at climbs_refl climbs_trans
      (fun _ _ _ _ _ _ _ _ _ => I) t_keep (t_sec wd l) (t_sym wd l) (t_rel wd l) (t_dyn wd l) lo round us w1 w2 next2 T1 Ea)).
Qed.
Lemma run_start wd l w : (w ← writer_new (lk_options l); load_objects wd l w) = Ok w -> tidy_names w.
Proof. intros H. apply bind_Ok in H as (w0 & H0 & H). exact (objects_tidy wd l w0 w (up_tidy _ _ (new_up [] _ _ H0)) H). Qed.
