(** Symbols registered in several chunks. *)
From Verif Require Export SpecTwice ProofSyms.

(** * Lists *)
Lemma list_choose {A B} (Q : A -> B -> Prop) (l : list A) : (forall x, x ∈ l -> exists y, Q x y) -> exists ys, Forall2 Q l ys.
Proof.
  induction l as [|x l IH]; intros H; [exists []; constructor|]. destruct (H x) as [y Hy]; [left|]. destruct IH as [ys Hys]; [intros x' Hx'; apply H; by right|]. exists (y :: ys). by constructor.
Qed.
Lemma NoDup_Forall2 {A B} (Q : A -> B -> Prop) (l : list A) (ys : list B) : NoDup l -> Forall2 Q l ys -> (forall x x' y, x ∈ l -> x' ∈ l -> Q x y -> Q x' y -> x = x') -> NoDup ys.
Proof.
  intros Hn F. induction F as [|x y l ys Hxy F IH]; intros H; [constructor|]. apply NoDup_cons in Hn as [Hx Hn]. constructor.
  - intros Hy. apply elem_of_list_lookup in Hy as [i Hi]. destruct (Forall2_lookup_r _ _ _ _ _ F Hi) as (x' & Hx' & Hq). apply elem_of_list_lookup_2 in Hx'. apply Hx.
    rewrite (H x x' y); [exact Hx'|left|by right|exact Hxy|exact Hq].
  - apply IH; [exact Hn|]. intros x1 x2 z H1 H2. apply H; by right.
Qed.
Lemma ntotal_perm (a b : list N) : a ≡ₚ b -> ntotal a = ntotal b.
Proof. unfold ntotal. induction 1; simpl; try lia. Qed.

(** * The steps for one symbol, by position *)
Definition base_at (base : N) (cs : list chunk) (j : nat) : N := base + ntotal (blen <$> take j (c_data <$> cs)).
Lemma chunks_hits ix base cs r : Forall (fun c => r ∈ c_symbols c -> NoDup (c_symbols c)) cs -> exists js : list nat, NoDup js /\
  (forall j, j ∈ js <-> exists c, cs !! j = Some c /\ r ∈ c_symbols c) /\ steps_at r (chunks_steps ix base cs) = (fun j => (ix, base_at base cs j, r)) <$> js.
Proof.
  revert base. induction cs as [|c cs IH]; intros base HF.
  - exists []. split; [constructor|]. split; [|done]. intros j. split; [by intros ?%elem_of_nil|]. intros (c & Hc & _). by rewrite lookup_nil in Hc.
  - apply Forall_cons in HF as [Hc HF]. destruct (IH (base + blen (c_data c)) HF) as (js & Hn & Hj & E). cbn [chunks_steps]. rewrite steps_at_app, E.
    assert (Em : (fun j => (ix, base_at (base + blen (c_data c)) cs j, r)) <$> js = (fun j => (ix, base_at base (c :: cs) j, r)) <$> (S <$> js)).
    { rewrite <- list_fmap_compose. apply list_fmap_ext. intros k j _. unfold base_at, compose. rewrite fmap_cons, firstn_cons, fmap_cons. unfold ntotal. simpl. f_equal. f_equal. lia. }
    rewrite Em. destruct (decide (r ∈ c_symbols c)) as [Hr|Hr].
    + rewrite (chunk_steps_at ix base c r (Hc Hr) Hr). exists (0%nat :: (S <$> js)). split.
      { constructor; [|by apply (NoDup_fmap_2 S)]. intros H. apply elem_of_list_fmap in H as (j & K & _). discriminate K. }
      split; [|rewrite fmap_cons; unfold base_at at 2; simpl; unfold ntotal; simpl; by rewrite N.add_0_r].
      intros j. rewrite elem_of_cons. split.
      * intros [->|H]; [by exists c|]. apply elem_of_list_fmap in H as (j' & -> & H). apply Hj in H. exact H.
      * intros (c' & Hc' & Hr'). destruct j as [|j]; [by left|]. right. apply elem_of_list_fmap. exists j. split; [done|]. apply Hj. by exists c'.
    + rewrite (steps_at_nil r (chunk_steps ix base c)); [|unfold chunk_steps; intros x Hx Hx2; apply elem_of_list_fmap in Hx as (r' & -> & Hx); simpl in Hx2; by subst r'].
      exists (S <$> js). split; [by apply (NoDup_fmap_2 S)|]. split; [|done]. intros j. split.
      * intros H. apply elem_of_list_fmap in H as (j' & -> & H). apply Hj in H. exact H.
      * intros (c' & Hc' & Hr'). destruct j as [|j]; [injection Hc' as ->; done|]. apply elem_of_list_fmap. exists j. split; [done|]. apply Hj. by exists c'.
Qed.

Definition rest_base (rest : list section) (p : nat * nat) : N :=
  match rest !! p.1 with Some s => base_at (sh_addr (sc_sh s)) (sc_chunks s) p.2 | None => 0 end.
Definition hit (w : writer) (rest : list section) (r : symref) (p : nat * nat) : Prop :=
  exists s c, rest !! p.1 = Some s /\ relocatable w s = true /\ sc_chunks s !! p.2 = Some c /\ r ∈ c_symbols c.
Lemma rest_hits w rest r : (forall i s j c, rest !! i = Some s -> relocatable w s = true -> sc_chunks s !! j = Some c -> r ∈ c_symbols c -> NoDup (c_symbols c)) -> exists ps : list (nat * nat), NoDup ps /\
  (forall p, p ∈ ps <-> hit w rest r p) /\ (fun x => x.1.2) <$> steps_at r (rest_steps w rest) = rest_base rest <$> ps.
Proof.
  unfold rest_steps. induction rest as [|s rest IH]; intros HF.
  - exists []. split; [constructor|]. split; [|done]. intros p. split; [by intros ?%elem_of_nil|]. intros (s & c & H & _). by rewrite lookup_nil in H.
  - destruct IH as (ps & Hn & Hp & E); [intros i s' j c Hi; apply (HF (S i) s' j c Hi)|]. rewrite fmap_cons. cbn [concat]. rewrite steps_at_app, fmap_app, E.
    set (up := fun p : nat * nat => (S p.1, p.2)).
    assert (Hup : NoDup (up <$> ps)). { apply NoDup_fmap_2; [|exact Hn]. intros [a b] [a' b'] K. injection K as -> ->. done. }
    assert (Em : rest_base rest <$> ps = rest_base (s :: rest) <$> (up <$> ps)) by (rewrite <- list_fmap_compose; done). rewrite Em.
    assert (Hmem : forall p, p ∈ up <$> ps <-> exists i, p.1 = S i /\ hit w (s :: rest) r p).
    { intros p. rewrite elem_of_list_fmap. split.
      - intros ([i j] & -> & H). exists i. split; [done|]. apply Hp in H. exact H.
      - intros (i & Ei & H). exists (i, p.2). split; [destruct p; simpl in Ei; by subst|]. apply Hp. unfold hit in H. rewrite Ei in H. exact H. }
    destruct (relocatable w s) eqn:Hrel.
    + destruct (chunks_hits (u16 (sc_index s)) (sh_addr (sc_sh s)) (sc_chunks s) r) as (js & Hjn & Hj & Es).
      { apply Forall_forall. intros c Hc Hr. apply elem_of_list_lookup in Hc as [j Hc]. exact (HF 0%nat s j c eq_refl Hrel Hc Hr). }
      exists (((fun j => (0%nat, j)) <$> js) ++ (up <$> ps)). split.
      { apply NoDup_app. split; [apply NoDup_fmap_2; [intros a b K; by injection K|exact Hjn]|]. split; [|exact Hup].
        intros p H1 H2. apply elem_of_list_fmap in H1 as (j & -> & _). apply Hmem in H2 as (i & K & _). discriminate K. }
      split; [|rewrite fmap_app; f_equal; unfold sec_steps; rewrite Es, <- !list_fmap_compose; done].
      intros p. rewrite elem_of_app. split.
      * intros [H|H]; [|apply Hmem in H as (i & _ & H); exact H]. apply elem_of_list_fmap in H as (j & -> & H). apply Hj in H as (c & Hc & Hr). exists s, c. done.
      * intros H. destruct p as [[|i] j].
        -- left. apply elem_of_list_fmap. exists j. split; [done|]. apply Hj. destruct H as (s' & c & Hs & _ & Hc & Hr). injection Hs as ->. by exists c.
        -- right. apply Hmem. exists i. split; [done|exact H].
    + exists (up <$> ps). split; [exact Hup|]. split; [|done]. intros p. split; [intros H; apply Hmem in H as (i & _ & H); exact H|].
      intros H. apply Hmem. destruct p as [[|i] j]; [|by exists i]. exfalso. destruct H as (s' & c & Hs & Hrel' & _). injection Hs as ->. congruence.
Qed.
(** All steps for a name add up. *)
Lemma steps_sum n k s : Forall (fun x : step => x.2 = RNamed n) k ->
  st_value (s_sym (fold_left step_fn k s)) = st_value (s_sym s) + ntotal ((fun x => x.1.2) <$> k) /\
  st_info (s_sym (fold_left step_fn k s)) = st_info (s_sym s) /\ st_size (s_sym (fold_left step_fn k s)) = st_size (s_sym s).
Proof.
  revert s. induction k as [|x k IH]; intros s HF; [unfold ntotal; simpl; split; [lia|done]|]. apply Forall_cons in HF as [Hx HF]. cbn [fold_left]. destruct (IH (step_fn s x) HF) as (-> & -> & ->).
  assert (E : st_value (s_sym (step_fn s x)) = st_value (s_sym s) + x.1.2) by (unfold step_fn, patch_symbol; rewrite Hx; reflexivity).
  rewrite E, fmap_cons. generalize ((fun x0 : N * N * symref => x0.1.2) <$> k). intros t. change (ntotal (x.1.2 :: t)) with (x.1.2 + ntotal t).
  split; [rewrite N.add_assoc; reflexivity|split; reflexivity].
Qed.

Section links.
  Context {wd : world} {lo : lib_oracle} {l : linker} {fuel : nat} {w : writer} {secs : list section}
    {w0 wr ws w1 : writer} {extra : N} {null : section} {rest rest' : list section} {st : layout} {w3 w4 w5 w6 w7 : writer}
    {null' : section} {out : list section}.
  Context (O : outcome wd lo l fuel w secs w0 wr ws w1 extra null rest rest' st w3 w4 w5 w6 w7 null' out).
  Context (Fin : mapM_res (sec_finalize (lo_writer lo) w) (w_sections w) = Ok secs).
  Context (V : valid_oracle (lo_writer lo)) (P : plain_inputs wd l) (NF : names_fit w).
  Context {es : list (string * elf_obj)} {evs : list event} (R : reads wd l es evs wr).
  Let sn := w_strtab wr.

  Lemma elem_homes n x : x ∈ homes es n <-> x ∈ all_secs es /\ si_name x <> "" /\ exists y, y ∈ named n (all_syms es) /\ lies_in x y.
  Proof using. unfold homes. rewrite elem_of_list_filter, Exists_exists. naive_solver. Qed.
  (** The place of a home: section number, chunk, address. *)
  Definition at_place (r6 : list section) (r : symref) (x : sec_in) (p : nat * nat) : Prop :=
    exists b, out !! p.1 = Some b /\ the_sec w secs (si_name x) b /\ EvSec x (mkSref (sc_id b) p.2) ∈ evs /\ contribs (si_name x) (all_secs es) !! p.2 = Some x /\
      hit w6 r6 r p /\ forall off, offset_of es x off -> rest_base r6 p = addr b + off.
  Lemma summed n y : n <> "" -> n ∉ linker_names -> all_standard n (all_syms es) -> (forall x, x ∈ homes es n -> si_data x <> None) -> winner n (all_syms es) = Some y ->
    exists s as_, syt_symbols (w_symtab w7) !! off_of sn n = Some s /\ Forall2 (base_of w secs es) (homes es n) as_ /\
      st_info (s_sym s) = st_info (yi_sym y) /\ st_size (s_sym s) = st_size (yi_sym y) /\ st_value (s_sym s) = st_value (yi_sym y) + ntotal as_.
  Proof using O Fin V P NF R.
    intros Hn Hl Hst Hdata Hw. assert (Hne : named n (all_syms es) <> []) by (intros E; unfold winner in Hw; rewrite E in Hw; discriminate Hw).
    pose proof (named_known R n Hne) as Hk. destruct (table_wr O NF R n Hn Hne Hst) as (s0 & y' & Hs0 & Hw' & Ed). rewrite Hw in Hw'. injection Hw' as <-.
    destruct (not_special O NF n Hl Hk) as [Hns Hnt]. fold sn in Hs0, Hns, Hnt.
    pose proof (core_w6 O _ Hnt) as Hcore. change (syt_get (w_symtab wr) (RNamed (off_of sn n))) with (syt_symbols (w_symtab wr) !! off_of sn n) in Hcore. rewrite Hs0 in Hcore.
    destruct (syt_get (w_symtab w6) (RNamed (off_of sn n))) as [s6|] eqn:E6; [|discriminate]. cbn [fmap option_fmap option_map] in Hcore. apply (inj Some) in Hcore. injection Hcore as Hc1 _.
    destruct (rest6 O) as (null6 & r6 & Es6 & El & E7). set (r := RNamed (off_of sn n)) in *.
    assert (Hplace : forall x, x ∈ homes es n -> exists p, at_place r6 r x p).
    { intros x Hx. pose proof (Hdata x Hx) as Hd. apply elem_homes in Hx as (Hx & Hxn & y0 & Hy0 & Hin). pose proof Hy0 as Hy0'. apply elem_of_list_filter in Hy0' as [[Ht0 E0] Hy0'].
      destruct (where_defined R _ _ Hx Hy0' Hin) as (r0 & sr & Hev & Hsr & Hdef). pose proof (sym_ref R _ _ _ Hev Ht0) as Er. rewrite E0 in Er. fold sn in Er. fold r in Er. subst r0.
      destruct (chunk_at O Fin V P NF R x sr Hx Hxn Hsr) as (k & ofs & pd & gd & a0 & a1 & a3 & a6 & a7 & b & c0 & U & Esr & Hc0 & Hoff).
      pose proof (us_hist _ _ _ _ _ _ _ _ _ _ _ U) as HH. destruct (nth_contrib O P R _ _ _ _ _ _ _ _ _ _ _ _ _ U Hsr eq_refl) as [_ Hnc].
      assert (Hreg : r ∈ c_symbols c0).
      { destruct (sv_chunk _ _ _ _ (wr_sinv O R) _ _ _ _ (h_wr HH) Hc0) as (_ & _ & _ & Hdd). apply Hdd. exists (EvSym y0 (Some sr) r). split; [exact Hev|]. by rewrite <- Esr. }
      destruct (user_chunk O Fin V P NF R _ _ _ _ _ _ _ _ _ _ _ _ _ U Hc0) as (c6 & c7 & Hc6 & _ & F). pose proof (cf_syms _ _ _ _ _ F) as (tl & Ec6 & _ & _).
      pose proof (h_w6 HH) as H6. rewrite Es6 in H6. simpl in H6. destruct (user_datas6 O V P _ _ _ _ _ _ _ _ _ _ _ U) as (U1 & U2 & U3).
      assert (Hbits : is_nobits b = false).
      { pose proof (user_datas O P R _ _ _ _ _ _ _ _ _ _ _ U) as D. destruct (is_nobits b); [|done]. destruct D as [D _]. exfalso. apply Hd, D. by apply elem_contribs. }
      exists (k, sr_chunk sr). exists b. split; [exact (us_out _ _ _ _ _ _ _ _ _ _ _ U)|]. split; [exact (us_the _ _ _ _ _ _ _ _ _ _ _ U)|]. simpl. split; [rewrite <- Esr; exact Hsr|].
      split; [destruct (si_data x); [exact Hnc|done]|]. split.
      - exists a6, c6. split; [exact H6|]. split; [by eapply user_relocatable|]. split; [exact Hc6|]. rewrite Ec6. simpl. apply elem_of_app. by left.
      - intros off Ho. unfold rest_base. simpl. rewrite H6. unfold base_at. rewrite U1, U2, (Hoff off Ho), Hbits. reflexivity. }
    destruct (list_choose _ _ Hplace) as (ks & HK).
    assert (Hnd : NoDup (homes es n)). { apply NoDup_filter. eapply NoDup_fmap_1. apply all_secs_keys. }
    assert (HKn : NoDup ks).
    { eapply NoDup_Forall2; [exact Hnd|exact HK|]. intros x x' p _ _ (b & Hb & Hthe & _ & Hc & _) (b' & Hb' & Hthe' & _ & Hc' & _). rewrite Hb in Hb'. apply (inj Some) in Hb' as <-.
      destruct Hthe as (_ & N1 & _). destruct Hthe' as (_ & N2 & _). rewrite N1 in N2. apply (inj Some) in N2. rewrite <- N2 in Hc'. rewrite Hc in Hc'. by apply (inj Some) in Hc'. }
    destruct (rest_hits w6 r6 r) as (ps & Hpn & Hp & Eps).
    { intros i s j c Hi Hrel Hj Hr. destruct (lookup_lt_is_Some_2 out i) as [b Hb]; [rewrite <- El; by eapply lookup_lt_Some|].
      destruct (reg_event O Fin V P R _ _ _ _ _ _ _ Es6 El Hi Hj Hr) as [?|(b' & v & Hb' & Hpos & Hv & Hd)]; [done|].
      destruct (defined_where R _ _ _ Hv Hd) as (x & y1 & -> & Hx & Hy1 & Hxs & Hin).
      assert (Hxn : si_name x <> "") by (intros E; pose proof (unnamed_zero O R _ _ Hx E) as K; simpl in K; lia).
      destruct (chunk_at O Fin V P NF R x _ Hxs Hxn Hx) as (k & ofs & pd & gd & a0 & a1 & a3 & a6 & a7 & b1 & c0 & U & Esr & Hc0 & _). simpl in Esr, Hc0. injection Esr as Eid.
      pose proof (us_hist _ _ _ _ _ _ _ _ _ _ _ U) as HH. pose proof (h_w6 HH) as H6. rewrite Es6 in H6. simpl in H6.
      assert (k = i) as -> by (eapply (out_nodup O V); [exact (us_out _ _ _ _ _ _ _ _ _ _ _ U)|exact Hb'|done]). rewrite Hi in H6. apply (inj Some) in H6 as ->.
      destruct (user_chunk O Fin V P NF R _ _ _ _ _ _ _ _ _ _ _ _ _ U Hc0) as (c6 & c7 & Hc6 & _ & F). pose proof (cf_syms _ _ _ _ _ F) as (tl & Ec6 & _ & Hnd6).
      destruct (sv_chunk _ _ _ _ (wr_sinv O R) _ _ _ _ (h_wr HH) Hc0) as (_ & Hnd0 & _). rewrite Hj in Hc6. apply (inj Some) in Hc6 as ->. exact (Hnd6 Hnd0). }
    assert (Hperm : ks ≡ₚ ps).
    { apply NoDup_Permutation; [exact HKn|exact Hpn|]. intros p. rewrite Hp. split.
      - intros H. apply elem_of_list_lookup in H as [i Hi]. destruct (Forall2_lookup_r _ _ _ _ _ HK Hi) as (x & _ & b & _ & _ & _ & _ & H & _). exact H.
      - intros (s & c & Hs & _ & Hc & Hr). destruct (reg_event O Fin V P R _ _ _ _ _ _ _ Es6 El Hs Hc Hr) as [?|(b & v & Hb & Hpos & Hv & Hd)]; [done|].
        destruct (defined_where R _ _ _ Hv Hd) as (x & y1 & -> & Hx & Hy1 & Hxs & Hin).
        assert (Hxn : si_name x <> "") by (intros E; pose proof (unnamed_zero O R _ _ Hx E) as K; simpl in K; lia).
        assert (Hxh : x ∈ homes es n) by (apply elem_homes; split; [exact Hxs|]; split; [exact Hxn|]; exists y1; split; [by eapply (names_here O NF R)|exact Hin]).
        apply elem_of_list_lookup in Hxh as [i Hi]. destruct (Forall2_lookup_l _ _ _ _ _ HK Hi) as (p' & Hp' & b' & Hb' & _ & Hev' & _).
        pose proof (sec_once _ _ _ _ _ _ _ _ R Hx Hev') as Esr. injection Esr as Eid Ej.
        assert (E1 : p.1 = p'.1) by (eapply (out_nodup O V); [exact Hb|exact Hb'|exact Eid]).
        destruct p as [p1 p2], p' as [p1' p2']. simpl in E1, Ej. subst p1' p2'. by eapply elem_of_list_lookup_2. }
    assert (HA : Forall2 (base_of w secs es) (homes es n) (rest_base r6 <$> ks)).
    { clear -HK. apply Forall2_fmap_r. eapply Forall2_impl; [exact HK|]. intros x p (b & Hb & Hthe & _ & Hc & _ & Hoff).
      assert (Ho : offset_of es x (ntotal (si_size <$> take p.2 (contribs (si_name x) (all_secs es))))) by (exists p.2; done).
      exists b, (ntotal (si_size <$> take p.2 (contribs (si_name x) (all_secs es)))). split; [exact Hthe|]. split; [exact Ho|exact (Hoff _ Ho)]. }
    assert (H7 : syt_get (w_symtab w7) r = Some (fold_left step_fn (steps_at r (rest_steps w6 r6)) s6)) by (rewrite E7, steps_get, E6; reflexivity).
    destruct (steps_sum (off_of sn n) (steps_at r (rest_steps w6 r6)) s6) as (S1 & S2 & S3).
    { apply Forall_forall. intros x Hx. apply elem_of_list_filter in Hx as [Hx _]. exact Hx. }
    exists (fold_left step_fn (steps_at r (rest_steps w6 r6)) s6), (rest_base r6 <$> ks). split; [exact H7|]. split; [exact HA|].
    unfold sym_def in Ed. injection Ed as Ei _ Ev Es. rewrite <- Hc1 in Ei, Ev, Es. rewrite S1, S2, S3. split; [exact Ei|]. split; [exact Es|]. rewrite Ev, Eps. f_equal. apply ntotal_perm. by rewrite Hperm.
  Qed.
  Lemma out_addr b : b ∈ out -> alloc b = true -> 0x200000 <= addr b.
  Proof using O.
    intros Hb Ha. apply elem_of_list_lookup in Hb as [i Hi]. destruct (Forall2_lookup_r _ _ _ _ _ (oc_out O) Hi) as (a & Hra & Hd & _ & -> & _). apply elem_of_list_lookup_2 in Hra.
    exact (proj1 (ri_mem _ _ _ _ (ranges O) a Hra (eq_trans (eq_sym (decl_alloc _ _ Hd)) Ha))).
  Qed.
End links.
