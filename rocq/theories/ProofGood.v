(** Names reported as undefined are wanted by a symbol that is not local. *)
From Verif Require Export SpecGood ProofComplete.
From Verif Require Import ProofErrors ProofSyms ProofMissing ProofTables ProofSym ProofBase.

Lemma merge_bind old new s : merge_symbol old new = Some s -> st_info (s_sym s) = st_info (s_sym old) \/ st_info (s_sym s) = st_info (s_sym new).
Proof.
  unfold merge_symbol. destruct (_ && _); [discriminate|]. destruct (negb _); [intros [= <-]; by right|]. destruct (_ =? _); intros [= <-]; by left.
Qed.
Lemma events_bind (evs : list sym_event) t t' k s : add_events t evs = Some t' -> syt_symbols t' !! k = Some s ->
  (exists s0, syt_symbols t !! k = Some s0 /\ st_info (s_sym s) = st_info (s_sym s0)) \/
  exists e, e ∈ evs /\ is_named e /\ st_name (ev_sym e) = k /\ st_info (s_sym s) = st_info (ev_sym e).
Proof.
  revert t. induction evs as [|e evs IH]; intros t H Hs; cbn [add_events] in H; [injection H as <-; left; eauto|].
  destruct (add_event t e) as [t1|] eqn:E1; [|discriminate H]. destruct (IH t1 H Hs) as [(s1 & H1 & Ei)|(e' & He' & K)]; [|right; exists e'; split; [by right|exact K]].
  unfold add_event, syt_add_symbol in E1. destruct (st_type (ev_sym e) =? STT_SECTION) eqn:Et.
  - injection E1 as <-. left. exists s1. split; [exact H1|exact Ei].
  - assert (Hn : is_named e). { unfold is_named, typ. intros Q. apply N.eqb_neq in Et. apply Et. unfold st_type, STT_SECTION. rewrite <- Q. change 0xf with (N.ones 4). by rewrite N.land_ones. }
    destruct (syt_symbols t !! st_name (ev_sym e)) as [old|] eqn:Eo.
    + destruct (merge_symbol old _) as [m|] eqn:Em; [|discriminate E1]. injection E1 as <-. cbn [syt_symbols set] in H1.
      change (<[st_name (ev_sym e) := m]> (syt_symbols t) !! k = Some s1) in H1. apply lookup_insert_Some in H1 as [[<- <-]|[Hne H1]]; [|left; eauto].
      apply merge_bind in Em as [Em|Em]; [left; exists old; split; [exact Eo|congruence]|]. right. exists e. split; [by left|]. split; [exact Hn|]. split; [reflexivity|]. rewrite Ei, Em. reflexivity.
    + injection E1 as <-.
      assert (H2 : <[st_name (ev_sym e) := symbol_new (ev_sym e) (ev_hash e) (ev_gnu e) (ev_file e)]> (syt_symbols t) !! k = Some s1) by (destruct (is_local _) in H1; exact H1).
      apply lookup_insert_Some in H2 as [[<- <-]|[Hne H2]]; [|left; eauto]. right. exists e. split; [by left|]. split; [exact Hn|]. split; [reflexivity|]. rewrite Ei. reflexivity.
Qed.
Lemma entry_there t n e : st_get t n = Some e -> exists i, (n, (i, en_offset e)) ∈ stt_names t.
Proof. unfold st_get. destruct (ModelTables.assoc n (stt_names t)) as [[i o]|] eqn:E; [|discriminate]. intros [= <-]. exists i. by apply assoc_Some_elem. Qed.
Lemma wanted_by wd l es evs wr k n s : reads wd l es evs wr -> stt_total_len (w_strtab wr) < 2 ^ 32 -> st_ok (w_strtab wr) -> st_name_at (w_strtab wr) k = Some n -> syt_symbols (w_symtab wr) !! k = Some s -> is_local s = false -> wants es n.
Proof.
  intros R Hf Hok Hat Hs Hl. pose proof (reads_yinv _ _ _ _ _ R) as Y. pose proof (yv_tab _ _ Y) as Ht.
  assert (Hs' : syt_symbols (strip_tab (w_symtab wr)) !! k = Some (strip s)) by (change ((strip <$> syt_symbols (w_symtab wr)) !! k = Some (strip s)); rewrite lookup_fmap, Hs; reflexivity).
  destruct (events_bind _ _ _ _ _ Ht Hs') as [(s0 & H0 & Ei)|(e & He & Hn & Hk & Ei)].
  - exfalso. change (({[ 0 := symbol_new sym0 0 0 "" ]} : gmap N symbol) !! k = Some s0) in H0. apply lookup_singleton_Some in H0 as [<- <-]. change (st_info (s_sym s) = 0) in Ei. unfold is_local, st_bind in Hl. rewrite Ei in Hl. discriminate Hl.
  - apply elem_of_list_fmap in He as (y & -> & Hy). change (off_of (w_strtab wr) (yi_name y) = k) in Hk. change (st_info (s_sym s) = st_info (yi_sym y)) in Ei. change (typ (yi_sym y) <> 3) in Hn.
    assert (Hky : is_Some (st_get (w_strtab wr) (yi_name y))) by (apply (yv_names _ _ Y); right; eauto).
    assert (En : yi_name y = n).
    { destruct Hky as [en Hen]. unfold off_of in Hk. rewrite Hen in Hk. apply entry_there in Hen as [i Hi]. unfold st_name_at in Hat. apply name_in_Some_elem in Hat as [i' Hi'].
      apply (name_inj _ _ _ _ _ _ _ Hok Hf Hi Hi'). rewrite Hk. pose proof (entry_off_lt _ _ _ _ Hok Hi') as Q. unfold u32, wrap. rewrite N.mod_small by lia. reflexivity. }
    exists y. split.
    + unfold named. apply elem_of_list_filter. split; [split; [exact Hn|exact En]|]. by rewrite <- (ld_syms _ _ _ _ _ R).
    + intros Hb. unfold is_local, st_bind in Hl. rewrite Ei in Hl. unfold binding in Hb. rewrite N.shiftr_div_pow2 in Hl. change (2 ^ 4) with 16 in Hl. rewrite Hb in Hl. discriminate Hl.
Qed.
Lemma reported_wanted wd lo l fuel es evs ns n : valid_orders lo -> few_outputs wd lo l fuel -> short_names wd lo l fuel -> loading wd lo l fuel es evs ->
  link_writer wd lo l fuel = Err (EUndefined ns) -> n ∈ ns -> wants es n.
Proof.
  intros (V & Hu & Hm) F S L E Hn. destruct (reported wd lo l fuel ns es evs V Hu Hm E L F n Hn) as (wr & k & s & Hr & R & Hk & Hnm & Hs & Z0 & D0 & L0).
  assert (Hat : st_name_at (w_strtab wr) k = Some n) by (unfold symbol_name in Hnm; apply bind_Ok in Hnm as (x & Hx & [= <-]); by apply unwrap_Ok in Hx).
  destruct (ld_run _ _ _ _ _ R) as (w0 & Hw0 & HR). destruct (replay_strong _ _ _ HR (up_tidy _ _ (new_up [] _ _ Hw0))) as [T _].
  destruct (S _ Hr) as (_ & S2 & _). exact (wanted_by _ _ _ _ _ _ _ _ R S2 (proj1 T) Hat Hs L0).
Qed.
