(** The DT_NEEDED entries written while reading input. *)
From Verif Require Export SpecFile ProofStatic.

Definition keys_of (t : strtab) : list string := (stt_names t).*1.
Lemma goc_keys t n t' e : st_get_or_create t n = (t', e) ->
  (exists tl, stt_names t' = stt_names t ++ tl) /\ (forall k, k ∈ keys_of t' <-> k ∈ keys_of t \/ k = n) /\ (en_new e = true <-> n ∉ keys_of t) /\
  exists i, (n, (i, en_offset e)) ∈ stt_names t'.
Proof.
  intros H. pose proof (goc_assoc _ _ _ _ H) as Ha. apply assoc_Some_elem in Ha. unfold st_get_or_create in H. unfold keys_of.
  destruct (ModelTables.assoc n (stt_names t)) as [[i o]|] eqn:E; injection H as <- <-; cbn in *.
  - split; [exists []; by rewrite app_nil_r|]. assert (Hin : n ∈ (stt_names t).*1) by (apply elem_of_list_fmap; exists (n, (i, o)); split; [reflexivity|exact Ha]).
    split; [intros k; split; [by left|]; intros [?| ->]; done|]. split; [|eauto]. split; [discriminate|intros; contradiction].
  - apply assoc_None_iff in E. split; [eauto|]. split; [intros k; rewrite fmap_app, elem_of_app; change ([(n, (blen (stt_names t), stt_total_len t))].*1) with [n]; rewrite elem_of_list_singleton; reflexivity|]. split; [done|eauto].
Qed.

Section needed.
  Context (wd : world) (l : linker).
  Record needs (w : writer) (loader : string) (ns : list string) : Prop := {
    nd_entries : Forall2 (fun e n => e.1 = DT_NEEDED /\ exists i, (n, (i, e.2)) ∈ stt_names (w_dynstr w)) (w_dyn_entries w) ns;
    nd_nodup : NoDup ns;
    nd_loader : head ns = Some loader;
    nd_libs : forall n, n ∈ ns -> n = loader \/ lib_name wd l n;
    nd_keys : forall n, n ∈ keys_of (w_dynstr w) -> n = "" \/ n ∈ ns \/ lib_symbol wd l n;
    nd_refs : forall k s, syt_symbols (w_dynsym w) !! k = Some s -> k = 0 \/
      exists e so, is_lib wd l (s_reference s) e /\ file_name (s_reference s) = Some so /\ so ∈ keys_of (w_dynstr w) }.
  Definition needing (w : writer) : Prop := exists loader ns, file_name (opt_dynamic_linker (lk_options l)) = Some loader /\ needs w loader ns.

  Lemma needs_frame w w' loader ns : w_dyn_entries w' = w_dyn_entries w -> w_dynstr w' = w_dynstr w -> w_dynsym w' = w_dynsym w -> needs w loader ns -> needs w' loader ns.
  Proof. intros E1 E2 E3 []. split; rewrite ?E1, ?E2, ?E3; assumption. Qed.
  Lemma needs_more w loader ns dn dy ref so : needs w loader ns ->
    (exists tl, stt_names dn = stt_names (w_dynstr w) ++ tl) -> (forall k, k ∈ keys_of dn -> k ∈ keys_of (w_dynstr w) \/ lib_symbol wd l k) ->
    (forall k s, syt_symbols dy !! k = Some s -> s_reference s = ref \/ exists s0, syt_symbols (w_dynsym w) !! k = Some s0 /\ s_reference s = s_reference s0) ->
    (exists e, is_lib wd l ref e) -> file_name ref = Some so ->
    forall w', w_dyn_entries w' = w_dyn_entries w -> w_dynstr w' = dn -> w_dynsym w' = dy -> exists ns', needs (add_needed w' so) loader ns'.
  Proof.
    intros [N1 N2 N3 N4 N5 N6] [tl Htl] Hk Hs [e He] Hso w' E1 E2 E3. unfold add_needed. rewrite E2.
    destruct (st_get_or_create dn so) as [dn' en] eqn:Eg. destruct (goc_keys _ _ _ _ Eg) as ([tl' Htl'] & G2 & G3 & i & G4).
    assert (Hsub : forall k, k ∈ keys_of (w_dynstr w) -> k ∈ keys_of dn').
    { intros k Hk'. unfold keys_of in *. rewrite Htl', Htl, !fmap_app, !elem_of_app. tauto. }
    assert (F : Forall2 (fun e n => e.1 = DT_NEEDED /\ exists i, (n, (i, e.2)) ∈ stt_names dn') (w_dyn_entries w) ns).
    { eapply Forall2_impl; [exact N1|]. intros x n [? (j & Hj)]. split; [assumption|]. exists j. rewrite Htl', Htl, !elem_of_app. tauto. }
    assert (R : forall k s, syt_symbols dy !! k = Some s -> k = 0 \/ exists e so, is_lib wd l (s_reference s) e /\ file_name (s_reference s) = Some so /\ so ∈ keys_of dn').
    { intros k s Hks. destruct (Hs _ _ Hks) as [-> |(s0 & H0 & ->)].
      - right. exists e, so. split; [exact He|]. split; [exact Hso|]. apply G2. by right.
      - destruct (N6 _ _ H0) as [-> |(e' & so' & ? & ? & ?)]; [by left|]. right. exists e', so'. split; [assumption|]. split; [assumption|]. by apply Hsub. }
    assert (K : forall n, n ∈ keys_of dn' -> n = so \/ n = "" \/ n ∈ ns \/ lib_symbol wd l n).
    { intros n Hn. apply G2 in Hn as [Hn| ->]; [|by left]. right. destruct (Hk _ Hn) as [Hn'|?]; [|tauto]. exact (N5 _ Hn'). }
    destruct (en_new en) eqn:Enew.
    - pose proof (proj1 G3 eq_refl) as Hnew. exists (ns ++ [so]). split; cbn; rewrite ?E1, ?E3.
      + apply Forall2_app; [exact F|]. constructor; [|constructor]. split; [reflexivity|]. eauto.
      + apply NoDup_app. split; [exact N2|]. split; [|apply NoDup_singleton]. intros n Hn Hn'. apply elem_of_list_singleton in Hn'. subst n. apply Hnew.
        apply elem_of_list_lookup in Hn as [j Hj]. destruct (Forall2_lookup_r _ _ _ _ _ N1 Hj) as (x & _ & _ & (j' & Hj')). unfold keys_of. rewrite Htl.
        apply elem_of_list_fmap. eexists. split; [|apply elem_of_app; left; exact Hj']. reflexivity.
      + destruct ns as [|n0 ns]; [discriminate N3|exact N3].
      + intros n Hn. apply elem_of_app in Hn as [Hn|Hn]; [by apply N4|]. apply elem_of_list_singleton in Hn. subst n. right. exists ref, e. by split.
      + intros n Hn. destruct (K _ Hn) as [-> |[?|[?|?]]]; [right; left; apply elem_of_app; right; apply elem_of_list_singleton; reflexivity|by left|right; left; apply elem_of_app; by left|tauto].
      + exact R.
    - exists ns. split; cbn; rewrite ?E1, ?E3; try assumption.
      intros n Hn. destruct (K _ Hn) as [-> |[?|[?|?]]]; [|by left|tauto|tauto]. destruct (decide (so ∈ keys_of dn)) as [Hin|Hni]; [|apply G3 in Hni; discriminate Hni].
      destruct (Hk _ Hin) as [Hn'|?]; [exact (N5 _ Hn')|tauto].
  Qed.
  Lemma resolve_needs lo fuel w : resolve wd lo l fuel = Ok w -> needing w.
  Proof.
    apply (resolve_inv wd l needing).
    - intros w1 e name sh data w' r (ld & ns & Hl & H1) _ _ H. exists ld, ns. split; [exact Hl|]. unfold add_section in H. destruct (st_get_or_create (w_shstrtab w1) name) as [nm en].
      cbv zeta in H. destruct (en_new en); [injection H as <- <-; eapply needs_frame; [..|exact H1]; reflexivity|]. apply bind_Ok in H as (s & _ & H).
      destruct data; [injection H as <- <-; eapply needs_frame; [..|exact H1]; reflexivity|]. destruct (sc_chunks _); [discriminate H|injection H as <- <-; eapply needs_frame; [..|exact H1]; reflexivity].
    - intros w1 e sym sr name ref w' r (ld & ns & Hl & H1) _ _ _ H. exists ld, ns. split; [exact Hl|]. unfold add_symbol in H. apply bind_Ok in H as ([[[nm sy] secs] r0] & Hi & [= <- <-]).
      eapply needs_frame; [..|exact H1]; reflexivity.
    - intros w1 rel r sr w' (ld & ns & Hl & H1) H. exists ld, ns. split; [exact Hl|]. unfold add_relocation in H. cbv zeta in H. destruct (_ || _); [done|]. apply bind_Ok in H as (s & _ & [= <-]).
      eapply needs_frame; [..|exact H1]; reflexivity.
    - intros w1 path e sym name so w' r (ld & ns & Hl & H1) Hlib Hsym Hname Hso _ H. unfold add_dyn_symbol in H. cbv zeta in H. apply bind_Ok in H as ([[[nm sy] secs] r0] & Hi & H).
      unfold add_symbol_inner in Hi. destruct (st_get_or_create (w_dynstr w1) name) as [dn en] eqn:Eg. destruct (goc_keys _ _ _ _ Eg) as (Htl & G2 & _).
      destruct (syt_add_symbol (w_dynsym w1) _ _ _ path) as [[sy' r']|] eqn:Ea; [|discriminate Hi]. injection Hi as <- <- <- <-.
      assert (Hsy : forall k s, syt_symbols sy' !! k = Some s -> s_reference s = path \/ exists s0, syt_symbols (w_dynsym w1) !! k = Some s0 /\ s_reference s = s_reference s0).
      { intros k s Hk. unfold syt_add_symbol in Ea. cbv zeta in Ea. destruct (_ =? _).
        - injection Ea as <- <-. cbn in Hk. right. eauto.
        - destruct (syt_symbols (w_dynsym w1) !! _) as [old|] eqn:Eo.
          + destruct (merge_symbol old _) as [m|] eqn:Em; [|discriminate Ea]. injection Ea as <- <-. cbn in Hk. apply lookup_insert_Some in Hk as [[<- <-]|[_ Hk]]; [|right; eauto].
            right. exists old. split; [exact Eo|]. unfold merge_symbol in Em. destruct (_ && _); [discriminate Em|]. destruct (negb _); [injection Em as <-; reflexivity|]. destruct (_ =? _); injection Em as <-; reflexivity.
          + destruct (is_local _); injection Ea as <- <-; cbn in Hk; (apply lookup_insert_Some in Hk as [[<- <-]|[_ Hk]]; [left; reflexivity|right; eauto]). }
      assert (Hex : exists ns', needs (add_needed w' so) ld ns').
      { eapply (needs_more w1 ld ns dn sy' path so H1 Htl).
        - intros k Hk. apply G2 in Hk as [?| ->]; [by left|]. right. exists path, e, sym. done.
        - exact Hsy.
        - eauto.
        - exact Hso.
        - destruct (st_get _ _); [apply bind_Ok in H as (x & _ & [= <- <-])|injection H as <- <-]; reflexivity.
        - destruct (st_get _ _); [apply bind_Ok in H as (x & _ & [= <- <-])|injection H as <- <-]; reflexivity.
        - destruct (st_get _ _); [apply bind_Ok in H as (x & _ & [= <- <-])|injection H as <- <-]; reflexivity. }
      destruct Hex as [ns' Hex]. exists ld, ns'. split; assumption.
    - intros w0 H0. Local Transparent writer_new. unfold writer_new in H0. apply bind_Ok in H0 as (n & Hn & H0). apply unwrap_Ok in Hn.
      destruct (st_get_or_create st_default n) as [dn ie] eqn:Ed. cbv zeta in H0.
      repeat lazymatch type of H0 with (let '(_, _) := ?x in _) = _ => destruct x end. injection H0 as <-. Local Opaque writer_new.
      destruct (goc_keys _ _ _ _ Ed) as (_ & G2 & G3 & i & G4). exists n, [n]. split; [exact Hn|]. split; cbn.
      + constructor; [|constructor]. split; [reflexivity|]. eauto.
      + apply NoDup_singleton.
      + reflexivity.
      + intros kk Hk. apply elem_of_list_singleton in Hk. by left.
      + intros kk Hk. apply G2 in Hk as [Hk| ->]; [left; by apply elem_of_list_singleton in Hk|]. right; left. apply elem_of_list_singleton; reflexivity.
      + intros kk sym0 Hk. apply lookup_singleton_Some in Hk as [<- <-]. by left.
  Qed.
End needed.
