(** Looking up names through the hash sections of a finished link. *)
From Verif Require Export SpecHashLink ProofGnuHash ProofFields.

(** * Searches depend on which entries are accepted only *)
Lemma sysv_search_ext f data nb a b y : (forall j, a j = b j) -> sysv_search f data nb a y = sysv_search f data nb b y.
Proof.
  intros E. revert y; induction f as [|f IH]; intros y; [reflexivity|]. cbn. rewrite E. destruct (y =? 0); [reflexivity|]. destruct (b y); [reflexivity|].
  destruct (w32 _ _); [apply IH|reflexivity].
Qed.
Lemma sysv_lookup_ext data a b h : (forall j, a j = b j) -> sysv_lookup data a h = sysv_lookup data b h.
Proof.
  intros E. unfold sysv_lookup. destruct (w32 data 0) as [nb|]; [|reflexivity]. cbn [mbind option_bind]. destruct (w32 data 1); [|reflexivity]. cbn [mbind option_bind].
  destruct (w32 data _); [|reflexivity]. cbn [mbind option_bind]. by apply sysv_search_ext.
Qed.
Lemma gnu_search_ext f data c0 off a b h y : (forall j, off <= j -> a j = b j) -> off <= y -> gnu_search f data c0 off a h y = gnu_search f data c0 off b h y.
Proof.
  intros E. revert y; induction f as [|f IH]; intros y Hy; [reflexivity|]. cbn. destruct (w32 _ _); [|reflexivity]. cbn [mbind option_bind]. rewrite E by exact Hy.
  destruct (_ && _); [reflexivity|]. destruct (N.odd _); [reflexivity|]. apply IH. lia.
Qed.
Lemma gnu_lookup_ext data a b h : w32 data 1 = Some 1 -> (forall j, 1 <= j -> a j = b j) -> gnu_lookup data a h = gnu_lookup data b h.
Proof.
  intros H1 E. unfold gnu_lookup. destruct (w32 data 0) as [nb|]; [|reflexivity]. cbn [mbind option_bind]. rewrite H1. cbn [mbind option_bind].
  destruct (w32 data 2) as [sz|]; [|reflexivity]. cbn [mbind option_bind]. destruct (bloom_pass _ _) as [[|]|]; [|reflexivity|reflexivity]. cbn [mbind option_bind].
  clear H1. destruct (w32 data _) as [y|]; [|reflexivity]. cbn [mbind option_bind]. destruct (y <? 1) eqn:Hy; [reflexivity|]. apply N.ltb_ge in Hy. by apply gnu_search_ext.
Qed.

(** * The null symbol of .dynsym is its only local one *)
Definition dinv (w : writer) : Prop := stt_total_len (w_dynstr w) < 2^32 ->
  (exists d, syt_symbols (w_dynsym w) !! 0 = Some d /\ binding (s_sym d) = 0 /\ s_hash d = 0 /\ s_gnu_hash d = 0) /\
  forall n s, syt_symbols (w_dynsym w) !! n = Some s -> n <> 0 -> binding (s_sym s) <> 0 /\
    exists name i o, (name, (i, o)) ∈ stt_names (w_dynstr w) /\ n = u32 o /\ nonul name.
Definition dynv (w : writer) : Prop := names_reach w /\ dinv w.

Lemma merge_binding old new s : merge_symbol old new = Some s -> binding (s_sym s) = binding (s_sym old) \/ binding (s_sym s) = binding (s_sym new).
Proof.
  unfold merge_symbol. destruct (_ && _ && _ && _); [discriminate|]. destruct (negb _); [intros [= <-]; by right|]. destruct (_ =? _); intros [= <-]; by left.
Qed.
Lemma dinv_frame w w' : names_reach w -> names_reach w' -> w_dynsym w' = w_dynsym w -> extends (w_dynstr w) (w_dynstr w') -> dinv w -> dinv w'.
Proof.
  intros R R' E X H Hs. pose proof (extends_total _ _ (st_reach_ok _ (proj2 R)) (st_reach_ok _ (proj2 R')) X) as Hle. destruct (H ltac:(lia)) as [H1 H2]. rewrite E. split; [exact H1|].
  intros n s Hn N0. destruct (H2 _ _ Hn N0) as (B & nm & i & o & I & K). split; [exact B|]. exists nm, i, o. split; [by apply (extends_elem (w_dynstr w))|exact K].
Qed.
Lemma dynv_needed w so : dynv w -> dynv (add_needed w so).
Proof.
  intros [R H]. assert (R' : names_reach (add_needed w so) /\ w_dynsym (add_needed w so) = w_dynsym w /\ extends (w_dynstr w) (w_dynstr (add_needed w so))).
  { unfold add_needed. destruct (st_get_or_create (w_dynstr w) so) as [nm en] eqn:E. destruct (goc_keys _ _ _ _ E) as (Hx & _). pose proof (goc_reach _ _ _ _ E (proj2 R)).
    destruct (en_new en); (split; [split; [exact (proj1 R)|assumption]|split; [reflexivity|exact Hx]]). }
  destruct R' as (R' & E & X). split; [exact R'|]. exact (dinv_frame _ _ R R' E X H).
Qed.
Lemma empty_entry t : st_ok t -> ("", (0, 0)) ∈ stt_names t.
Proof. intros [_ _ _ [rest ->]]. apply elem_of_list_here. Qed.

Section dyn.
  Context (wd : world) (l : linker) (PL : plain_libs wd l) (TL : tidy_libs wd l).
  Lemma resolve_dynv lo fuel w : resolve wd lo l fuel = Ok w -> dynv w.
  Proof using PL TL.
    intros H. pose proof (resolve_reach _ _ _ _ _ H) as HR. revert H. apply (resolve_inv wd l dynv).
    - intros w1 e name sh data w' r [H1 H2] _ _ H. unfold add_section in H. destruct (st_get_or_create (w_shstrtab w1) name) as [nm en].
      cbv zeta in H. destruct (en_new en); [injection H as <- <-; done|]. apply bind_Ok in H as (s & _ & H).
      destruct data; [by injection H as <- <-|]. destruct (sc_chunks _); [done|by injection H as <- <-].
    - intros w1 e sym sr name ref w' r [H1 H2] _ _ _ H. unfold add_symbol in H. apply bind_Ok in H as ([[[nm sy] secs] r0] & Hi & [= <- <-]).
      split; [split; [exact (inner_reach _ _ _ _ _ _ _ _ _ _ _ Hi (proj1 H1))|exact (proj2 H1)]|exact H2].
    - intros w1 rel r sr w' HP H. unfold add_relocation in H. cbv zeta in H. destruct (_ || _); [done|]. apply bind_Ok in H as (s & _ & [= <-]). exact HP.
    - intros w1 path e sym name so w' r [R HD] Hlib Hsym Hname _ _ H. apply dynv_needed. unfold add_dyn_symbol in H. cbv zeta in H. apply bind_Ok in H as ([[[nm sy] secs] r0] & Hi & H).
      destruct (TL _ _ _ _ Hlib Hsym Hname) as [Hnn Hb].
      pose proof (inner_reach _ _ _ _ _ _ _ _ _ _ _ Hi (proj2 R)) as R1.
      assert (E : w_dynsym w' = sy /\ w_dynstr w' = nm /\ names_reach w').
      { destruct (st_get _ _); [apply bind_Ok in H as (x & _ & [= <- <-])|injection H as <- <-]; (split; [reflexivity|]; split; [reflexivity|]; split; [exact (proj1 R)|exact R1]). }
      destruct E as (E1 & E2 & E3). split; [exact E3|]. unfold dinv. rewrite E1, E2. intros Hs.
      destruct (inner_table _ _ _ _ _ _ _ _ _ _ _ Hi) as (en & Hg & Ha). destruct (goc_keys _ _ _ _ Hg) as (Hx & _ & _ & i1 & Hi1).
      pose proof (extends_total _ _ (st_reach_ok _ (proj2 R)) (st_reach_ok _ R1) Hx) as Hle. destruct (HD ltac:(lia)) as [(d0 & D1 & D2 & D3 & D4) HN].
      apply add_sym_cases in Ha as [(Ht & _)|(_ & _ & _ & s2 & Hsy & Hc)]; [exfalso; exact (PL _ _ _ Hlib Hsym Ht)|].
      set (m1 := u32 (en_offset en)) in *. change (syt_symbols sy = <[m1:=s2]> (syt_symbols (w_dynsym w1))) in Hsy. 
      match type of Hc with context [symbol_new ?x ?h ?g ?p] => set (new := symbol_new x h g p) in * end.
      change (st_name _) with m1 in Hc. assert (Hbn : binding (s_sym new) = binding sym) by reflexivity.
      assert (H0 : m1 = 0 <-> name = "").
      { split.
        - intros E. eapply (name_inj nm); [exact (st_reach_ok _ R1)|exact Hs|exact Hi1|apply (empty_entry _ (st_reach_ok _ R1))|]. rewrite <- (eq_refl : u32 0 = 0) in E. exact E.
        - intros ->. destruct (key_inj _ _ _ _ _ _ (st_reach_ok _ R1) Hi1 (empty_entry _ (st_reach_ok _ R1))) as [_ E]. unfold m1. by rewrite E. }
      rewrite Hsy. split.
      + destruct (decide (m1 = 0)) as [E|Hne].
        * rewrite E in *. rewrite lookup_insert. exists s2. split; [reflexivity|]. destruct Hc as [[Hn _]|(old & Ho & Hm)]; [rewrite D1 in Hn; discriminate Hn|].
          rewrite D1 in Ho. injection Ho as <-. destruct (merge_keeps _ _ _ Hm) as (_ & M2 & M3 & _). rewrite M2, M3. split; [|split; [exact D3|exact D4]].
          destruct (merge_binding _ _ _ Hm) as [-> | ->]; [exact D2|]. rewrite Hbn. apply Hb, H0. reflexivity.
        * rewrite lookup_insert_ne by exact Hne. exists d0. by split_and!.
      + intros n s Hn N0. apply lookup_insert_Some in Hn as [[<- <-]|[_ Hn]].
        * split; [|exists name, i1, (en_offset en); split; [exact Hi1|split; [reflexivity|exact Hnn]]]. assert (Bn : binding (s_sym new) <> 0) by (rewrite Hbn, Hb, <- H0; exact N0).
          destruct Hc as [[_ ->]|(old & Ho & Hm)]; [exact Bn|]. destruct (HN _ _ Ho N0) as [Bo _]. by destruct (merge_binding _ _ _ Hm) as [-> | ->].
        * destruct (HN _ _ Hn N0) as (B & x & i & o & I & K). split; [exact B|]. exists x, i, o. split; [by apply (extends_elem (w_dynstr w1))|exact K].
    - intros w0 H0. split; [by eapply writer_new_strs|]. intros _. destruct (writer_new_ref _ _ H0) as (_ & _ & _ & _ & _ & _ & ->). split.
      + eexists. split; [apply lookup_singleton|]. split_and!; reflexivity.
      + intros n s Hs N0. cbn in Hs. apply lookup_singleton_Some in Hs as [<- _]. by destruct N0.
  Qed.
End dyn.

Lemma ref_hash st : match ref_writer st with Ok w => ((if w_hash w then true else false), (if w_gnu_hash w then true else false)) | _ => (false, false) end =
  match st with HSysv => (true, false) | HGnu => (false, true) | HBoth => (true, true) end.
Proof. destruct st; vm_compute; reflexivity. Qed.
Lemma row_synth st i ty sy f b a : (ref_common ++ match st with HSysv => [ref_hash_row] | HGnu => [ref_gnu_row] | HBoth => [ref_hash_row; ref_gnu_row] end) !! i = Some (ty, f, b, sy, a) ->
  (ty = 5 -> sy = Some KHash /\ (14 <= i)%nat /\ st <> HGnu) /\ (ty = 0x6ffffff6 -> sy = Some KGnuHash /\ (14 <= i)%nat /\ st <> HSysv).
Proof.
  destruct st; do 14 (destruct i as [|i]; [intros [= <- _ _ _ _]; split; discriminate|]); (destruct i as [|i]; [|destruct i as [|i]; [|intros [=]]]);
    first [discriminate|intros [= <- _ _ <- _]; split; first [discriminate|intros _; split; [reflexivity|split; [lia|discriminate]]]].
Qed.
Lemma own_row_type hs i n ty al e : own_rows hs !! i = Some (n, ty, al, e) -> (n = ".hash" -> ty = 5) /\ (n = ".gnu.hash" -> ty = 0x6ffffff6).
Proof.
  assert (HB : forallb (fun r : string * N * bool * N => implb (bool_decide (r.1.1.1 = ".hash")) (r.1.1.2 =? 5) && implb (bool_decide (r.1.1.1 = ".gnu.hash")) (r.1.1.2 =? 0x6ffffff6)) (own_rows hs) = true) by (destruct hs; vm_compute; reflexivity).
  rewrite forallb_forall in HB. intros Hi. apply elem_of_list_lookup_2, elem_of_list_In, HB in Hi. cbn [fst snd] in Hi. apply andb_true_iff in Hi as [H1 H2].
  split; intros E; [rewrite bool_decide_eq_true_2 in H1 by exact E; by apply N.eqb_eq in H1|rewrite bool_decide_eq_true_2 in H2 by exact E; by apply N.eqb_eq in H2].
Qed.
Lemma row_at {A B} (f : A -> B) (k : list A) (l : list B) (i : nat) (x : A) : f <$> k = l -> k !! i = Some x -> l !! i = Some (f x).
Proof. intros <- H. by rewrite list_lookup_fmap, H. Qed.

Section hashlink.
  Context {wd : world} {lo : lib_oracle} {l : linker} {fuel : nat} {w : writer} {secs : list section}
    {w0 wr ws w1 : writer} {extra : N} {null : section} {rest rest' : list section} {st : layout} {w3 w4 w5 w6 w7 : writer}
    {null' : section} {out : list section}.
  Context (O : outcome wd lo l fuel w secs w0 wr ws w1 extra null rest rest' st w3 w4 w5 w6 w7 null' out).
  Context (Fin : mapM_res (sec_finalize (lo_writer lo) w) (w_sections w) = Ok secs).
  Context (V : valid_oracle (lo_writer lo)) (P : plain_inputs wd l) (PL : plain_libs wd l) (NF : names_fit w) (SF : symbols_fit w) (TL : tidy_libs wd l).
  Let o := lo_writer lo.
  Let hs := opt_hash_style (lk_options l).
  Let syms := syt_sorted (o_dyn (lo_writer lo)) (w_dynsym wr).

  (** ** The bytes of the hash sections *)
  Lemma hash_bytes h n : (n = ".hash" \/ n = ".gnu.hash") -> the_sec w secs n h ->
    contents h = if bool_decide (n = ".hash") then ser_hashtab (default ht_default (w_hash w1)) else ser_gnutab (default gt_default (w_gnu_hash w1)).
  Proof using O Fin V P NF.
    intros Hn (Hh & Hnm & _). destruct (secs_class O Fin V P h (proj1 NF) Hh) as (n' & Hn' & Hc). rewrite Hnm in Hn'. injection Hn' as <-.
    destruct Hc as [(e & Hrow)|(Hres & _)].
    2: { exfalso. apply Hres. destruct Hn as [-> | ->]; apply (bool_decide_unpack _); vm_compute; exact I. }
    assert (Hlt : (sc_id h < length (w_sections w0))%nat).
    { rewrite (writer_new_sections _ _ (oc_new O)), fmap_length. pose proof (ref_fulls hs) as E. apply (f_equal length) in E. rewrite !fmap_length in E. unfold hs in E. rewrite E. by apply lookup_lt_Some in Hrow. }
    assert (Hout : h ∈ out).
    { rewrite (oc_secs O) in Hh. apply elem_of_cons in Hh as [->|Hh]; [|exact Hh]. exfalso. destruct (null_facts O) as (N0 & _). rewrite N0 in Hrow. cbn in Hrow. injection Hrow as <- _ _ _. destruct Hn as [E|E]; discriminate E. }
    apply elem_of_list_lookup in Hout as [i Hi]. destruct (history O Fin V) as (pd & gd & Hpp & HH). destruct (HH _ _ Hi) as (a0 & a1 & a3 & a6 & a7 & H).
    rewrite (own_contents O V P _ _ _ _ _ _ _ _ _ H Hpp Hlt). pose proof (h_wr H) as Hw. pose proof (h_pos H) as Hp.
    rewrite (pv_fixed _ _ _ _ _ (wr_pinv O P) _ (conj Hp Hlt)) in Hw. rewrite (writer_new_sections _ _ (oc_new O)), list_lookup_fmap in Hw.
    destruct (ref_sections (opt_hash_style (lk_options l)) !! sc_id h) as [r|] eqn:Er; [|discriminate Hw]. cbn [fmap option_fmap option_map] in Hw. apply (inj Some) in Hw.
    destruct (hist_decl _ _ _ _ _ _ _ _ _ H) as (D0 & _). 
    assert (Es : sc_synth h = sc_synth r /\ sh_type (sc_sh h) = sh_type (sc_sh r)).
    { rewrite (decl_synth _ _ D0), (decl_type _ _ D0), <- Hw. unfold with_loader. destruct (_ =? _)%nat; split; reflexivity. }
    destruct Es as [Es Et]. pose proof (row_at _ _ _ _ _ (ref_rows _) Er) as R. unfold ref_row in R. apply row_synth in R. rewrite <- Et, <- Es in R.
    destruct (own_row_type _ _ _ _ _ _ Hrow) as [T1 T2]. destruct R as [R1 R2]. clear -Hn R1 R2 T1 T2.
    revert R1 R2 T1 T2. generalize (sc_id h) as i, (sc_synth h) as sy, (sh_type (sc_sh h)) as ty. intros i sy ty R1 R2 T1 T2.
    destruct Hn as [-> | ->].
    - rewrite bool_decide_eq_true_2 by reflexivity. destruct (R1 (T1 eq_refl)) as (-> & Hge & _). do 14 (destruct i as [|i]; [lia|]). reflexivity.
    - rewrite bool_decide_eq_false_2 by discriminate. destruct (R2 (T2 eq_refl)) as (-> & Hge & _). do 14 (destruct i as [|i]; [lia|]). reflexivity.
  Qed.
  Lemma hash_style n h : the_sec w secs n h -> (n = ".hash" -> hs <> HGnu) /\ (n = ".gnu.hash" -> hs <> HSysv).
  Proof using O Fin V P NF.
    intros (Hh & Hnm & _). destruct (secs_class O Fin V P h (proj1 NF) Hh) as (n' & Hn' & Hc). rewrite Hnm in Hn'. injection Hn' as <-.
    fold hs in Hc. split; intros ->; (destruct Hc as [(e & Hrow)|(Hres & _)]; [|exfalso; apply Hres; apply (bool_decide_unpack _); vm_compute; exact I]).
    - intros E. rewrite E in Hrow. revert Hrow. generalize (sc_id h) as i. intros i. do 15 (destruct i as [|i]; [intros [=]|]). intros [=].
    - intros E. rewrite E in Hrow. revert Hrow. generalize (sc_id h) as i. intros i. do 15 (destruct i as [|i]; [intros [=]|]). intros [=].
  Qed.
  Lemma hash_tables : (hs <> HGnu -> exists t, w_hash w1 = Some t /\ ht_add_symbols (s_hash <$> syms) = Ok t) /\
    (hs <> HSysv -> exists t, w_gnu_hash w1 = Some t /\ gt_add_symbols (s_gnu_hash <$> syms) = Ok t).
  Proof using O.
    destruct (sz_hash _ _ _ _ _ (rn_sizing (oc_run O))) as (wh & Hf & -> & ->). destruct (ws_fields O) as (E & _). rewrite E in Hf. fold syms in Hf. apply fill_hash_frame in Hf as (_ & F1 & F2).
    destruct (scan_flat _ _ (sz_scan _ _ _ _ _ (rn_sizing (oc_run O)))) as (sn & _ & Es). assert (E1 : w_hash ws = w_hash wr) by (rewrite Es; reflexivity). assert (E2 : w_gnu_hash ws = w_gnu_hash wr) by (rewrite Es; reflexivity).
    destruct (writer_new_ref _ _ (oc_new O)) as (_ & _ & _ & (wx & Hx & Hc) & _). pose proof (wi_const _ _ _ (oc_winv O)) as Hk. rewrite Hc in Hk. unfold wconst in Hk.
    assert (K : w_hash wr = w_hash wx /\ w_gnu_hash wr = w_gnu_hash wx) by (split; congruence). destruct K as [K1 K2]. rewrite E1, K1 in F1. rewrite E2, K2 in F2.
    pose proof (ref_hash hs) as R. unfold hs in R. rewrite Hx in R. fold hs in R. clear -F1 F2 R. destruct (w_hash wx), (w_gnu_hash wx), hs; try discriminate R; split; intros Hne;
      try (by destruct Hne); first [exact F1|exact F2].
  Qed.

  (** ** The names of .dynsym *)
  Lemma wr_dynv : dynv wr.
  Proof using O PL TL. exact (resolve_dynv wd l PL TL _ _ _ (oc_resolve O)). Qed.
  Lemma wr_dynstr : w_dynstr w = w_dynstr wr /\ stt_total_len (w_dynstr wr) < 2^32 /\ st_reach (w_dynstr wr).
  Proof using O PL NF. destruct (run_fields (oc_run O)) as (_ & _ & E & _). split; [exact E|]. split; [exact (proj2 (wr_small O NF))|exact (proj2 (ti_reach _ (wr_tables O PL)))]. Qed.
  Definition name_of (s : symbol) : string := default "" (st_name_at (w_dynstr wr) (st_name (s_sym s))).
  Lemma syms_elem s : s ∈ syms -> syt_symbols (w_dynsym wr) !! st_name (s_sym s) = Some s /\
    exists i, (name_of s, (i, st_name (s_sym s))) ∈ stt_names (w_dynstr wr) /\ nonul (name_of s) /\ s_hash s = elf_hash (name_of s) /\
      (st_name (s_sym s) = 0 <-> name_of s = "") /\ (st_name (s_sym s) <> 0 -> s_gnu_hash s = elf_gnu_hash (name_of s) /\ binding (s_sym s) <> 0).
  Proof using O V PL TL NF.
    intros Hs. apply (elem_of_sorted _ _ _ (vo_dyn _ V)) in Hs as [n Hn]. destruct (ti_dyn _ (wr_tables O PL) _ _ Hn) as (En & nm & i & of' & Hi & Eo & Hh). rewrite En. split; [exact Hn|].
    destruct wr_dynstr as (_ & Hlt & Hr). pose proof (st_reach_ok _ Hr) as Hok. destruct wr_dynv as [_ HD]. destruct (HD Hlt) as [(d & D1 & D2 & D3 & D4) HN].
    pose proof (entry_off_lt _ _ _ _ Hok Hi) as Hof. assert (Eo' : n = of') by (rewrite Eo; unfold u32, wrap; rewrite N.mod_small by lia; reflexivity). clear Eo. subst of'.
    assert (Hnm : name_of s = nm).
    { unfold name_of. rewrite En. apply elem_of_list_lookup in Hi as [j Hj]. pose proof (entry_name _ _ _ _ _ Hr Hlt Hj) as E. unfold u32, wrap in E. rewrite N.mod_small in E by lia. rewrite E. reflexivity. }
    rewrite Hnm. exists i. split; [exact Hi|].
    assert (H0 : n = 0 <-> nm = "").
    { pose proof (empty_entry _ Hok) as He. split.
      - intros ->. eapply name_inj; [exact Hok|exact Hlt|exact Hi|exact He|reflexivity].
      - intros ->. by destruct (key_inj _ _ _ _ _ _ Hok Hi He) as [_ E]. }
    split; [|split; [|split; [exact H0|]]].
    - destruct (decide (n = 0)) as [E|Hne]; [apply H0 in E; rewrite E; intros HX; inversion HX|]. destruct (HN _ _ Hn Hne) as (_ & x & j & p & Hx & Ep & Hnn).
      pose proof (entry_off_lt _ _ _ _ Hok Hx). rewrite <- (name_inj _ _ _ _ _ _ _ Hok Hlt Hx Hi); [exact Hnn|]. rewrite <- Ep. unfold u32, wrap. rewrite N.mod_small by lia. reflexivity.
    - destruct (decide (n = 0)) as [E|Hne]; [|destruct Hh as [E|[E _]]; [contradiction|exact E]]. rewrite E in Hn. rewrite D1 in Hn. injection Hn as <-. apply H0 in E. rewrite E, D3. reflexivity.
    - intros Hne. destruct Hh as [E|[_ E]]; [contradiction|]. split; [exact E|]. exact (proj1 (HN _ _ Hn Hne)).
  Qed.
  Lemma syms_head : exists d tl, syms = d :: tl /\ st_name (s_sym d) = 0.
  Proof using O V PL TL NF.
    destruct wr_dynstr as (_ & Hlt & _). destruct wr_dynv as [_ HD]. destruct (HD Hlt) as [(d & D1 & D2 & D3 & D4) HN].
    assert (Hd : d ∈ syms) by (apply (elem_of_sorted _ _ _ (vo_dyn _ V)); eauto). pose proof (sorted_sorted (o_dyn (lo_writer lo)) (w_dynsym wr)) as HS. fold syms in HS.
    assert (Hk : forall s, s ∈ syms -> st_name (s_sym s) <> 0 -> binding (s_sym s) <> 0).
    { intros s Hs Hne. destruct (syms_elem s Hs) as (_ & i & _ & _ & _ & _ & K). exact (proj2 (K Hne)). }
    assert (Ek : st_name (s_sym d) = 0) by exact (proj1 (ti_dyn _ (wr_tables O PL) _ _ D1)).
    clear HN. destruct syms as [|a tl]; [by apply elem_of_nil in Hd|]. exists a, tl. split; [reflexivity|]. apply elem_of_cons in Hd as [<-|Hd]; [exact Ek|].
    destruct (decide (st_name (s_sym a) = 0)) as [E|Hne]; [exact E|]. exfalso. pose proof (Hk a (elem_of_list_here _ _) Hne) as Hb. apply StronglySorted_inv in HS as [_ HF].
    rewrite Forall_forall in HF. specialize (HF d Hd). unfold le_rel, sort_symbols_le in HF. rewrite <- is_local_iff in Hb. apply is_local_iff in D2. rewrite D2 in HF.
    destruct (is_local a); [by destruct Hb|]. discriminate HF.
  Qed.
  Definition names : list string := name_of <$> syms.
  Lemma names_hash : elf_hash <$> names = s_hash <$> syms.
  Proof using O V PL TL NF.
    unfold names. rewrite <- list_fmap_compose. apply list_fmap_ext. intros i s Hi. apply elem_of_list_lookup_2 in Hi. destruct (syms_elem s Hi) as (_ & j & _ & _ & E & _). symmetry. exact E.
  Qed.
  Lemma names_nodup : NoDup names.
  Proof using O V PL TL NF.
    assert (HK : keyed (w_dynsym wr)) by (intros n s Hn; exact (proj1 (ti_dyn _ (wr_tables O PL) _ _ Hn))).
    pose proof (sorted_names_nodup (o_dyn (lo_writer lo)) (w_dynsym wr) (vo_dyn _ V) HK) as ND. fold syms in ND. unfold names.
    destruct wr_dynstr as (_ & Hlt & Hr). pose proof (st_reach_ok _ Hr) as Hok.
    apply NoDup_alt. intros i j x Hi Hj. rewrite list_lookup_fmap in Hi, Hj. destruct (syms !! i) as [a|] eqn:Ea; [|discriminate Hi]. destruct (syms !! j) as [b|] eqn:Eb; [|discriminate Hj].
    cbn [fmap option_fmap option_map] in Hi, Hj. apply (inj Some) in Hi, Hj.
    destruct (syms_elem a (elem_of_list_lookup_2 _ _ _ Ea)) as (_ & p & Ha & _). destruct (syms_elem b (elem_of_list_lookup_2 _ _ _ Eb)) as (_ & q & Hb & _). rewrite Hi in Ha. rewrite Hj in Hb.
    destruct (key_inj _ _ _ _ _ _ Hok Ha Hb) as [_ E]. eapply (NoDup_lookup _ _ _ _ ND); rewrite list_lookup_fmap; [rewrite Ea; reflexivity|rewrite Eb; cbn; by rewrite E].
  Qed.
  Lemma dyn_names ds sd j : the_sec w secs ".dynsym" ds -> the_sec w secs ".dynstr" sd ->
    dyn_name ds sd j = string_bytes <$> names !! N.to_nat j /\ filesz ds = 24 * N.of_nat (length names).
  Proof using O Fin V P PL TL NF SF.
    intros Hds Hsd. destruct (own_all O Fin V P NF) as (pd & gd & _ & Hown).
    destruct (Hown 9%nat ".dynsym") as [ds' Ods]; [lia|destruct (opt_hash_style (lk_options l)); vm_compute; reflexivity|]. destruct (Hown 3%nat ".dynstr") as [sd' Osd]; [lia|destruct (opt_hash_style (lk_options l)); vm_compute; reflexivity|].
    rewrite <- (the_one _ _ _ _ _ (os_the _ _ _ _ _ Ods) Hds) in Ods. rewrite <- (the_one _ _ _ _ _ (os_the _ _ _ _ _ Osd) Hsd) in Osd.
    rewrite (os_size _ _ _ _ _ Ods). unfold dyn_name. rewrite (os_bytes _ _ _ _ _ Ods), (os_bytes _ _ _ _ _ Osd). cbn [fixed_bytes]. destruct wr_dynstr as (E & Hlt & Hr). rewrite E. clear Ods Osd Hown.
    destruct (keeps_all O sym_static) as [_ K]. pose proof (patched_sorted (o_dyn (lo_writer lo)) _ _ (keeps_patched _ _ K)) as F2. fold syms in F2.
    split.
    - rewrite <- (N2Nat.id j) at 1. rewrite (rd_chunk_sym _ _ _ (vo_dyn _ V) (proj2 SF)). unfold names. rewrite list_lookup_fmap.
      destruct (syms !! N.to_nat j) as [s|] eqn:Es.
      + destruct (Forall2_lookup_l _ _ _ _ _ F2 Es) as (s' & Hs' & Ks & _). rewrite Hs'. cbn [fmap option_fmap option_map mbind option_bind]. rewrite Ks.
        destruct (syms_elem s (elem_of_list_lookup_2 _ _ _ Es)) as (_ & i & Hi & Hnn & _). apply elem_of_list_lookup in Hi as [x Hx]. eapply cstr_at_entry; [exact (st_reach_ok _ Hr)|exact Hx|exact Hnn].
      + apply lookup_ge_None in Es. rewrite (Forall2_length _ _ _ F2) in Es. rewrite (lookup_ge_None_2 _ _ Es). reflexivity.
    - unfold syt_chunk_data, blen. rewrite (bind_length _ _ 24) by (intros; apply ser_sym_length). unfold names. rewrite fmap_length, (Forall2_length _ _ _ F2). lia.
  Qed.
  Lemma names_few : N.of_nat (length names) < 2^32.
  Proof using O V PL TL NF.
    unfold names, syms. rewrite fmap_length, (sorted_length _ _ (vo_dyn _ V)). destruct wr_dynstr as (_ & Hlt & Hr). pose proof (st_reach_ok _ Hr) as Hok.
    enough (N.of_nat (size (syt_symbols (w_dynsym wr))) <= stt_total_len (w_dynstr wr)) by lia. apply keys_bound. intros n s Hn.
    destruct (ti_dyn _ (wr_tables O PL) _ _ Hn) as (_ & x & a & b & Hx & -> & _). pose proof (entry_off_lt _ _ _ _ Hok Hx). unfold u32. lia.
  Qed.
  Lemma name_accept ds sd n j : the_sec w secs ".dynsym" ds -> the_sec w secs ".dynstr" sd ->
    is_name ds sd (string_bytes n) j = bool_decide (names !! N.to_nat j = Some n).
  Proof using O Fin V P PL TL NF SF.
    intros Hds Hsd. unfold is_name. apply bool_decide_ext. rewrite (proj1 (dyn_names ds sd j Hds Hsd)). destruct (names !! N.to_nat j) as [x|]; [|split; discriminate].
    cbn [fmap option_fmap option_map]. split; [intros H; apply (inj Some), string_bytes_inj in H; by subst|by intros [= ->]].
  Qed.

  (** ** Lookups *)
  Theorem sysv_link h ds sd n : the_sec w secs ".hash" h -> the_sec w secs ".dynsym" ds -> the_sec w secs ".dynstr" sd ->
    (exists k, w32 (contents h) 1 = Some k /\ filesz ds = 24 * k) /\
    forall i, sysv_lookup (contents h) (is_name ds sd (string_bytes n)) (gabi_hash (string_bytes n)) = Some i <-> 1 <= i /\ dyn_name ds sd i = Some (string_bytes n).
  Proof using O Fin V P PL TL NF SF.
    intros Hh Hds Hsd. rewrite (hash_bytes h ".hash" (or_introl eq_refl) Hh), bool_decide_eq_true_2 by reflexivity.
    destruct hash_tables as [HT _]. destruct (HT (proj1 (hash_style _ _ Hh) eq_refl)) as (t & -> & Ht). cbn [default from_option id].
    rewrite <- names_hash in Ht. pose proof names_few as Hlt. split.
    - assert (Hl : length (elf_hash <$> names) = length names) by apply fmap_length. destruct (ht_build (elf_hash <$> names)) as (bs & cs & Hb & Hi); [by rewrite Hl|]. rewrite Ht in Hb. injection Hb as ->.
      destruct (hb_header (elf_hash <$> names) bs cs) as [_ H1]; [by rewrite Hl|]. eexists. split; [exact H1|]. rewrite Hl. exact (proj2 (dyn_names ds sd 0 Hds Hsd)).
    - intros i. destruct (sysv_finds names Hlt) as (t' & Ht' & F1 & F2). rewrite Ht in Ht'. injection Ht' as <-.
      rewrite (sysv_lookup_ext _ _ (fun j => bool_decide (names !! N.to_nat j = Some n)) _ (fun j => name_accept ds sd n j Hds Hsd)). rewrite <- (elf_hash_spec n).
      rewrite (proj1 (dyn_names ds sd i Hds Hsd)). split.
      + intros H. destruct (decide (n ∈ drop 1 names)) as [Hin|Hout]; [|rewrite (F2 n Hout) in H; discriminate H].
        apply elem_of_list_lookup in Hin as [k Hk]. rewrite lookup_drop in Hk. destruct (F1 (1 + k)%nat n ltac:(lia) Hk) as (j & Hj & Hn). rewrite Hj in H. injection H as <-.
        pose proof (NoDup_lookup _ _ _ _ names_nodup Hk Hn) as E. split; [lia|]. rewrite Hn. reflexivity.
      + intros [H1 H]. destruct (names !! N.to_nat i) as [x|] eqn:Ex; [|discriminate H]. cbn [fmap option_fmap option_map] in H. apply (inj Some), string_bytes_inj in H. subst x.
        destruct (F1 (N.to_nat i) n ltac:(lia) Ex) as (j & -> & Hj). f_equal. pose proof (NoDup_lookup _ _ _ _ names_nodup Ex Hj). lia.
  Qed.
  Theorem gnu_link g ds sd n : the_sec w secs ".gnu.hash" g -> the_sec w secs ".dynsym" ds -> the_sec w secs ".dynstr" sd -> filesz ds < 2^32 ->
    exists nb r, w32 (contents g) 0 = Some nb /\ w32 (contents g) 1 = Some 1 /\ nb = (filesz ds / 24) / 8 + 1 /\
      gnu_lookup (contents g) (is_name ds sd (string_bytes n)) (gnu_hash (string_bytes n)) = Some r /\
      (forall i, r = Some i -> 1 <= i /\ dyn_name ds sd i = Some (string_bytes n)) /\
      (buckets_adjacent ds sd nb -> forall i, 1 <= i -> dyn_name ds sd i = Some (string_bytes n) -> r = Some i).
  Proof using O Fin V P PL TL NF SF.
    intros Hg Hds Hsd Hfz. rewrite (hash_bytes g ".gnu.hash" (or_intror eq_refl) Hg), bool_decide_eq_false_2 by discriminate.
    destruct hash_tables as [_ HT]. destruct (HT (proj2 (hash_style _ _ Hg) eq_refl)) as (t & -> & Ht). cbn [default from_option id].
    rewrite (proj2 (dyn_names ds sd 0 Hds Hsd)) in Hfz |- *. destruct syms_head as (d & tl & Esy & E0).
    assert (En : names = name_of d :: (name_of <$> tl)) by (unfold names; rewrite Esy; reflexivity). rewrite Esy, fmap_cons in Ht.
    pose proof names_nodup as ND. rewrite En in ND.
    assert (HT' : forall s, s ∈ tl -> s_gnu_hash s = elf_gnu_hash (name_of s)).
    { intros s Hs. assert (Hin : s ∈ syms) by (rewrite Esy; by right). destruct (syms_elem s Hin) as (_ & _ & _ & _ & _ & Hz & K). destruct (decide (st_name (s_sym s) = 0)) as [E|Hne]; [|exact (proj1 (K Hne))].
      exfalso. apply NoDup_cons in ND as [ND _]. apply ND. destruct (syms_elem d) as (_ & _ & _ & _ & _ & Hzd & _); [rewrite Esy; by left|]. rewrite (proj1 Hzd E0), <- (proj1 Hz E). by apply elem_of_list_fmap_1. }
    set (ns := name_of <$> tl) in *. assert (Eg : s_gnu_hash <$> tl = elf_gnu_hash <$> ns).
    { unfold ns. rewrite <- list_fmap_compose. apply list_fmap_ext. intros i s Hi. apply HT'. by eapply elem_of_list_lookup_2. }
    rewrite Eg in Ht. assert (Hl : length (elf_gnu_hash <$> ns) = length ns) by apply fmap_length. rewrite En in Hfz |- *. cbn [length] in Hfz |- *.
    destruct (gt_build (s_gnu_hash d) (elf_gnu_hash <$> ns)) as (t' & Ht' & HB).
    { rewrite Hl. lia. }
    { apply Forall_fmap, Forall_true. intros x. simpl. rewrite elf_gnu_hash_spec. apply gnu_hash_lt. }
    rewrite Ht in Ht'. injection Ht' as <-. rewrite Hl in HB. set (nb := (N.of_nat (length ns) + 1) / 8 + 1) in *.
    destruct (gnu_header t nb) as (H0 & H1 & _); try apply HB.
    destruct (gnu_lookup_spec _ _ t (is_name ds sd (string_bytes n)) (gnu_hash (string_bytes n)) HB) as (r & Hr & R1 & R2).
    exists nb, r. split; [exact H0|]. split; [exact H1|]. split; [|split; [exact Hr|]].
    { unfold nb. rewrite (N.mul_comm 24), N.div_mul by lia. do 2 f_equal. lia. }
    assert (HR : forall i, r = Some i -> 1 <= i /\ dyn_name ds sd i = Some (string_bytes n)).
    { intros i E. destruct (R1 i E) as [Ha Hb]. split; [exact (proj1 Hb)|]. by apply bool_decide_eq_true in Ha. }
    split; [exact HR|]. intros HA i Hi Hn.
    assert (Hnm : forall j x, 1 <= j -> dyn_name ds sd j = Some x <-> exists y, ns !! (N.to_nat j - 1)%nat = Some y /\ x = string_bytes y).
    { intros j x Hj. rewrite (proj1 (dyn_names ds sd j Hds Hsd)), En. destruct (N.to_nat j) as [|k] eqn:Ek; [lia|]. cbn [lookup list_lookup]. replace (S k - 1)%nat with k by lia.
      destruct (ns !! k) as [y|]; cbn [fmap option_fmap option_map]; [|split; [discriminate|by intros (y & [=] & _)]]. split; [intros [= <-]; eauto|by intros (z & [= ->] & ->)]. }
    destruct (proj1 (Hnm i _ Hi) Hn) as (y & Hy & Ey). apply string_bytes_inj in Ey. subst y.
    destruct (R2) with (k := (N.to_nat i - 1)%nat) as [z Hz].
    - intros a b c ga gb gc Hab Hbc Ha Hb Hc E. rewrite list_lookup_fmap in Ha, Hb, Hc.
      destruct (ns !! a) as [xa|] eqn:Na; [|discriminate Ha]. destruct (ns !! b) as [xb|] eqn:Nb; [|discriminate Hb]. destruct (ns !! c) as [xc|] eqn:Nc; [|discriminate Hc].
      cbn [fmap option_fmap option_map] in Ha, Hb, Hc. apply (inj Some) in Ha, Hb, Hc. subst ga gb gc. rewrite !elf_gnu_hash_spec in *.
      apply (HA (N.of_nat a + 1) (N.of_nat b + 1) (N.of_nat c + 1) _ _ (string_bytes xc)); [lia|lia|lia|..|exact E].
      + apply Hnm; [lia|]. exists xa. split; [|reflexivity]. rewrite <- Na. f_equal. lia.
      + apply Hnm; [lia|]. exists xb. split; [|reflexivity]. rewrite <- Nb. f_equal. lia.
      + apply Hnm; [lia|]. exists xc. split; [|reflexivity]. rewrite <- Nc. f_equal. lia.
    - rewrite list_lookup_fmap, Hy. cbn [fmap option_fmap option_map]. by rewrite elf_gnu_hash_spec.
    - unfold is_name. apply bool_decide_eq_true. replace (N.of_nat (N.to_nat i - 1) + 1) with i by lia. exact Hn.
    - rewrite Hz. f_equal. destruct (HR z Hz) as [Hz1 Hz2]. apply (Hnm z _ Hz1) in Hz2 as (y & Hy2 & Ey). apply string_bytes_inj in Ey. subst y.
      apply NoDup_cons in ND as [_ ND]. pose proof (NoDup_lookup _ _ _ _ ND Hy Hy2). lia.
  Qed.
  (** ** They are there *)
  Lemma own_exists i n : (0 < i)%nat -> n ∈ reserved -> (fst ∘ fst ∘ fst) <$> own_rows hs !! i = Some n -> exists b, the_sec w secs n b.
  Proof using O Fin V P NF.
    intros Hi0 Hres Hn. destruct (own_sections O Fin V P) as (pd & gd & _ & Hown).
    assert (Hlt : (i < length (w_sections w0))%nat).
    { rewrite (writer_new_sections _ _ (oc_new O)), fmap_length. pose proof (ref_fulls hs) as E. apply (f_equal length) in E. rewrite !fmap_length in E. unfold hs in E. rewrite E. fold hs.
      destruct (own_rows hs !! i) eqn:E'; [|discriminate Hn]. by apply lookup_lt_Some in E'. }
    destruct (Hown i (conj Hi0 Hlt)) as (b & Hb & Hid & _ & _). assert (Hbs : b ∈ secs) by (rewrite (oc_secs O); by right). exists b. split; [exact Hbs|].
    assert (Hnm : sec_name w b = Some n).
    { destruct (secs_class O Fin V P b (proj1 NF) Hbs) as (n' & Hn' & [(e & Hrow)|(_ & _ & Hbad)]); [|lia]. rewrite Hid in Hrow. fold hs in Hrow. rewrite Hrow in Hn. cbn in Hn. injection Hn as <-. exact Hn'. }
    split; [exact Hnm|]. intros s' Hs' Hn'. destruct (secs_class O Fin V P s' (proj1 NF) Hs') as (n' & Hn2 & Hc). rewrite Hn' in Hn2. injection Hn2 as <-.
    assert (Hid' : sc_id s' = i).
    { destruct Hc as [(e & Hrow)|(Hbad & _)]; [|contradiction]. fold hs in Hrow. destruct (own_rows hs !! i) as [row|] eqn:Er; [|discriminate Hn]. cbn in Hn. injection Hn as Hn.
      assert (ND : NoDup ((fst ∘ fst ∘ fst) <$> own_rows hs)) by (destruct hs; apply (bool_decide_unpack _); vm_compute; exact I).
      eapply (NoDup_lookup _ _ _ n ND); rewrite list_lookup_fmap; [rewrite Hrow|rewrite Er; cbn; rewrite <- Hn]; reflexivity. }
    rewrite (oc_secs O) in Hs'. destruct (null_facts O) as (N0 & _). apply elem_of_cons in Hs' as [->|Hs']; [rewrite N0 in Hid'; lia|].
    apply elem_of_list_lookup in Hb as [x Hx]. apply elem_of_list_lookup in Hs' as [y Hy]. assert (x = y) by (eapply (out_nodup O V); [exact Hx|exact Hy|congruence]). congruence.
  Qed.
  Lemma hash_there : (hs <> HGnu -> exists b, the_sec w secs ".hash" b) /\ (hs <> HSysv -> exists b, the_sec w secs ".gnu.hash" b) /\
    (exists b, the_sec w secs ".dynsym" b) /\ exists b, the_sec w secs ".dynstr" b.
  Proof using O Fin V P NF.
    split; [|split; [|split]].
    - intros H. apply (own_exists 14); [lia|apply (bool_decide_unpack _); vm_compute; exact I|]. destruct hs; [reflexivity|by destruct H|reflexivity].
    - intros H. apply (own_exists (if decide (hs = HGnu) then 14 else 15)); [case_decide; lia|apply (bool_decide_unpack _); vm_compute; exact I|]. destruct hs; [by destruct H|reflexivity|reflexivity].
    - apply (own_exists 9); [lia|apply (bool_decide_unpack _); vm_compute; exact I|]. destruct hs; reflexivity.
    - apply (own_exists 3); [lia|apply (bool_decide_unpack _); vm_compute; exact I|]. destruct hs; reflexivity.
  Qed.
End hashlink.

Section good.
  Context {wd : world} {lo : lib_oracle} {l : linker} {fuel : nat} {w : writer} {secs : list section} (G : good_link wd lo l fuel w secs) (TL : tidy_libs wd l).
  Theorem good_sysv : opt_hash_style (lk_options l) <> HGnu -> exists h ds sd, the_sec w secs ".hash" h /\ the_sec w secs ".dynsym" ds /\ the_sec w secs ".dynstr" sd /\
    (exists k, w32 (contents h) 1 = Some k /\ filesz ds = 24 * k) /\
    forall n i, sysv_lookup (contents h) (is_name ds sd (string_bytes n)) (gabi_hash (string_bytes n)) = Some i <-> 1 <= i /\ dyn_name ds sd i = Some (string_bytes n).
  Proof using G TL.
    intros Hne. destruct (links_outcome _ _ _ _ _ _ (gl_links _ _ _ _ _ _ G)) as (w0 & wr & ws & w1 & extra & null & rest & rest' & st & w3 & w4 & w5 & w6 & w7 & null' & out & O).
    pose proof (proj2 (gl_links _ _ _ _ _ _ G)) as Fin. destruct G as [_ V P PL NF AF SF].
    destruct (hash_there O Fin V P NF) as (H1 & _ & [ds Hds] & [sd Hsd]). destruct (H1 Hne) as [h Hh]. exists h, ds, sd. split; [exact Hh|]. split; [exact Hds|]. split; [exact Hsd|].
    split; [exact (proj1 (sysv_link O Fin V P PL NF SF TL h ds sd "" Hh Hds Hsd))|]. intros n. exact (proj2 (sysv_link O Fin V P PL NF SF TL h ds sd n Hh Hds Hsd)).
  Qed.
  Theorem good_gnu : opt_hash_style (lk_options l) <> HSysv -> exists g ds sd nb, the_sec w secs ".gnu.hash" g /\ the_sec w secs ".dynsym" ds /\ the_sec w secs ".dynstr" sd /\
    (filesz ds < 2^32 -> w32 (contents g) 0 = Some nb /\ w32 (contents g) 1 = Some 1 /\ nb = (filesz ds / 24) / 8 + 1 /\ forall n, exists r,
      gnu_lookup (contents g) (is_name ds sd (string_bytes n)) (gnu_hash (string_bytes n)) = Some r /\
      (forall i, r = Some i -> 1 <= i /\ dyn_name ds sd i = Some (string_bytes n)) /\
      (buckets_adjacent ds sd nb -> forall i, 1 <= i -> dyn_name ds sd i = Some (string_bytes n) -> r = Some i)).
  Proof using G TL.
    intros Hne. destruct (links_outcome _ _ _ _ _ _ (gl_links _ _ _ _ _ _ G)) as (w0 & wr & ws & w1 & extra & null & rest & rest' & st & w3 & w4 & w5 & w6 & w7 & null' & out & O).
    pose proof (proj2 (gl_links _ _ _ _ _ _ G)) as Fin. destruct G as [_ V P PL NF AF SF].
    destruct (hash_there O Fin V P NF) as (_ & H1 & [ds Hds] & [sd Hsd]). destruct (H1 Hne) as [g Hg]. exists g, ds, sd, ((filesz ds / 24) / 8 + 1). split; [exact Hg|]. split; [exact Hds|]. split; [exact Hsd|].
    intros Hf. destruct (gnu_link O Fin V P PL NF SF TL g ds sd "" Hg Hds Hsd Hf) as (nb & _ & E1 & E2 & E3 & _). rewrite <- E3. split; [exact E1|]. split; [exact E2|]. split; [reflexivity|].
    intros n. destruct (gnu_link O Fin V P PL NF SF TL g ds sd n Hg Hds Hsd Hf) as (nb' & r & E1' & _ & _ & K). rewrite E1 in E1'. injection E1' as <-. exists r. exact K.
  Qed.
End good.
