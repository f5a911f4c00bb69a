(** Names with several definitions, as weak definitions allow (C87). *)
From Verif Require Import ProofBase DemoLink PropLayout PropFile PropGot PropMerge PropSyms ProofLoad ProofTwice.

(** The value in .symtab is the value of the first of the strongest symbols plus
    the addresses of all sections that define the name. Missing: zero-fill. *)
Theorem C87_sum_partial : forall wd lo l fuel w secs es evs n y, good_link wd lo l fuel w secs -> loading wd lo l fuel es evs ->
  ordinary es n -> (forall x, x ∈ homes es n -> si_data x <> None) -> winner n (all_syms es) = Some y ->
  exists sym bases, symtab_entry w secs n sym /\ Forall2 (base_of w secs es) (homes es n) bases /\
    st_info sym = st_info (yi_sym y) /\ st_size sym = st_size (yi_sym y) /\ st_value sym = st_value (yi_sym y) + ntotal bases.
Proof.
  intros wd lo l fuel w secs es evs n y G L (Hn & Hl & Hst & Hnn) Hd Hw.
  destruct (links_outcome _ _ _ _ _ _ (gl_links _ _ _ _ _ _ G)) as (w0 & wr & ws & w1 & extra & null & rest & rest' & st & w3 & w4 & w5 & w6 & w7 & null' & out & O).
  pose proof (proj2 (gl_links _ _ _ _ _ _ G)) as Fin. destruct G as [_ V P PL NF AF SF]. destruct L as (wr' & Hr & R). rewrite (oc_resolve O) in Hr. injection Hr as <-.
  destruct (summed O Fin V P NF R n y Hn Hl Hst Hd Hw) as (s & bases & Hs & HB & Hi & Hz & Hv).
  assert (Ew : w_symtab w = w_symtab w7) by (destruct (run_fields (oc_run O)) as (_ & _ & _ & _ & _ & _ & E & _); exact E).
  assert (Hy : y ∈ named n (all_syms es)).
  { unfold winner in Hw. destruct (filter _ (named n (all_syms es))) as [|y' k] eqn:E in Hw; [discriminate Hw|]. injection Hw as ->.
    assert (H : y ∈ y :: k) by left. rewrite <- E in H. by apply elem_of_list_filter in H as [_ H]. }
  pose proof (named_known R n) as Hkn. assert (Hne : named n (all_syms es) <> []) by (intros E; rewrite E in Hy; by apply elem_of_nil in Hy).
  apply elem_of_list_filter in Hy as [[_ <-] Hy]. exists (s_sym s), bases.
  split; [eapply (entry_written O Fin V P NF R PL SF); [by apply Hkn|by apply Hnn|exact Hnn|by rewrite Ew]|]. split; [exact HB|]. split; [exact Hi|]. split; [exact Hz|exact Hv].
Qed.
Print Assumptions C87_sum_partial.

Lemma entry_unique w secs n a b : symtab_entry w secs n a -> symtab_entry w secs n b -> a = b.
Proof.
  intros (t & s & i & (Ht & Htn & Htu) & (Hs & Hsn & Hsu) & Hi & Hc & Hu) (t' & s' & j & (Ht' & Htn' & _) & (Hs' & Hsn' & _) & Hj & Hc' & _).
  rewrite (Htu t' Ht' Htn') in Hj. rewrite (Hsu s' Hs' Hsn') in Hc'. rewrite (Hu j b Hj Hc') in Hj. rewrite Hj in Hi. by apply (inj Some) in Hi.
Qed.
(** Two positions of a list. *)
Lemma ntotal_two (l : list N) i j a b : l !! i = Some a -> l !! j = Some b -> i <> j -> a + b <= ntotal l.
Proof.
  assert (M : forall (k : list N) n x, k !! n = Some x -> x <= ntotal k).
  { induction k as [|z k IH]; intros n x Hx; [by rewrite lookup_nil in Hx|]. change (ntotal (z :: k)) with (z + ntotal k). destruct n; [injection Hx as ->; lia|specialize (IH n x Hx); lia]. }
  revert i j. induction l as [|z k IH]; intros i j Ha Hb Hne; [by rewrite lookup_nil in Ha|]. change (ntotal (z :: k)) with (z + ntotal k).
  destruct i as [|i], j as [|j]; [done| | |].
  - injection Ha as ->. pose proof (M k j b Hb). lia.
  - injection Hb as ->. pose proof (M k i a Ha). lia.
  - assert (i <> j) by congruence. specialize (IH i j Ha Hb H). lia.
Qed.

(** So with two such sections or more in memory the value is never that of a
    definition, unless a definition is 2 MiB or more into its section. *)
Theorem C87_always_refuted : forall wd lo l fuel w secs es evs n sym, good_link wd lo l fuel w secs -> loading wd lo l fuel es evs ->
  ordinary es n -> (forall x, x ∈ homes es n -> si_data x <> None) -> (forall x s, x ∈ homes es n -> the_sec w secs (si_name x) s -> alloc s = true) ->
  (forall y, y ∈ named n (all_syms es) -> st_value (yi_sym y) < 0x200000) -> (2 <= length (homes es n))%nat ->
  symtab_entry w secs n sym -> ~ value_of_a_definition w secs es n (st_value sym).
Proof.
  intros wd lo l fuel w secs es evs n sym G L Ho Hd Ha Hsmall Hlen Hsym (x & y & a & Hx & Hy & Hin & Hbase & Hv).
  assert (Hw : exists y0, winner n (all_syms es) = Some y0).
  { destruct (links_outcome _ _ _ _ _ _ (gl_links _ _ _ _ _ _ G)) as (w0 & wr & ws & w1 & extra & null & rest & rest' & st & w3 & w4 & w5 & w6 & w7 & null' & out & O).
    pose proof (gl_names _ _ _ _ _ _ G) as NF. destruct L as (wr' & Hr & R). rewrite (oc_resolve O) in Hr. injection Hr as <-. destruct Ho as (Hn & _ & Hst & _).
    destruct (table_wr O NF R n Hn) as (s0 & y0 & _ & Hw & _); [intros E; rewrite E in Hy; by apply elem_of_nil in Hy|exact Hst|]. by exists y0. }
  destruct Hw as [y0 Hw]. destruct (C87_sum_partial _ _ _ _ _ _ _ _ n y0 G L Ho Hd Hw) as (sym' & bases & Hs' & HB & _ & _ & Hval). rewrite (entry_unique _ _ _ _ _ Hs' Hsym) in Hval.
  assert (Hlow : forall x' a', x' ∈ homes es n -> base_of w secs es x' a' -> 0x200000 <= a').
  { intros x' a' Hx' (s & off & Hthe & _ & ->). pose proof (Ha x' s Hx' Hthe) as Hal.
    destruct (links_outcome _ _ _ _ _ _ (gl_links _ _ _ _ _ _ G)) as (w0 & wr & ws & w1 & extra & null & rest & rest' & st & w3 & w4 & w5 & w6 & w7 & null' & out & O).
    pose proof (alloc_out O s (proj1 Hthe) Hal) as Hout.
    pose proof (out_addr O s Hout Hal). lia. }
  assert (Hfun : forall x' a1 a2, base_of w secs es x' a1 -> base_of w secs es x' a2 -> a1 = a2).
  { intros x' a1 a2 (s1 & o1 & T1 & (j1 & J1 & ->) & ->) (s2 & o2 & T2 & (j2 & J2 & ->) & ->). destruct T1 as (_ & _ & U1). rewrite <- (U1 s2 (proj1 T2) (proj1 (proj2 T2))).
    f_equal. f_equal. f_equal. f_equal. eapply (NoDup_lookup (contribs (si_name x') (all_secs es))); [|exact J1|exact J2]. unfold contribs. apply NoDup_filter. eapply NoDup_fmap_1. apply all_secs_keys. }
  pose proof Hx as Hx'. apply elem_of_list_lookup in Hx' as [i Hi]. destruct (Forall2_lookup_l _ _ _ _ _ HB Hi) as (a1 & Ha1 & Hb1). rewrite (Hfun _ _ _ Hb1 Hbase) in Ha1.
  assert (exists j x2, j <> i /\ homes es n !! j = Some x2) as (j & x2 & Hji & Hj).
  { destruct (decide (i = 0)%nat) as [->|Hi0]; [destruct (lookup_lt_is_Some_2 (homes es n) 1) as [x2 H2]; [lia|by exists 1%nat, x2]|].
    destruct (lookup_lt_is_Some_2 (homes es n) 0) as [x2 H2]; [lia|]. exists 0%nat, x2. split; [lia|exact H2]. }
  destruct (Forall2_lookup_l _ _ _ _ _ HB Hj) as (a2 & Ha2 & Hb2). pose proof (Hlow x2 a2 (elem_of_list_lookup_2 _ _ _ Hj) Hb2) as Hl2.
  pose proof (ntotal_two bases i j a a2 Ha1 Ha2 (not_eq_sym Hji)) as Ht. specialize (Hsmall y Hy). lia.
Qed.
Print Assumptions C87_always_refuted.

(** A weak definition in one object and a strong one in another. *)
Theorem C87_refuted : exists wd lo l fuel w secs es evs n sym, good_link wd lo l fuel w secs /\ loading wd lo l fuel es evs /\
  ordinary es n /\ (forall x, x ∈ homes es n -> si_data x <> None) /\ length (homes es n) = 2%nat /\ symtab_entry w secs n sym /\ ~ value_of_a_definition w secs es n (st_value sym).
Proof.
  destruct (good_demo wk_files ["a.o"; "b.o"] [] (fun w secs => any secs (fun s => bool_decide (sec_name w s = Some ".data") && alloc s))) as (w & secs & evs & G & L & E); [vm_compute; reflexivity..|].
  set (es := cmd_objs (demo_world wk_files []) (demo_linker ["a.o"; "b.o"] [])) in *. apply any_spec in E as (s & Hs & E). apply andb_true_iff in E as [E1 E2]. apply bool_decide_eq_true_1 in E1.
  assert (Ho : ordinary es "g") by (apply ordinary_intro; vm_compute; reflexivity).
  assert (Hh : (fun x => (si_name x, bool_decide (si_data x = None))) <$> homes es "g" = [(".data", false); (".data", false)]) by (vm_compute; reflexivity).
  assert (Hk : forall x, x ∈ homes es "g" -> si_name x = ".data" /\ si_data x <> None).
  { intros x Hx. apply (elem_of_list_fmap_1 (fun x => (si_name x, bool_decide (si_data x = None)))) in Hx. rewrite Hh in Hx. apply elem_of_cons in Hx as [Hx|Hx]; [|apply elem_of_list_singleton in Hx];
      injection Hx as -> Hx; apply bool_decide_eq_false_1 in Hx; done. }
  assert (Hlen : length (homes es "g") = 2%nat) by (rewrite <- (fmap_length (fun x => (si_name x, bool_decide (si_data x = None)))), Hh; reflexivity).
  assert (Hw : exists y, winner "g" (all_syms es) = Some y) by (eexists; vm_compute; reflexivity). destruct Hw as [y Hw].
  destruct (C87_sum_partial _ _ _ _ _ _ _ _ "g" y G L Ho (fun x Hx => proj2 (Hk x Hx)) Hw) as (sym & bases & Hsym & _).
  exists (demo_world wk_files []), demo_lib_oracle, (demo_linker ["a.o"; "b.o"] []), 10%nat, w, secs, es, evs, "g", sym. split; [exact G|]. split; [exact L|]. split; [exact Ho|]. split; [exact (fun x Hx => proj2 (Hk x Hx))|]. split; [exact Hlen|]. split; [exact Hsym|].
  eapply (C87_always_refuted _ _ _ _ _ _ _ _ "g" sym G L Ho (fun x Hx => proj2 (Hk x Hx))); [| |rewrite Hlen; lia|exact Hsym].
  - intros x s' Hx (_ & _ & U). rewrite (proj1 (Hk x Hx)) in U. rewrite <- (U s Hs E1). exact E2.
  - assert (K : forallb (fun y => st_value (yi_sym y) <? 0x200000) (named "g" (all_syms es)) = true) by (vm_compute; reflexivity). intros y' Hy'. rewrite forallb_forall in K. apply elem_of_list_In, K in Hy'. by apply N.ltb_lt.
Qed.
Print Assumptions C87_refuted.
