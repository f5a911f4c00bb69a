(** C107: complete, faultless programs are linked. *)
From Verif Require Import SpecGood ProofGood PropErrors PropMissing PropComplete PropPlt PropCrash PropTotal PropResolve PropScan DemoLink.

(** Every name of the message about undefined symbols is wanted by a global or
    weak symbol of a loaded object. *)
Theorem C107_wanted : forall wd lo l fuel es evs ns n, valid_orders lo -> few_outputs wd lo l fuel -> short_names wd lo l fuel -> loading wd lo l fuel es evs ->
  link_writer wd lo l fuel = Err (EUndefined ns) -> n ∈ ns -> wants es n.
Proof. intros wd lo l fuel es evs ns n V F S L E H. exact (reported_wanted _ _ _ _ _ _ _ _ V F S L E H). Qed.
Print Assumptions C107_wanted.

(** So a complete program is not refused for undefined symbols, *)
Theorem C107_defined : forall wd lo l fuel ns, valid_orders lo -> plain_inputs wd l -> few_outputs wd lo l fuel -> short_names wd lo l fuel -> all_provided wd lo l fuel ->
  link_writer wd lo l fuel = Err (EUndefined ns) -> ns = [].
Proof.
  intros wd lo l fuel ns V P F S C E. destruct ns as [|n ns]; [reflexivity|]. exfalso.
  destruct (resolved_loading wd lo l fuel) as (es & evs & L).
  { unfold link_writer in E. destruct (resolve wd lo l fuel) as [w|e|p] eqn:Er; [reflexivity| |discriminate E]. exfalso. cbn [mbind res_bind] in E. apply (ProofMissing.calm_resolve wd lo l fuel (n :: ns)). rewrite Er. exact E. }
  assert (Hn : n ∈ n :: ns) by (by left). pose proof (C107_wanted _ _ _ _ _ _ _ _ V F S L E Hn) as W. destruct (C _ _ _ L W) as (C1 & C2 & C3 & C4). destruct W as (y & Hy & Hb).
  exact (proj1 (C78_exact _ _ _ _ _ _ _ _ _ V P F S L E C1 Hy C2 Hb C3) Hn C4).
Qed.
Print Assumptions C107_defined.

(** and a complete faultless program of ordinary inputs and moderate size is
    linked, or one of its relocations cannot be applied. *)
Theorem C107_partial : forall wd lo l U fuel, valid_orders lo -> sound_inputs wd l -> names_within wd l U -> room U <= 2 ^ 32 -> truthful wd l -> (11 * (1 + length U) < fuel)%nat ->
  plain_inputs wd l -> plain_libs wd l -> plain_section_symbols wd l -> short_tables wd lo l fuel -> moderate wd lo l fuel -> few_outputs wd lo l fuel -> short_names wd lo l fuel ->
  faultless wd l -> all_provided wd lo l fuel ->
  (link wd lo l fuel).2 = Ok tt \/ (exists p, (link wd lo l fuel).2 = Panic p) /\ stuck wd lo l fuel.
Proof.
  intros wd lo l U fuel V HS HU HR HT HF P PL HN HB HM F S [C1 C2 C3 C4 C5] C. destruct (link wd lo l fuel) as [fx r] eqn:El. cbn [snd]. destruct r as [[]|e|p].
  - left. reflexivity.
  - exfalso. destruct (C90_clean wd lo l fuel V C1 C2 C3 C4 C5 fx e El) as (ns & -> & Hne). apply Hne.
    apply (C107_defined wd lo l fuel ns V P F S C). unfold link in El. rewrite C1 in El. destruct (link_bytes wd lo l fuel) as [d|e|p] eqn:Eb; [discriminate El| |discriminate El]. injection El as _ ->.
    unfold link_bytes in Eb. destruct (link_writer wd lo l fuel) as [w|e|p] eqn:Ew; [|cbn [mbind res_bind] in Eb; injection Eb as ->; reflexivity|discriminate Eb]. exfalso. cbn [mbind res_bind] in Eb. exact (ProofErrors.why_disk ProofErrors.none _ _ _ Eb).
  - right. split; [by exists p|]. assert (Hp : (link wd lo l fuel).2 = Panic p) by (rewrite El; reflexivity). exact (C105_ordinary_partial _ _ _ _ _ _ V HS HU HR HT HF P PL HN HB HM Hp).
Qed.
Print Assumptions C107_partial.

(** Without relocations it is linked. *)
Theorem C107_no_relocations : forall wd lo l U fuel, valid_orders lo -> sound_inputs wd l -> names_within wd l U -> room U <= 2 ^ 32 -> truthful wd l -> (11 * (1 + length U) < fuel)%nat ->
  plain_inputs wd l -> plain_libs wd l -> plain_section_symbols wd l -> short_tables wd lo l fuel -> moderate wd lo l fuel -> few_outputs wd lo l fuel -> short_names wd lo l fuel ->
  faultless wd l -> all_provided wd lo l fuel -> no_relocations wd l -> (link wd lo l fuel).2 = Ok tt.
Proof.
  intros wd lo l U fuel V HS HU HR HT HF P PL HN HB HM F S HC C NR. destruct (C107_partial wd lo l U fuel V HS HU HR HT HF P PL HN HB HM F S HC C) as [H|[[p H] _]]; [exact H|].
  exfalso. exact (C105_no_relocations _ _ _ _ _ _ V HS HU HR HT HF P PL HN HB HM NR H).
Qed.
Print Assumptions C107_no_relocations.

(** ** A file with a function and debugging information *)
Definition good_syms : list sym_in := [mkSymIn 0 (mkSym 0 0 0 0 0 0) "" "a.o"; mkSymIn 0 (mkSym 1 18 0 1 0 1) "_start" "a.o"].
(** What the lemmas below need of a file. *)
Definition named_b (e : elf_obj) : bool :=
  forallb (fun sh => match eo_shstr e (sh_name sh) with Some _ => true | None => false end) (eo_shdrs e) &&
  forallb (fun s => match eo_strtab e (st_name s) with Some _ => true | None => false end) (eo_syms e) &&
  forallb (fun x : N * list greloc => forallb (fun r => negb (bool_decide (gr_type r mod 2 ^ 32 ∈ [12; 13; 14; 15]))) x.2) (eo_relocs e).
Section good.
  Context (e : elf_obj) (Hc : cmd_objs (world_of e) one_object = [("a.o", e)]) (Hs : all_syms [("a.o", e)] = good_syms) (Hb : named_b e = true).
  Lemma good_loading fuel es evs : loading (world_of e) demo_lib_oracle one_object fuel es evs -> es = [("a.o", e)].
  Proof using Hc.
    intros (w & _ & R). destruct (ld_cmd _ _ _ _ _ R) as (ms & -> & HF). destruct ms as [|x ms]; [|apply Forall_cons in HF as [(ar & m & Hp & _) _]; exfalso; exact (not_elem_of_nil _ Hp)].
    rewrite app_nil_r. exact Hc.
  Qed.
  Lemma good_faultless : faultless (world_of e) one_object.
  Proof using Hc Hs Hb.
    unfold named_b in Hb. rewrite !andb_true_iff, !forallb_forall in Hb. destruct Hb as [[B1 B2] B3]. split.
    - reflexivity.
    - intros [(p & Hp & [He|He])|[(p & Hp & _)|[(p & Hp & _)|(p & ar & n & m & Hp & _)]]]; [| |exfalso; exact (not_elem_of_nil _ Hp)..]; apply elem_of_list_singleton in Hp as ->; discriminate He.
    - intros [(e' & sh & Hi & Hx & _ & Hn)|[(e' & s & Hi & Hx & Hn)|(p & e' & s & [Hp _] & _)]]; [| |exfalso; exact (not_elem_of_nil _ Hp)]; apply only_input in Hi as ->.
      + specialize (B1 sh (proj1 (elem_of_list_In _ _) Hx)). cbv beta in B1. rewrite Hn in B1. discriminate B1.
      + specialize (B2 s (proj1 (elem_of_list_In _ _) Hx)). cbv beta in B2. rewrite Hn in B2. discriminate B2.
    - intros t (Ht & e' & idx & rels & rel & Hi & Hr & Hg & _ & Et). apply only_input in Hi as ->. specialize (B3 _ (proj1 (elem_of_list_In _ _) Hr)). cbv beta in B3. rewrite forallb_forall in B3.
      specialize (B3 rel (proj1 (elem_of_list_In _ _) Hg)). cbv beta in B3. rewrite Et in B3. apply negb_true_iff, bool_decide_eq_false in B3. exact (B3 Ht).
    - intros n p (es & ms & ys & y & rest & -> & HF & E & [Hn _] & _ & Hd & H). destruct ms as [|x ms]; [|apply Forall_cons in HF as [(ar & m & Hp & _) _]; exfalso; exact (not_elem_of_nil _ Hp)].
      rewrite app_nil_r, Hc, Hs in E. unfold good_syms in E.
      destruct ys as [|a [|b ys]]; [injection E; intros; subst; exact (Hd eq_refl)| |cbn [app] in E; injection E; intros Hq _ _; exact (app_cons_not_nil _ _ _ Hq)]. injection E; intros; subst.
      destruct H as (_ & (d & Hx & [Hm _] & _) & _); [discriminate|vm_compute; reflexivity|]. apply elem_of_list_singleton in Hx as ->. discriminate Hm.
  Qed.
  Lemma good_provided fuel : all_provided (world_of e) demo_lib_oracle one_object fuel.
  Proof using Hc Hs.
    intros es evs n L (y & Hy & Hy1). apply good_loading in L as ->. rewrite Hs in *. unfold named in Hy. apply elem_of_list_filter in Hy as [[Ht En] Hy].
    unfold good_syms in Hy. rewrite !elem_of_cons, elem_of_nil in Hy. destruct Hy as [->|[->|[]]]; [exfalso; exact (Hy1 eq_refl)|]. cbn [yi_name] in En. subst n.
    assert (K : forall z, z ∈ named "_start" good_syms -> z = mkSymIn 0 (mkSym 1 18 0 1 0 1) "_start" "a.o").
    { intros z Hz. change (named "_start" good_syms) with [mkSymIn 0 (mkSym 1 18 0 1 0 1) "_start" "a.o"] in Hz. by apply elem_of_list_singleton in Hz. }
    split; [discriminate|]. split; [intros z Hz; rewrite (K z Hz); vm_compute; eauto|]. split; [intros z Hz _; rewrite Hs in Hz; rewrite (K z Hz); left; reflexivity|].
    left. exists (mkSymIn 0 (mkSym 1 18 0 1 0 1) "_start" "a.o"). rewrite Hs. split; [vm_compute; left|]. left. vm_compute. discriminate.
  Qed.
End good.
Example C107_case : exists wd lo l U fuel, valid_orders lo /\ sound_inputs wd l /\ names_within wd l U /\ room U <= 2 ^ 32 /\ truthful wd l /\ (11 * (1 + length U) < fuel)%nat /\
  plain_inputs wd l /\ plain_libs wd l /\ plain_section_symbols wd l /\ short_tables wd lo l fuel /\ moderate wd lo l fuel /\ few_outputs wd lo l fuel /\ short_names wd lo l fuel /\
  faultless wd l /\ all_provided wd lo l fuel /\ no_relocations wd l.
Proof.
  exists (world_of C105_obj), demo_lib_oracle, one_object, (demo_names [("a.o", C105_obj)] ["a.o"]), 45%nat. destruct (fits_hyps C105_obj) as (F1 & F2 & F3 & F4); [vm_compute; reflexivity|].
  split; [exact demo_orders|]. split; [apply demo_sound; vm_compute; reflexivity|]. split; [apply demo_within|]. split; [vm_compute; discriminate|].
  split; [exact F1|]. split; [vm_compute; lia|]. split; [apply demo_plain; vm_compute; reflexivity|]. split; [exact F2|]. split; [exact F3|]. split; [exact F4|]. split; [apply moderate_from; vm_compute; reflexivity|].
  split; [|split; [apply short_intro; vm_compute; reflexivity|split; [apply good_faultless; vm_compute; reflexivity|split; [apply good_provided; vm_compute; reflexivity|]]]].
  - intros w E. assert (K : match resolve (world_of C105_obj) demo_lib_oracle one_object 45 with Ok w => (length (w_sections w) <=? 100)%nat | _ => true end = true) by (vm_compute; reflexivity). rewrite E in K. apply Nat.leb_le in K. lia.
  - intros e idx rels He Hi. apply only_input in He as ->. exfalso; exact (not_elem_of_nil _ Hi).
Qed.
(** Completeness is not enough: the same file with a relocation in the debugging
    information crashes the linker. *)
Theorem C107_refuted : exists wd lo l U fuel, valid_orders lo /\ sound_inputs wd l /\ names_within wd l U /\ room U <= 2 ^ 32 /\ truthful wd l /\ (11 * (1 + length U) < fuel)%nat /\
  plain_inputs wd l /\ plain_libs wd l /\ plain_section_symbols wd l /\ short_tables wd lo l fuel /\ moderate wd lo l fuel /\ few_outputs wd lo l fuel /\ short_names wd lo l fuel /\
  faultless wd l /\ all_provided wd lo l fuel /\ (link wd lo l fuel).2 = Panic PUnwrap.
Proof.
  exists (world_of C64_obj), demo_lib_oracle, one_object, (demo_names [("a.o", C64_obj)] ["a.o"]), 45%nat. destruct (fits_hyps C64_obj) as (F1 & F2 & F3 & F4); [vm_compute; reflexivity|].
  split; [exact demo_orders|]. split; [apply demo_sound; vm_compute; reflexivity|]. split; [apply demo_within|]. split; [vm_compute; discriminate|].
  split; [exact F1|]. split; [vm_compute; lia|]. split; [apply demo_plain; vm_compute; reflexivity|]. split; [exact F2|]. split; [exact F3|]. split; [exact F4|]. split; [apply moderate_from; vm_compute; reflexivity|].
  split; [|split; [apply short_intro; vm_compute; reflexivity|split; [apply good_faultless; vm_compute; reflexivity|split; [apply good_provided; vm_compute; reflexivity|]]]].
  - intros w E. assert (K : match resolve (world_of C64_obj) demo_lib_oracle one_object 45 with Ok w => (length (w_sections w) <=? 100)%nat | _ => true end = true) by (vm_compute; reflexivity). rewrite E in K. apply Nat.leb_le in K. lia.
  - vm_compute. reflexivity.
Qed.
Print Assumptions C107_refuted.
(** The message of the run of C78 has only wanted names. *)
Example C107_wanted_case : exists wd lo l fuel es evs ns, valid_orders lo /\ few_outputs wd lo l fuel /\ short_names wd lo l fuel /\ loading wd lo l fuel es evs /\
  link_writer wd lo l fuel = Err (EUndefined ns) /\ "g" ∈ ns.
Proof.
  destruct (resolved_loading (demo_world exact_files []) demo_lib_oracle exact_l 10) as (es & evs & L); [vm_compute; reflexivity|].
  exists (demo_world exact_files []), demo_lib_oracle, exact_l, 10%nat, es, evs, ["h"; "g"]. split; [exact demo_orders|]. split.
  - intros w E. assert (K : match resolve (demo_world exact_files []) demo_lib_oracle exact_l 10 with Ok w => (length (w_sections w) <=? 100)%nat | _ => true end = true) by (vm_compute; reflexivity). rewrite E in K. apply Nat.leb_le in K. lia.
  - split; [apply short_intro; vm_compute; reflexivity|]. split; [exact L|]. split; [apply message_intro; vm_compute; reflexivity|]. right. left.
Qed.
