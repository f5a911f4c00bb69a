(** The message about undefined names is complete (C78, C102). *)
From Verif Require Import SpecMissing SpecArgs SpecMain DemoLink ProofMissing ProofComplete PropMissing PropMain.

(** No undefined name is left out: when a link stops with the message, each name
    that an object mentions with a global or weak symbol is provided by some
    input or listed. *)
Theorem C78_complete : forall wd lo l fuel es evs ns n y, valid_orders lo -> plain_inputs wd l -> short_names wd lo l fuel -> loading wd lo l fuel es evs ->
  link_writer wd lo l fuel = Err (EUndefined ns) -> n <> "" -> y ∈ named n (all_syms es) -> all_standard n (all_syms es) -> binding (yi_sym y) <> 0 ->
  provided wd l es n \/ n ∈ ns.
Proof. intros wd lo l fuel es evs ns n y (V & _) P S L E Hn Hy Hst Hb. exact (complete wd lo l fuel ns es evs V P S E L n y Hn Hy Hst Hb). Qed.
Print Assumptions C78_complete.

(** No name is listed twice. *)
Theorem C78_once : forall wd lo l fuel es evs ns, valid_orders lo -> loading wd lo l fuel es evs -> link_writer wd lo l fuel = Err (EUndefined ns) -> NoDup ns.
Proof. intros wd lo l fuel es evs ns (V & _) L E. exact (once wd lo l fuel ns es evs V E L). Qed.
Print Assumptions C78_once.

(** The list is exact for every name whose definitions outside the sections are
    all global: it is listed if and only if nothing provides it. *)
Theorem C78_exact : forall wd lo l fuel es evs ns n y, valid_orders lo -> plain_inputs wd l -> few_outputs wd lo l fuel -> short_names wd lo l fuel -> loading wd lo l fuel es evs ->
  link_writer wd lo l fuel = Err (EUndefined ns) -> n <> "" -> y ∈ named n (all_syms es) -> all_standard n (all_syms es) -> binding (yi_sym y) <> 0 -> firm es n ->
  n ∈ ns <-> ~ provided wd l es n.
Proof.
  intros wd lo l fuel es evs ns n y V P F S L E Hn Hy Hst Hb Hf. split.
  - intros Hin Hp. destruct (C78_partial _ _ _ _ _ _ _ _ V F L E Hin Hn) as [_ U2 U3 _].
    destruct (exact_only wd lo l fuel ns es evs (proj1 V) P S E L n y Hy F Hn Hin Hst) as [X1 X2].
    destruct Hp as [(z & Hz & Hd)|[Hp|[sym Hp]]]; [|exact (X1 Hp)|exact (U3 _ Hp)].
    assert (K : forall x, x ∈ all_secs es -> si_name x <> "" -> ~ lies_in x z) by (intros x Hx Hxn; exact (X2 x z Hx Hxn Hz)).
    destruct Hd as [Hd|(x & Hx & Hxn & Hl)]; [|exact (K x Hx Hxn Hl)].
    destruct (Hf z Hz Hd) as [Hb1|(x & Hx & Hxn & Hl)]; [|exact (K x Hx Hxn Hl)].
    pose proof (elem_of_list_filter (fun y => typ (yi_sym y) <> 3 /\ yi_name y = n) (all_syms es) z) as [G _]. destruct (G Hz) as [[Ht En] Hz']. exact (Hd (U2 z Hz' En Ht Hb1)).
  - intros Hp. destruct (C78_complete _ _ _ _ _ _ _ _ _ V P S L E Hn Hy Hst Hb) as [K|K]; [by destruct Hp|exact K].
Qed.
Print Assumptions C78_exact.

(** ** Two objects, a library, four undefined names *)
Definition exact_files : list (string * elf_obj) :=
  [("a.o", demo_obj [progbits ".text" 6 16 [0xc3; 0xc3]] [("_start", dsym 0x12 1 0 1); ("f", dsym 0x10 0 0 0); ("g", dsym 0x10 0 0 0); ("h", dsym 0x20 0 0 0); ("k", dsym 0x10 0 0 0)] []);
   ("b.o", demo_obj [progbits ".text" 6 16 [0xc3; 0xc3]] [("k", dsym 0x12 1 0 1); ("g", dsym 0x10 0 0 0)] []); ("/l/libm.so", miss_lib)].
Definition exact_l : linker := demo_linker ["a.o"; "b.o"] ["/l/libm.so"].
Definition short_b (wd : world) (lo : lib_oracle) (l : linker) (fuel : nat) : bool :=
  match resolve wd lo l fuel with
  | Ok w => (stt_total_len (w_shstrtab w) <? 2^32) && (stt_total_len (w_strtab w) <? 2^32) && (stt_total_len (w_dynstr w) <? 2^32)
  | _ => true end.
Lemma short_intro wd lo l fuel : short_b wd lo l fuel = true -> short_names wd lo l fuel.
Proof. unfold short_b. intros H w E. rewrite E in H. rewrite !andb_true_iff, !N.ltb_lt in H. destruct H as [[H1 H2] H3]. split; [exact H1|]. split; [exact H2|exact H3]. Qed.
Definition standard_b (n : string) (l : list sym_in) : bool := forallb (fun y => bool_decide (is_Some (strength (binding (yi_sym y))))) (named n l).
Lemma standard_intro n l : standard_b n l = true -> all_standard n l.
Proof. unfold standard_b. rewrite forallb_forall. intros H y Hy. apply elem_of_list_In in Hy. specialize (H y Hy). apply bool_decide_eq_true_1 in H. exact H. Qed.
Definition firm_b (es : list (string * elf_obj)) (n : string) : bool :=
  forallb (fun y => if st_shndx (yi_sym y) =? 0 then true else binding (yi_sym y) =? 1) (named n (all_syms es)).
Lemma firm_intro es n : firm_b es n = true -> firm es n.
Proof. unfold firm_b. rewrite forallb_forall. intros H y Hy Hd. apply elem_of_list_In in Hy. specialize (H y Hy). cbv beta in H. destruct (N.eqb_spec (st_shndx (yi_sym y)) 0); [done|]. left. by apply N.eqb_eq. Qed.
Lemma exact_names n : n ∈ ["f"; "k"] -> n ∈ ["f"; "g"; "h"; "k"] /\ n <> "" /\ n ∉ ["h"; "g"].
Proof. rewrite !elem_of_cons, !elem_of_nil. intros [->|[->|[]]]; (split; [tauto|]; split; [discriminate|]; intros [K|[K|[]]]; discriminate K). Qed.
Example C78_exact_case : exists es evs, let wd := demo_world exact_files [] in
  loading wd demo_lib_oracle exact_l 10 es evs /\ valid_orders demo_lib_oracle /\ plain_inputs wd exact_l /\ few_outputs wd demo_lib_oracle exact_l 10 /\ short_names wd demo_lib_oracle exact_l 10 /\
  link_writer wd demo_lib_oracle exact_l 10 = Err (EUndefined ["h"; "g"]) /\
  (forall n, n ∈ ["f"; "g"; "h"; "k"] -> (exists y, y ∈ named n (all_syms es) /\ binding (yi_sym y) <> 0) /\ all_standard n (all_syms es) /\ firm es n) /\
  ~ provided wd exact_l es "g" /\ provided wd exact_l es "f" /\ provided wd exact_l es "k".
Proof.
  destruct (resolved_loading (demo_world exact_files []) demo_lib_oracle exact_l 10) as (es & evs & L); [vm_compute; reflexivity|].
  assert (P : plain_inputs (demo_world exact_files []) exact_l) by (apply demo_plain; vm_compute; reflexivity).
  assert (F : few_outputs (demo_world exact_files []) demo_lib_oracle exact_l 10) by (apply small_intro; vm_compute; reflexivity).
  assert (S : short_names (demo_world exact_files []) demo_lib_oracle exact_l 10) by (apply short_intro; vm_compute; reflexivity).
  assert (M : link_writer (demo_world exact_files []) demo_lib_oracle exact_l 10 = Err (EUndefined ["h"; "g"])) by (apply message_intro; vm_compute; reflexivity).
  assert (Q : forall n, n ∈ ["f"; "g"; "h"; "k"] -> (exists y, y ∈ named n (all_syms es) /\ binding (yi_sym y) <> 0) /\ all_standard n (all_syms es) /\ firm es n).
  { rewrite (cmd_only _ _ _ _ _ _ L eq_refl). intros n Hn.
    assert (K : forallb (fun n => match named n (all_syms (cmd_objs (demo_world exact_files []) exact_l)) with [] => false | y :: _ => negb (binding (yi_sym y) =? 0) end &&
      (standard_b n (all_syms (cmd_objs (demo_world exact_files []) exact_l)) && firm_b (cmd_objs (demo_world exact_files []) exact_l) n)) ["f"; "g"; "h"; "k"] = true) by (vm_compute; reflexivity).
    rewrite forallb_forall in K. apply elem_of_list_In in Hn. specialize (K n Hn). cbv beta in K. rewrite !andb_true_iff in K. destruct K as (K1 & K2 & K3). split; [|split; [by apply standard_intro|by apply firm_intro]].
    revert K1. destruct (named n (all_syms (cmd_objs (demo_world exact_files []) exact_l))) as [|y t]; [discriminate|]. intros K1. exists y. split; [apply elem_of_list_here|]. apply negb_true_iff, N.eqb_neq in K1. exact K1. }
  assert (X : forall n, n ∈ ["f"; "g"; "h"; "k"] -> n <> "" -> n ∈ ["h"; "g"] <-> ~ provided (demo_world exact_files []) exact_l es n).
  { intros n Hn Hne. destruct (Q n Hn) as ((y & Hy & Hb) & H1 & H2). exact (C78_exact _ _ _ _ _ _ _ _ _ demo_orders P F S L M Hne Hy H1 Hb H2). }
  exists es, evs. cbv zeta. split; [exact L|]. split; [exact demo_orders|]. split; [exact P|]. split; [exact F|]. split; [exact S|]. split; [exact M|]. split; [exact Q|].
  split; [apply X; [apply (elem_of_list_lookup_2 _ 1%nat); reflexivity|discriminate|apply elem_of_list_further, elem_of_list_here]|].
  assert (Y : forall n, n ∈ ["f"; "k"] -> provided (demo_world exact_files []) exact_l es n).
  { intros n Hn. destruct (exact_names n Hn) as (Hin & Hne).
    destruct (Q n Hin) as ((y & Hy & Hb) & H1 & _). destruct (C78_complete _ _ _ _ _ _ _ _ _ demo_orders P S L M (proj1 Hne) Hy H1 Hb) as [K|K]; [exact K|]. destruct (proj2 Hne K). }
  split; apply Y; [apply elem_of_list_here|apply elem_of_list_further, elem_of_list_here].
Qed.

(** The message printed by the command: it lists each name once, and exactly the
    names nothing provides. *)
Theorem C102_complete : forall wd lo l fuel es evs msg, valid_orders lo -> plain_inputs wd l -> few_outputs wd lo l fuel -> short_names wd lo l fuel -> loading wd lo l fuel es evs ->
  (forall y, y ∈ all_syms es -> comma_free (yi_name y)) -> jb_message (run_linker wd lo fuel l) = Some msg ->
  exists ns, lists msg (opt_output (lk_options l)) ns /\ NoDup ns /\
    (forall n, n ∈ ns -> n <> "" -> unprovided wd l es n) /\
    (forall n y, n <> "" -> y ∈ named n (all_syms es) -> all_standard n (all_syms es) -> binding (yi_sym y) <> 0 -> provided wd l es n \/ n ∈ ns) /\
    (forall n y, n <> "" -> y ∈ named n (all_syms es) -> all_standard n (all_syms es) -> binding (yi_sym y) <> 0 -> firm es n -> n ∈ ns <-> ~ provided wd l es n).
Proof.
  intros wd lo l fuel es evs msg V P F S L Hc H. destruct (message_link _ _ _ _ _ H) as (ns & E & E2 & ->).
  assert (Hne : ns <> []). { destruct (link wd lo l fuel) as [effs r] eqn:Hl. cbn [snd] in E2. subst r. destruct (PropErrors.C90 wd lo l fuel effs _ V Hl) as [[K _]|K]; [discriminate K|exact K]. }
  exists ns. split.
  { exists (join_with ", " ns). split; [reflexivity|]. apply ProofMain.items_join; [exact Hne|]. apply Forall_forall. intros n Hn. destruct (decide (n = "")) as [->|Hn']; [intros [|i]; discriminate|].
    destruct (up_mentioned _ _ _ _ (C78_partial _ _ _ _ _ _ _ _ V F L E Hn Hn')) as (y & Hy & <-). by apply Hc. }
  split; [exact (C78_once _ _ _ _ _ _ _ V L E)|].
  split; [intros n Hn Hn'; exact (C78_partial _ _ _ _ _ _ _ _ V F L E Hn Hn')|].
  split; [intros n y Hn Hy Hst Hb; exact (C78_complete _ _ _ _ _ _ _ _ _ V P S L E Hn Hy Hst Hb)|].
  intros n y Hn Hy Hst Hb Hf. exact (C78_exact _ _ _ _ _ _ _ _ _ V P F S L E Hn Hy Hst Hb Hf).
Qed.
Print Assumptions C102_complete.
Example C102_complete_case : let wd := demo_world exact_files [] in exists es evs, loading wd demo_lib_oracle exact_l 10 es evs /\ plain_inputs wd exact_l /\ few_outputs wd demo_lib_oracle exact_l 10 /\ short_names wd demo_lib_oracle exact_l 10 /\
  (forall y, y ∈ all_syms es -> comma_free (yi_name y)) /\ jb_message (run_linker wd demo_lib_oracle 10 exact_l) = Some "`./out`: [h, g]".
Proof.
  cbv zeta. destruct C78_exact_case as (es & evs & L & _ & P & F & S & _). exists es, evs. split; [exact L|]. split; [exact P|]. split; [exact F|]. split; [exact S|]. split; [|vm_compute; reflexivity].
  rewrite (cmd_only _ _ _ _ _ _ L eq_refl). assert (K : forallb (fun y => comma_free_b (yi_name y)) (all_syms (cmd_objs (demo_world exact_files []) exact_l)) = true) by (vm_compute; reflexivity).
  intros y Hy. rewrite forallb_forall in K. apply elem_of_list_In in Hy. apply comma_intro. exact (K y Hy).
Qed.
