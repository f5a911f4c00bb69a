(** Functions called before the program starts and after it ends (C79). *)
From Verif Require Import SpecInit DemoLink PropLayout PropFile PropGot PropMerge PropSyms PropFields PropExec ProofLoader ProofCall ProofProg ProofInit.

(** If the inputs' sections of a type have one name, the loader finds all their
    words, in the order loaded, and a word with a relocation against a function
    that the link defines is the function's address plus the addend.
    Missing: sections of several names, see [C79_refuted]; files with objects of
    libraries. *)
Theorem C79_partial : forall wd lo l fuel w secs data es evs ty t tsz n env, runnable wd lo l fuel w secs data -> no_objects w secs -> loading wd lo l fuel es evs -> few_sections secs ->
  (ty, t, tsz) ∈ array_kinds -> one_array es ty n -> proper env (w_program_headers w) ->
  exists p s vs, start env data = Some p /\ the_sec w secs n s /\ calls p t tsz = Some vs /\ N.of_nat (length vs) = array_bytes es n / 8 /\
    (forall k, N.of_nat k < array_bytes es n / 8 -> vs !! k = word (pr_mem p) (addr s + 8 * N.of_nat k)) /\
    forall x q off m x' off' y k, si_name x = n -> rel_site es x q off -> rel_against es q m -> stays_in wd lo l m -> rel_type (ri_rel q) = 1 -> defined_in es m x' off' y ->
      field_off off q = 8 * N.of_nat k -> N.of_nat k < array_bytes es n / 8 ->
      exists s', the_sec w secs (si_name x') s' /\ vs !! k = Some (addr_of (Z.of_N (addr s' + off' + st_value (yi_sym y)) + rel_addend q)).
Proof.
  intros wd lo l fuel w secs data es evs ty t tsz n env R NO L FS Hk OA PE. destruct (array_called R es evs ty t tsz n env L Hk OA NO PE) as (p & s & vs & Hp & Ts & Im & Hc & Hl & Hw).
  exists p, s, vs. split; [exact Hp|]. split; [exact Ts|]. split; [exact Hc|]. split; [exact Hl|]. split; [exact Hw|].
  intros x q off m x' off' y k Hx RS RA NL Hty HD Ef Hlt. rewrite <- Hx in Ts. destruct (pointer R es evs x q off m x' off' y p s L FS RS RA NL Hty HD Ts Im) as (s' & Ts' & H). exists s'. split; [exact Ts'|]. rewrite (Hw k Hlt), <- Ef. exact H.
Qed.
Print Assumptions C79_partial.
(** Without such sections nothing is called. *)
Theorem C79_none : forall wd lo l fuel w secs data es evs ty t tsz env p, runnable wd lo l fuel w secs data -> loading wd lo l fuel es evs -> (ty, t, tsz) ∈ array_kinds ->
  (forall x, x ∈ all_secs es -> sh_type (si_sh x) <> ty) -> alive env w secs p -> calls p t tsz = Some [].
Proof. intros wd lo l fuel w secs data es evs ty t tsz env p R L Hk HN A. exact (no_tags R es evs ty t tsz env p L Hk HN A). Qed.
Print Assumptions C79_none.

(** ** Two constructors in two objects *)
Definition ctor_a : elf_obj := demo_obj [progbits ".text" 6 16 [0x90; 0xc3; 0xc3]; mkDsec ".init_array" 14 3 8 8 [0; 0; 0; 0; 0; 0; 0; 0]; relasec ".rela.init_array"]
  [("_start", dsym 0x12 1 0 1); ("c1", dsym 0x12 1 1 1)] [(3, [mkGreloc 0 (Some 0%Z) 2 1])].
Definition ctor_b (name : string) : elf_obj := demo_obj [progbits ".text" 6 1 [0x90; 0x90; 0xc3]; mkDsec name 14 3 8 8 [0; 0; 0; 0; 0; 0; 0; 0]; relasec ".rela.init_array"]
  [("c2", dsym 0x12 1 2 1)] [(3, [mkGreloc 0 (Some 0%Z) 1 1])].
Definition ctor_files (name : string) : list (string * elf_obj) := [("a.o", ctor_a); ("b.o", ctor_b name)].
Definition ctor_calls (w : writer) (secs : list section) (data : bytes) (f : section -> list N) : bool :=
  match start run_env data with
  | Some p => reads_b w secs ".text" (fun s => bool_decide (calls p 25 27 = Some (f s)))
  | None => false
  end.
Definition ctor_hyps (w : writer) (secs : list section) : bool := (N.of_nat (length secs) <=? 2^16) && no_objects_b w secs && negb (can_run (w_program_headers w) (en_resolver run_env)).
Definition ctor_wd (name : string) : world := demo_world (ctor_files name) [].
Definition ctor_l : linker := demo_linker ["a.o"; "b.o"] [].
Definition ctor_links (name : string) (w : writer) (secs : list section) (evs : list event) (data : bytes) : Prop :=
  runnable (ctor_wd name) demo_lib_oracle ctor_l 10 w secs data /\ no_objects w secs /\ loading (ctor_wd name) demo_lib_oracle ctor_l 10 (ctor_files name) evs /\ few_sections secs /\ proper run_env (w_program_headers w).
Lemma ctor_check name f : demo_check (ctor_files name) ["a.o"; "b.o"] [] (fun w secs => good_b w secs && run_b (fun w secs data => ctor_hyps w secs && ctor_calls w secs data f) w secs) = true -> demo_plain_b (ctor_files name) ["a.o"; "b.o"] = true ->
  exists w secs evs data p s, ctor_links name w secs evs data /\ start run_env data = Some p /\ the_sec w secs ".text" s /\ calls p 25 27 = Some (f s).
Proof.
  intros H HP. destruct (runnable_demo (ctor_files name) ["a.o"; "b.o"] [] (fun w secs data => ctor_hyps w secs && ctor_calls w secs data f) H HP) as (w & secs & evs & data & R & L & E); [vm_compute; reflexivity|].
  change (cmd_objs (demo_world (ctor_files name) []) (demo_linker ["a.o"; "b.o"] [])) with (ctor_files name) in L. apply andb_true_iff in E as [E1 E2]. unfold ctor_hyps in E1. rewrite !andb_true_iff in E1. destruct E1 as [[E0 E1] E3]. apply N.leb_le in E0. apply no_objects_intro in E1. apply run_proper in E3.
  unfold ctor_calls in E2. destruct (start run_env data) as [p|] eqn:Ep; [|discriminate E2].
  destruct (C40_partial _ _ _ _ _ _ _ _ ".text" (rn_good _ _ _ _ _ _ _ R) L) as (s & Ts & _); [discriminate|cbn; discriminate|]. pose proof (reads_intro _ _ _ _ _ E2 Ts) as K. cbv beta in K. apply bool_decide_eq_true_1 in K.
  exists w, secs, evs, data, p, s. split; [split; [exact R|split; [exact E1|split; [exact L|split; [exact E0|exact E3]]]]|]. split; [exact Ep|]. split; [exact Ts|exact K].
Qed.
Definition one_array_b (es : list (string * elf_obj)) (ty : N) (n : string) : bool :=
  forallb (fun x => Bool.eqb (sh_type (si_sh x) =? ty) (String.eqb (si_name x) n)) (all_secs es) && forallb (fun x => N.testbit (sh_flags (si_sh x)) 1) (contribs n (all_secs es)) &&
  negb (String.eqb n "") && negb (String.eqb n ".init") && negb (String.eqb n ".fini") && match contribs n (all_secs es) with [] => false | _ => true end.
Lemma one_array_intro es ty n : one_array_b es ty n = true -> one_array es ty n.
Proof.
  unfold one_array_b. rewrite !andb_true_iff, !negb_true_iff, !String.eqb_neq, !forallb_forall. intros [[[[[H1 H2] H3] H4] H5] H6]. split.
  - split; [exact H3|]. rewrite !elem_of_cons, elem_of_nil. intros [E|[E|[]]]; contradiction.
  - intros E. rewrite E in H6. discriminate H6.
  - intros x Hx. apply elem_of_list_In in Hx. specialize (H1 x Hx). cbv beta in H1. apply Bool.eqb_prop in H1. rewrite <- N.eqb_eq, H1. apply String.eqb_eq.
  - intros x Hx. apply elem_of_list_In in Hx. exact (H2 x Hx).
Qed.
(** Both are called, in the order of the objects. *)
Example C79_case : exists w secs evs data p s, ctor_links ".init_array" w secs evs data /\ one_array (ctor_files ".init_array") 14 ".init_array" /\ array_bytes (ctor_files ".init_array") ".init_array" = 16 /\
  start run_env data = Some p /\ the_sec w secs ".text" s /\ calls p 25 27 = Some [addr s + 1; addr s + 5].
Proof.
  destruct (ctor_check ".init_array" (fun s => [addr s + 1; addr s + 5])) as (w & secs & evs & data & p & s & H & Hp & Ts & Hc); [vm_compute; reflexivity|vm_compute; reflexivity|].
  exists w, secs, evs, data, p, s. split; [exact H|]. split; [apply one_array_intro; vm_compute; reflexivity|]. split; [vm_compute; reflexivity|]. split; [exact Hp|]. split; [exact Ts|exact Hc].
Qed.
(** A constructor with a priority is in a section of its own name: of the two
    constructors only one is called. *)
Theorem C79_refuted : exists wd lo l fuel w secs data es evs env p v, runnable wd lo l fuel w secs data /\ no_objects w secs /\ loading wd lo l fuel es evs /\ few_sections secs /\ proper env (w_program_headers w) /\
  si_size <$> filter (fun x => sh_type (si_sh x) = 14) (all_secs es) = [8; 8] /\ (forall x, x ∈ all_secs es -> sh_type (si_sh x) = 14 -> exists s, the_sec w secs (si_name x) s /\ alloc s = true) /\
  start env data = Some p /\ calls p 25 27 = Some [v].
Proof.
  destruct (ctor_check ".init_array.00100" (fun s => [addr s + 5])) as (w & secs & evs & data & p & s & (R & NO & L & FS & PE) & Hp & Ts & Hc); [vm_compute; reflexivity|vm_compute; reflexivity|].
  eexists _, _, _, _, w, secs, data, _, evs, run_env, p, _. split; [exact R|]. split; [exact NO|]. split; [exact L|]. split; [exact FS|]. split; [exact PE|]. split; [vm_compute; reflexivity|]. split; [|split; [exact Hp|exact Hc]].
  intros x Hx Ht. assert (B : forallb (fun x => if sh_type (si_sh x) =? 14 then forallb (fun x' => if String.eqb (si_name x') (si_name x) then N.testbit (sh_flags (si_sh x')) 1 else true) (all_secs (ctor_files ".init_array.00100")) && negb (String.eqb (si_name x) "") else true) (all_secs (ctor_files ".init_array.00100")) = true) by (vm_compute; reflexivity).
  rewrite forallb_forall in B. pose proof (proj1 (elem_of_list_In _ _) Hx) as Hx'. specialize (B x Hx'). rewrite Ht in B. change (14 =? 14) with true in B. cbv iota in B. apply andb_true_iff in B as [B1 B2]. apply negb_true_iff, String.eqb_neq in B2. rewrite forallb_forall in B1.
  destruct (C40_partial _ _ _ _ _ _ _ _ (si_name x) (rn_good _ _ _ _ _ _ _ R) L B2) as (s' & Ts' & _ & _ & (x' & Hx2 & _ & Hf) & _). { intros E. assert (I : x ∈ contribs (si_name x) (all_secs (ctor_files ".init_array.00100"))) by (apply elem_of_list_filter; split; [reflexivity|exact Hx]). rewrite E in I. by apply elem_of_nil in I. }
  exists s'. split; [exact Ts'|]. unfold alloc. rewrite Hf. apply head_Some_elem_of, elem_of_list_filter in Hx2 as [E2 Hx2]. apply elem_of_list_In in Hx2. specialize (B1 x' Hx2). cbv beta in B1. rewrite E2, String.eqb_refl in B1. exact B1.
Qed.
Print Assumptions C79_refuted.
