(** Where the properties of a running program stop (C33, C71-C75): programs that
    meet everything but one hypothesis, and what becomes of them. *)
From Verif Require Import SpecRun DemoLink PropLayout PropFile PropGot PropMerge PropSyms PropFields PropExec ProofExec ProofImage ProofLoader ProofCall ProofProg.

(** Execution by computation. *)
Definition tick (env : environment) (x : process * cpu) : option (process * cpu) :=
  if ip x.2 =? en_resolver env then
    match pushed x.2 with
    | m :: k :: st => if m =? en_map env then match bind_slot env x.1 k with Some (p', a) => Some (p', mkCpu a st (registers x.2)) | None => None end else None
    | _ => None end
  else match execute x.1 x.2 with Some c' => Some (x.1, c') | None => None end.
Fixpoint ticks (env : environment) (n : nat) (x : process * cpu) : option (process * cpu) :=
  match n with O => Some x | S n' => match tick env x with Some x' => ticks env n' x' | None => None end end.
Lemma ticks_goes env n : forall x y, ticks env n x = Some y -> goes env x y.
Proof.
  induction n as [|n IH]; intros [p c] y H; cbn [ticks] in H; [injection H as <-; constructor|]. destruct (tick env (p, c)) as [x'|] eqn:E; [|discriminate H]. apply IH in H. clear IH.
  unfold tick in E. cbn [fst snd] in E. destruct (ip c =? en_resolver env) eqn:Ei.
  - apply N.eqb_eq in Ei. destruct (pushed c) as [|m [|k st]] eqn:Ec; [discriminate E|discriminate E|]. destruct (m =? en_map env) eqn:Em; [|discriminate E]. apply N.eqb_eq in Em as ->.
    destruct (bind_slot env p k) as [[p' a]|] eqn:Eb; [|discriminate E]. injection E as <-. eapply go_bind; [exact Ei|exact Ec|exact Eb|exact H].
  - apply N.eqb_neq in Ei. destruct (execute p c) as [c'|] eqn:Ex; [|discriminate E]. injection E as <-. eapply go_step; [exact Ei|exact Ex|exact H].
Qed.
(** The section of a name. *)
Definition only_b (w : writer) (secs : list section) (n : string) (f : section -> bool) : bool :=
  match filter (fun s => sec_name w s = Some n) secs with [s] => f s | _ => false end.
Lemma only_intro w secs n f : only_b w secs n f = true -> exists s, the_sec w secs n s /\ f s = true.
Proof.
  unfold only_b. destruct (filter _ secs) as [|s [|s' k]] eqn:E; [discriminate|intros H|discriminate]. assert (M : forall s', s' ∈ secs -> sec_name w s' = Some n -> s' = s).
  { intros s' Hs Hn. assert (K : s' ∈ filter (fun s => sec_name w s = Some n) secs) by (apply elem_of_list_filter; split; [exact Hn|exact Hs]). rewrite E in K. by apply elem_of_list_singleton in K. }
  assert (K : s ∈ filter (fun s => sec_name w s = Some n) secs) by (rewrite E; left). apply elem_of_list_filter in K as [K1 K2]. exists s. split; [|exact H]. split; [exact K2|]. split; [exact K1|exact M].
Qed.

Definition wf_def : elf_obj := demo_obj [progbits ".text" 6 16 [0xc3; 0xc3]] [("_start", dsym 0x12 1 0 1); ("f", dsym 0x22 1 1 1)] [].
Definition wf_use : elf_obj := demo_obj [progbits ".text" 6 16 [0xe8; 0; 0; 0; 0; 0xc3]; relasec ".rela.text"; progbits ".data" 3 8 (zeros 8); relasec ".rela.data"] [("f", dsym 0x10 0 0 0)]
  [(2, [mkGreloc 1 (Some (-4)%Z) 1 4]); (4, [mkGreloc 0 (Some 0%Z) 1 1])].
Definition wf_lib : elf_obj := demo_lib [("f", dsym 0x12 7 0x1000 6)].
Definition wf_files : list (string * elf_obj) := [("a.o", wf_def); ("b.o", wf_use); ("/l/libf.so", wf_lib)].
Definition wf_objs : list (string * elf_obj) := [("a.o", wf_def); ("b.o", wf_use)].

(** * C73 and C75 *)

(** a.o defines [f] weakly, right behind _start; b.o calls it and has a pointer
    to it. A library lists [f] as well. *)
Local Ltac check f := destruct (runnable_demo wf_files ["a.o"; "b.o"] ["/l/libf.so"] (fun w secs data => negb (can_run (w_program_headers w) (en_resolver run_env)) && low_b secs && (N.of_nat (length secs) <=? 2^16) && no_objects_b w secs && f w secs data))
  as (w & secs & evs & data & R & L & E); [vm_compute; reflexivity|vm_compute; reflexivity|vm_compute; reflexivity|];
  rewrite !andb_true_iff in E; destruct E as [[[[E0 E1] E2] E3] E]; apply run_proper in E0; apply low_intro in E1; apply N.leb_le in E2; apply no_objects_intro in E3;
  change (cmd_objs (demo_world wf_files []) (demo_linker ["a.o"; "b.o"] ["/l/libf.so"])) with wf_objs in L.
Lemma wf_home : exists x y, sole_home wf_objs "f" x /\ y ∈ named "f" (all_syms wf_objs) /\ binding (yi_sym y) = 2 /\ lies_in x y /\ offset_of wf_objs x 0 /\ si_data x <> None /\ st_value (yi_sym y) = 1 /\ si_name x = ".text".
Proof.
  assert (Q : exists x y, all_secs wf_objs !! 1%nat = Some x /\ contribs ".text" (all_secs wf_objs) !! 0%nat = Some x /\ named "f" (all_syms wf_objs) !! 0%nat = Some y /\
    binding (yi_sym y) = 2 /\ lies_b x y = true /\ st_value (yi_sym y) = 1 /\ si_name x = ".text" /\ bool_decide (si_data x = Some [0xc3; 0xc3]) = true)
    by (eexists _, _; split; [vm_compute; reflexivity|]; split; [vm_compute; reflexivity|]; split; [vm_compute; reflexivity|]; vm_compute; repeat split).
  destruct Q as (x & y & Hx & Hc & Hy & Hb & Hl & Hv & Hn & Hd). apply bool_decide_eq_true_1 in Hd. exists x, y. split; [apply (sole_intro _ _ 1%nat); [exact Hx|vm_compute; reflexivity]|]. split; [eapply elem_of_list_lookup_2; exact Hy|]. split; [exact Hb|].
  split; [apply lies_b_spec; exact Hl|]. split; [|split; [rewrite Hd; discriminate|split; [exact Hv|exact Hn]]]. rewrite <- Hn in Hc. exact (offset_intro _ _ _ _ Hx Hc).
Qed.
Lemma wf_site i k j off sec ty at_ ad : match all_secs wf_objs !! i, all_rels wf_objs !! k with
    | Some x, Some q => site_b wf_objs x q k j off && String.eqb (si_name x) sec && against_b wf_objs q "f" && (rel_type (ri_rel q) =? ty) && (gr_offset (ri_rel q) =? at_) && (rel_addend q =? ad)%Z && (if ty =? 4 then opcode_b wf_objs x q 0xe8 else true)
    | _, _ => false end = true ->
  exists x q, rel_site wf_objs x q off /\ si_name x = sec /\ rel_against wf_objs q "f" /\ rel_type (ri_rel q) = ty /\ gr_offset (ri_rel q) = at_ /\ rel_addend q = ad /\ (ty = 4 -> opcode wf_objs x q 0xe8).
Proof.
  destruct (all_secs wf_objs !! i) as [x|] eqn:Hx; [|discriminate]. destruct (all_rels wf_objs !! k) as [q|] eqn:Hq; [|discriminate]. rewrite !andb_true_iff, String.eqb_eq, !N.eqb_eq, Z.eqb_eq.
  intros [[[[[[H1 H2] H3] H4] H5] H6] H7]. exists x, q. split; [eapply site_intro; [exact Hx|exact Hq|exact H1]|]. split; [exact H2|]. split; [by apply against_intro|]. split; [exact H4|]. split; [exact H5|]. split; [exact H6|].
  intros ->. apply opcode_intro. exact H7.
Qed.

(** The call arrives in the library. *)
Theorem C73_refuted : exists wd lo l fuel w secs data es evs env x q off n x' off' y p p' s s' c c', runnable wd lo l fuel w secs data /\ low secs /\ loading wd lo l fuel es evs /\ few_sections secs /\
  rel_site es x q off /\ rel_against es q n /\ rel_type (ri_rel q) = 4 /\ rel_addend q = (-4)%Z /\ opcode es x q 0xe8 /\
  sole_home es n x' /\ y ∈ named n (all_syms es) /\ binding (yi_sym y) = 2 /\ lies_in x' y /\ offset_of es x' off' /\ si_data x' <> None /\
  proper env (w_program_headers w) /\ start env data = Some p /\ the_sec w secs (si_name x) s /\ code s /\ ip c = addr s + field_off off q - 1 /\ the_sec w secs (si_name x') s' /\ code s' /\
  goes env (p, c) (p', c') /\ ip c' = en_addr env (string_bytes n) /\ ip c' <> addr s' + off' + st_value (yi_sym y).
Proof.
  check (fun (w : writer) (secs : list section) (data : bytes) => match start run_env data with Some p => only_b w secs ".text" (fun s => code_b s && match ticks run_env 7 (p, mkCpu (addr s + (2 + 1) - 1) [] (fun _ => 0)) with
    | Some (p', c') => (ip c' =? en_addr run_env (string_bytes "f")) && negb (ip c' =? addr s + 0 + 1) | None => false end) | None => false end).
  destruct (start run_env data) as [p|] eqn:Ep; [|discriminate E]. apply only_intro in E as (s & Ts & E). apply andb_true_iff in E as [Ec E]. apply code_intro in Ec.
  destruct (ticks _ _ _) as [[p' c']|] eqn:Et; [|discriminate E]. apply ticks_goes in Et. apply andb_true_iff in E as [Ea En]. apply N.eqb_eq in Ea. apply negb_true_iff, N.eqb_neq in En.
  destruct wf_home as (x' & y & H1 & H2 & H3 & H4 & H5 & H6 & H7 & H8). destruct (wf_site 3 0 1 2 ".text" 4 1 (-4)%Z) as (x & q & Q1 & Q2 & Q3 & Q4 & Q5 & Q6 & Q7); [vm_compute; reflexivity|].
  eexists _, _, _, _, w, secs, data, wf_objs, evs, run_env, x, q, 2, "f", x', 0, y, p, p', s, s, (mkCpu (addr s + (2 + 1) - 1) [] (fun _ => 0)), c'.
  split; [exact R|]. split; [exact E1|]. split; [exact L|]. split; [exact E2|]. split; [exact Q1|]. split; [exact Q3|]. split; [exact Q4|]. split; [exact Q6|]. split; [exact (Q7 eq_refl)|].
  split; [exact H1|]. split; [exact H2|]. split; [exact H3|]. split; [exact H4|]. split; [exact H5|]. split; [exact H6|]. split; [exact E0|]. split; [exact Ep|]. rewrite Q2, H8.
  split; [exact Ts|]. split; [exact Ec|]. split; [unfold field_off; rewrite Q5; reflexivity|]. split; [exact Ts|]. split; [exact Ec|]. split; [exact Et|]. split; [exact Ea|]. rewrite H7. exact En.
Qed.
Print Assumptions C73_refuted.

(** The pointer has neither the address of the definition nor that of the
    library's: it is the start of the section, here _start. *)
Theorem C75_refuted : exists wd lo l fuel w secs data es evs env x q off n x' off' y p s s', runnable wd lo l fuel w secs data /\ no_objects w secs /\ loading wd lo l fuel es evs /\ few_sections secs /\
  rel_site es x q off /\ rel_against es q n /\ rel_type (ri_rel q) = 1 /\ rel_addend q = 0%Z /\
  sole_home es n x' /\ y ∈ named n (all_syms es) /\ binding (yi_sym y) = 2 /\ lies_in x' y /\ offset_of es x' off' /\ si_data x' <> None /\
  proper env (w_program_headers w) /\ start env data = Some p /\ the_sec w secs (si_name x) s /\ alloc s = true /\ si_name x = ".data" /\ the_sec w secs (si_name x') s' /\
  word (pr_mem p) (addr s + field_off off q) = Some (addr s' + off') /\ addr s' + off' <> addr s' + off' + st_value (yi_sym y) /\ addr s' + off' <> en_addr env (string_bytes n).
Proof.
  check (fun (w : writer) (secs : list section) (data : bytes) => match start run_env data with Some p => only_b w secs ".text" (fun s' => only_b w secs ".data" (fun s => alloc s && bool_decide (word (pr_mem p) (addr s + (0 + 0)) = Some (addr s' + 0)) &&
    negb (addr s' + 0 =? en_addr run_env (string_bytes "f")))) | None => false end).
  destruct (start run_env data) as [p|] eqn:Ep; [|discriminate E]. apply only_intro in E as (s' & Ts' & E). apply only_intro in E as (s & Ts & E). rewrite !andb_true_iff in E. destruct E as [[Ea Ew] En].
  apply bool_decide_eq_true_1 in Ew. apply negb_true_iff, N.eqb_neq in En.
  destruct wf_home as (x' & y & H1 & H2 & H3 & H4 & H5 & H6 & H7 & H8). destruct (wf_site 4 1 0 0 ".data" 1 0 0%Z) as (x & q & Q1 & Q2 & Q3 & Q4 & Q5 & Q6 & _); [vm_compute; reflexivity|].
  eexists _, _, _, _, w, secs, data, wf_objs, evs, run_env, x, q, 0, "f", x', 0, y, p, s, s'.
  split; [exact R|]. split; [exact E3|]. split; [exact L|]. split; [exact E2|]. split; [exact Q1|]. split; [exact Q3|]. split; [exact Q4|]. split; [exact Q6|].
  split; [exact H1|]. split; [exact H2|]. split; [exact H3|]. split; [exact H4|]. split; [exact H5|]. split; [exact H6|]. split; [exact E0|]. split; [exact Ep|]. rewrite Q2, H8.
  split; [exact Ts|]. split; [exact Ea|]. split; [reflexivity|]. split; [exact Ts'|]. split; [unfold field_off; rewrite Q5; exact Ew|]. split; [rewrite H7; lia|exact En].
Qed.
Print Assumptions C75_refuted.

(** * C71 and C72 *)

(** The program of Demo.v with an object of 48 bytes: copied over the GOT, it
    takes the word of .got.plt of [foo] with it, and the call of [foo] leads to
    an address at which there is nothing. *)
Definition big_lib : elf_obj := demo_lib [("foo", dsym 0x12 7 0x1000 6); ("bar", dsym 0x11 8 0x2000 48)].
Definition big_files : list (string * elf_obj) := [("a.o", demo_main); ("/l/libfoo.so", big_lib)].
Definition main_objs : list (string * elf_obj) := [("a.o", demo_main)].
Lemma main_site i k j n sec ty at_ ad (b : bool) : match all_secs main_objs !! i, all_rels main_objs !! k with
    | Some x, Some q => site_b main_objs x q k j 0 && String.eqb (si_name x) sec && against_b main_objs q n && (rel_type (ri_rel q) =? ty) && (gr_offset (ri_rel q) =? at_) && (rel_addend q =? ad)%Z && left_b main_objs q n && (if b then opcode_b main_objs x q 0xe8 else true)
    | _, _ => false end = true ->
  exists x q, rel_site main_objs x q 0 /\ si_name x = sec /\ rel_against main_objs q n /\ left_to_libraries main_objs q n /\ rel_type (ri_rel q) = ty /\ gr_offset (ri_rel q) = at_ /\ rel_addend q = ad /\ (b = true -> opcode main_objs x q 0xe8).
Proof.
  destruct (all_secs main_objs !! i) as [x|] eqn:Hx; [|discriminate]. destruct (all_rels main_objs !! k) as [q|] eqn:Hq; [|discriminate]. rewrite !andb_true_iff, String.eqb_eq, !N.eqb_eq, Z.eqb_eq.
  intros [[[[[[[H1 H2] H3] H4] H5] H6] H7] H8]. exists x, q. split; [eapply site_intro; [exact Hx|exact Hq|exact H1]|]. split; [exact H2|]. split; [by apply against_intro|]. split; [apply left_intro; exact H7|]. split; [exact H4|]. split; [exact H5|]. split; [exact H6|].
  intros ->. apply opcode_intro. exact H8.
Qed.
Theorem C71_refuted : exists wd lo l fuel w secs data es evs env x q off n p p' s c c', runnable wd lo l fuel w secs data /\ low secs /\ loading wd lo l fuel es evs /\ no_nuls es /\
  rel_site es x q off /\ rel_against es q n /\ left_to_libraries es q n /\ rel_type (ri_rel q) = 4 /\ rel_addend q = (-4)%Z /\ opcode es x q 0xe8 /\
  proper env (w_program_headers w) /\ start env data = Some p /\ the_sec w secs (si_name x) s /\ code s /\ ip c = addr s + field_off off q - 1 /\
  goes env (p, c) (p', c') /\ ip c' <> en_addr env (string_bytes n) /\ ip c' <> en_resolver env /\ pr_mem p' (ip c') = None /\ execute p' c' = None.
Proof.
  destruct (runnable_demo big_files ["a.o"] ["/l/libfoo.so"] (fun w secs data => negb (can_run (w_program_headers w) (en_resolver run_env)) && low_b secs && match start run_env data with
    | Some p => only_b w secs ".text" (fun s => code_b s && match ticks run_env 2 (p, mkCpu (addr s + (0 + 1) - 1) [] (fun _ => 0)) with
      | Some (p', c') => negb (ip c' =? en_addr run_env (string_bytes "foo")) && negb (ip c' =? en_resolver run_env) && bool_decide (pr_mem p' (ip c') = None) && match execute p' c' with None => true | _ => false end | None => false end)
    | None => false end)) as (w & secs & evs & data & R & L & E); [vm_compute; reflexivity|vm_compute; reflexivity|vm_compute; reflexivity|].
  change (cmd_objs (demo_world big_files []) (demo_linker ["a.o"] ["/l/libfoo.so"])) with main_objs in L. rewrite !andb_true_iff in E; destruct E as [[E0 E1] E]; apply run_proper in E0; apply low_intro in E1.
  destruct (start run_env data) as [p|] eqn:Ep; [|discriminate E]. apply only_intro in E as (s & Ts & E). apply andb_true_iff in E as [Ec E]. apply code_intro in Ec.
  destruct (ticks _ _ _) as [[p' c']|] eqn:Et; [|discriminate E]. apply ticks_goes in Et. rewrite !andb_true_iff, !negb_true_iff in E. destruct E as [[[Ea Eb] Em] Ex]. apply N.eqb_neq in Ea, Eb. apply bool_decide_eq_true_1 in Em.
  destruct (execute p' c') eqn:Ee; [discriminate Ex|].
  destruct (main_site 1 0 0 "foo" ".text" 4 1 (-4)%Z true) as (x & q & Q1 & Q2 & Q3 & Ql & Q4 & Q5 & Q6 & Q7); [vm_compute; reflexivity|].
  eexists _, _, _, _, w, secs, data, main_objs, evs, run_env, x, q, 0, "foo", p, p', s, (mkCpu (addr s + (0 + 1) - 1) [] (fun _ => 0)), c'.
  split; [exact R|]. split; [exact E1|]. split; [exact L|]. split; [apply no_nul_intro; vm_compute; reflexivity|]. split; [exact Q1|]. split; [exact Q3|]. split; [exact Ql|]. split; [exact Q4|]. split; [exact Q6|]. split; [exact (Q7 eq_refl)|].
  split; [exact E0|]. split; [exact Ep|]. rewrite Q2. split; [exact Ts|]. split; [exact Ec|]. split; [unfold field_off; rewrite Q5; reflexivity|]. split; [exact Et|]. split; [exact Ea|]. split; [exact Eb|]. split; [exact Em|exact Ee].
Qed.
Print Assumptions C71_refuted.

(** With the object of 24 bytes of Demo.v the address loaded for it is made of
    the object's own bytes. *)
Theorem C72_refuted : exists wd lo l fuel w secs data es evs env x q off n p p' s c c', runnable wd lo l fuel w secs data /\ low secs /\ loading wd lo l fuel es evs /\ no_nuls es /\
  rel_site es x q off /\ rel_against es q n /\ left_to_libraries es q n /\ rel_type (ri_rel q) = 42 /\ rel_addend q = (-4)%Z /\
  proper env (w_program_headers w) /\ start env data = Some p /\ the_sec w secs (si_name x) s /\ code s /\ ip c = addr s + field_off off q - 3 /\
  (exists ea, SpecReloc.decode_at (Z.of_N (addr s)) (contents s) (field_off off q - 3) = Some (MovLoad 0 ea, 7)) /\
  goes env (p, c) (p', c') /\ ip c' = ip c + 7 /\ registers c' 0 <> en_addr env (string_bytes n) /\ registers c' 0 = le_val ((fun i => en_byte env (string_bytes n) (8 + N.of_nat i)) <$> seq 0 8).
Proof.
  destruct (runnable_demo demo_files ["a.o"] ["/l/libfoo.so"] (fun w secs data => negb (can_run (w_program_headers w) (en_resolver run_env)) && low_b secs && match start run_env data with
    | Some p => only_b w secs ".text" (fun s => code_b s && match SpecReloc.decode_at (Z.of_N (addr s)) (contents s) (0 + 8 - 3) with Some (MovLoad 0 _, 7) => true | _ => false end &&
      match ticks run_env 1 (p, mkCpu (addr s + (0 + 8) - 3) [] (fun _ => 0)) with
      | Some (p', c') => (ip c' =? addr s + (0 + 8) - 3 + 7) && negb (registers c' 0 =? en_addr run_env (string_bytes "bar")) && (registers c' 0 =? le_val ((fun i => en_byte run_env (string_bytes "bar") (8 + N.of_nat i)) <$> seq 0 8)) | None => false end)
    | None => false end)) as (w & secs & evs & data & R & L & E); [vm_compute; reflexivity|vm_compute; reflexivity|vm_compute; reflexivity|].
  change (cmd_objs (demo_world demo_files []) (demo_linker ["a.o"] ["/l/libfoo.so"])) with main_objs in L. rewrite !andb_true_iff in E; destruct E as [[E0 E1] E]; apply run_proper in E0; apply low_intro in E1.
  destruct (start run_env data) as [p|] eqn:Ep; [|discriminate E]. apply only_intro in E as (s & Ts & E). rewrite !andb_true_iff in E. destruct E as [[Ec Ed] E]. apply code_intro in Ec.
  destruct (ticks _ _ _) as [[p' c']|] eqn:Et; [|discriminate E]. apply ticks_goes in Et. rewrite !andb_true_iff, !negb_true_iff in E. destruct E as [[Ei Ea] Eb]. apply N.eqb_neq in Ea. apply N.eqb_eq in Ei, Eb.
  destruct (main_site 1 1 0 "bar" ".text" 42 8 (-4)%Z false) as (x & q & Q1 & Q2 & Q3 & Ql & Q4 & Q5 & Q6 & _); [vm_compute; reflexivity|].
  eexists _, _, _, _, w, secs, data, main_objs, evs, run_env, x, q, 0, "bar", p, p', s, (mkCpu (addr s + (0 + 8) - 3) [] (fun _ => 0)), c'.
  split; [exact R|]. split; [exact E1|]. split; [exact L|]. split; [apply no_nul_intro; vm_compute; reflexivity|]. split; [exact Q1|]. split; [exact Q3|]. split; [exact Ql|]. split; [exact Q4|]. split; [exact Q6|].
  split; [exact E0|]. split; [exact Ep|]. rewrite Q2. split; [exact Ts|]. split; [exact Ec|]. unfold field_off. rewrite Q5. split; [reflexivity|]. split.
  { destruct (SpecReloc.decode_at _ _ _) as [[i n]|]; [|discriminate Ed]. destruct i as [r ea| | | | | | |]; try discriminate Ed. destruct r; [|discriminate Ed].
    destruct (decide (n = 7)) as [->|Hn]; [by exists ea|]. exfalso. destruct n as [|[[[p0|p0|]|p0|]|p0|]]; try discriminate Ed. apply Hn. reflexivity. }
  split; [exact Et|]. split; [exact Ei|]. split; [exact Ea|exact Eb].
Qed.
Print Assumptions C72_refuted.

(** * C74 *)

(** _start defined weakly in one object and strongly in another: the entry
    point is not in the program. *)
Definition st_weak : elf_obj := demo_obj [progbits ".text" 6 16 [0xc3]] [("_start", dsym 0x22 1 0 1)] [].
Definition st_strong : elf_obj := demo_obj [progbits ".text" 6 16 [0xc3]] [("_start", dsym 0x12 1 0 1)] [].
Definition st_files : list (string * elf_obj) := [("a.o", st_weak); ("b.o", st_strong)].
Theorem C74_refuted : exists wd lo l fuel w secs data es evs env x off y p s eh, runnable wd lo l fuel w secs data /\ loading wd lo l fuel es evs /\ few_sections secs /\
  ordinary es "_start" /\ winner "_start" (all_syms es) = Some y /\ binding (yi_sym y) = 1 /\ lies_in x y /\ offset_of es x off /\ si_data x <> None /\ proper env (w_program_headers w) /\ start env data = Some p /\
  the_sec w secs (si_name x) s /\ code s /\ rd_ehdr data 0 = Some eh /\ e_entry eh <> addr s + off + st_value (yi_sym y) /\ pr_mem p (e_entry eh) = None.
Proof.
  destruct (runnable_demo st_files ["a.o"; "b.o"] [] (fun w secs data => negb (can_run (w_program_headers w) (en_resolver run_env)) && (N.of_nat (length secs) <=? 2^16) && match start run_env data, rd_ehdr data 0 with
    | Some p, Some eh => only_b w secs ".text" (fun s => code_b s && negb (e_entry eh =? addr s + 1 + 0) && bool_decide (pr_mem p (e_entry eh) = None))
    | _, _ => false end)) as (w & secs & evs & data & R & L & E); [vm_compute; reflexivity|vm_compute; reflexivity|vm_compute; reflexivity|].
  change (cmd_objs (demo_world st_files []) (demo_linker ["a.o"; "b.o"] [])) with st_files in L. rewrite !andb_true_iff in E; destruct E as [[E0 E2] E]; apply run_proper in E0; apply N.leb_le in E2.
  destruct (start run_env data) as [p|] eqn:Ep; [|discriminate E]. destruct (rd_ehdr data 0) as [eh|] eqn:Eh; [|discriminate E]. apply only_intro in E as (s & Ts & E). rewrite !andb_true_iff in E. destruct E as [[Ec En] Em]. apply code_intro in Ec.
  apply negb_true_iff, N.eqb_neq in En. apply bool_decide_eq_true_1 in Em.
  assert (Q : exists x y, all_secs st_files !! 3%nat = Some x /\ contribs ".text" (all_secs st_files) !! 1%nat = Some x /\ winner "_start" (all_syms st_files) = Some y /\
    binding (yi_sym y) = 1 /\ lies_b x y = true /\ st_value (yi_sym y) = 0 /\ si_name x = ".text" /\ bool_decide (si_data x = Some [0xc3]) = true)
    by (eexists _, _; split; [vm_compute; reflexivity|]; split; [vm_compute; reflexivity|]; split; [vm_compute; reflexivity|]; vm_compute; repeat split).
  destruct Q as (x & y & Hx & Hc & Hy & Hb & Hl & Hv & Hn & Hd). apply bool_decide_eq_true_1 in Hd. rewrite <- Hn in Hc. pose proof (offset_intro _ _ _ _ Hx Hc) as Ho.
  eexists _, _, _, _, w, secs, data, st_files, evs, run_env, x, _, y, p, s, eh. split; [exact R|]. split; [exact L|]. split; [exact E2|]. split; [apply ordinary_intro; vm_compute; reflexivity|]. split; [exact Hy|]. split; [exact Hb|].
  split; [apply lies_b_spec; exact Hl|]. split; [exact Ho|]. split; [rewrite Hd; discriminate|]. split; [exact E0|]. split; [exact Ep|]. rewrite Hn. split; [exact Ts|]. split; [exact Ec|]. split; [exact Eh|]. split; [|exact Em].
  rewrite Hv. exact En.
Qed.
Print Assumptions C74_refuted.

(** * C33 *)

(** A section with the write flag only: no section begins behind the program
    headers, and the first segment, which is to hold .dynsym, has the bytes of
    the file's first page instead. *)
Theorem C33_refuted : exists wd lo l fuel w secs ph rest s, valid_oracle (lo_writer lo) /\ links wd lo l fuel w secs /\ loads (w_program_headers w) = ph :: rest /\ the_sec w secs ".dynsym" s /\ alloc s = true /\
  p_vaddr ph <= addr s < p_vaddr ph + p_memsz ph /\ offset s + p_vaddr ph <> p_offset ph + addr s /\ p_offset ph + p_filesz ph <= offset s /\ forall s', s' ∈ secs -> offset s' <> 64 + 56 * blen (w_program_headers w).
Proof.
  destruct (demo_links [("a.o", lone_obj)] ["a.o"] [] (fun w secs => match loads (w_program_headers w) with
    | ph :: _ => only_b w secs ".dynsym" (fun s => alloc s && (p_vaddr ph <=? addr s) && (addr s <? p_vaddr ph + p_memsz ph) && negb (offset s + p_vaddr ph =? p_offset ph + addr s) && (p_offset ph + p_filesz ph <=? offset s)) &&
        forallb (fun s' => negb (offset s' =? 64 + 56 * blen (w_program_headers w))) secs
    | [] => false end)) as (w & secs & H & E); [vm_compute; reflexivity|].
  destruct (loads (w_program_headers w)) as [|ph rest] eqn:El; [discriminate E|]. apply andb_true_iff in E as [E Eo]. apply only_intro in E as (s & Ts & E). rewrite !andb_true_iff in E. destruct E as [[[[E1 E2] E3] E4] E5].
  apply N.leb_le in E2, E5. apply N.ltb_lt in E3. apply negb_true_iff, N.eqb_neq in E4. rewrite forallb_forall in Eo.
  eexists _, demo_lib_oracle, _, _, w, secs, ph, rest, s. split; [exact demo_valid|]. split; [exact H|]. split; [exact El|]. split; [exact Ts|]. split; [exact E1|]. split; [lia|]. split; [exact E4|]. split; [exact E5|].
  intros s' Hs'. apply elem_of_list_In, Eo in Hs'. by apply negb_true_iff, N.eqb_neq in Hs'.
Qed.
Print Assumptions C33_refuted.
