(** Output files when they are run (C69-C75). *)
From Verif Require Import SpecRun DemoLink PropLayout PropFile PropGot PropMerge PropSyms PropFields ProofExec ProofImage ProofLoader ProofCall ProofProg.

(** * C69 *)

(** The kernel maps the file: every allocated section is at its address with
    its contents, or zeros, and its permissions. Missing: .copyrel, whose size
    is set after the layout. *)
Theorem C69_partial : forall wd lo l fuel w secs data, runnable wd lo l fuel w secs data ->
  exists p, map_file data = Some p /\ forall s, s ∈ secs -> alloc s = true -> sec_name w s <> Some ".copyrel" -> in_memory p s.
Proof. intros wd lo l fuel w secs data R. destruct (image R) as (p & H1 & _ & H2). exists p. split; [exact H1|exact H2]. Qed.
Print Assumptions C69_partial.

(** * C70 *)

(** The loader finds its tables, applies every record and leaves a process in
    which the rest of the properties hold; sections it has no business with
    are as in the file, and the words of .got.plt lead back into the PLT.
    Missing: files with objects of libraries, see [C70_refuted]. *)
Theorem C70_partial : forall wd lo l fuel w secs data env, runnable wd lo l fuel w secs data -> no_objects w secs -> proper env (w_program_headers w) ->
  exists p, start env data = Some p /\ alive env w secs p /\
    (forall s, s ∈ secs -> alloc s = true -> (forall n, sec_name w s = Some n -> n ∉ [".copyrel"; ".got"; ".got.plt"]) -> in_memory p s) /\
    (forall pl g i k name, the_sec w secs ".plt" pl -> the_sec w secs ".got.plt" g -> plt_slot w secs i k name -> word (pr_mem p) (addr g + 8 * (i + 3)) = Some (addr pl + 16 * (i + 1) + 6)).
Proof. intros wd lo l fuel w secs data env R. exact (started R env). Qed.
Print Assumptions C70_partial.

(** * C71 *)

(** A call, or a jump, to a function of a library ends at the address the
    loader has for it, with the return address of the call on the stack and
    the registers unchanged. Of memory at most the function's word of .got.plt
    changes; the process is still one for which all this holds, and once the
    word is set nothing changes any more. Missing: processes started from files
    with objects of libraries. *)
Theorem C71_partial : forall wd lo l fuel w secs data es evs x q off n env p s b c, runnable wd lo l fuel w secs data -> low secs -> loading wd lo l fuel es evs -> no_nuls es ->
  rel_site es x q off -> rel_against es q n -> left_to_libraries es q n -> rel_type (ri_rel q) = 4 -> rel_addend q = (-4)%Z -> opcode es x q b ->
  proper env (w_program_headers w) -> alive env w secs p -> the_sec w secs (si_name x) s -> code s -> ip c = addr s + field_off off q - 1 ->
  exists p' g i, the_sec w secs ".got.plt" g /\ 8 * (i + 3) + 8 <= memsz g /\
    goes env (p, c) (p', gone b c (en_addr env (string_bytes n)) (addr s + field_off off q + 4)) /\ alive env w secs p' /\
    word (pr_mem p') (addr g + 8 * (i + 3)) = Some (en_addr env (string_bytes n)) /\
    (forall a, a < addr g + 8 * (i + 3) \/ addr g + 8 * (i + 3) + 8 <= a -> pr_mem p' a = pr_mem p a) /\
    (word (pr_mem p) (addr g + 8 * (i + 3)) = Some (en_addr env (string_bytes n)) -> p' = p).
Proof. intros wd lo l fuel w secs data es evs x q off n env p s b c R LW. exact (call_library R LW es evs x q off n env p s b c). Qed.
Print Assumptions C71_partial.

(** * C72 *)

(** A load or a call through the GOT of a name of a library: the register gets
    the address the loader has for it, or execution goes on there. Missing:
    processes started from files with objects of libraries, see
    [C70_refuted]. *)
Theorem C72_partial : forall wd lo l fuel w secs data es evs x q off n env p s k ins c, runnable wd lo l fuel w secs data -> low secs -> loading wd lo l fuel es evs -> no_nuls es ->
  rel_site es x q off -> rel_against es q n -> left_to_libraries es q n -> rel_type (ri_rel q) = 41 \/ rel_type (ri_rel q) = 42 -> rel_addend q = (-4)%Z ->
  proper env (w_program_headers w) -> alive env w secs p -> the_sec w secs (si_name x) s -> code s ->
  SpecReloc.decode_at (Z.of_N (addr s)) (contents s) k = Some ins -> ip c = addr s + k ->
  (forall r ea, ins = (MovLoad r ea, 7) -> field_off off q = k + 3 -> goes env (p, c) (p, mkCpu (ip c + 7) (pushed c) (set_reg (registers c) r (en_addr env (string_bytes n))))) /\
  (forall ea, ins = (CallInd ea, 6) -> field_off off q = k + 2 -> goes env (p, c) (p, mkCpu (en_addr env (string_bytes n)) (ip c + 6 :: pushed c) (registers c))).
Proof. intros wd lo l fuel w secs data es evs x q off n env p s k ins c R LW. exact (load_got R LW es evs x q off n env p s k ins c). Qed.
Print Assumptions C72_partial.

(** * C73 *)

(** A call, or a jump, to a function that an object of the link defines and no
    library lists arrives at its bytes: those of the defining section from the
    symbol's value on, but for relocated fields. Missing: names that a library
    lists as well. *)
Theorem C73_partial : forall wd lo l fuel w secs data es evs x q off n x' off' y env p s b c, runnable wd lo l fuel w secs data -> low secs -> loading wd lo l fuel es evs -> few_sections secs ->
  rel_site es x q off -> rel_against es q n -> stays_in wd lo l n -> rel_type (ri_rel q) = 4 \/ rel_type (ri_rel q) = 2 -> rel_addend q = (-4)%Z -> opcode es x q b ->
  defined_in es n x' off' y -> proper env (w_program_headers w) -> alive env w secs p -> the_sec w secs (si_name x) s -> code s -> ip c = addr s + field_off off q - 1 ->
  exists s', the_sec w secs (si_name x') s' /\ (code s' ->
    goes env (p, c) (p, gone b c (addr s' + off' + st_value (yi_sym y)) (addr s + field_off off q + 4)) /\
    forall k, st_value (yi_sym y) + k < si_size x' -> unrelocated es x' (st_value (yi_sym y) + k) ->
      pr_mem p (addr s' + off' + st_value (yi_sym y) + k) = si_bytes x' !! N.to_nat (st_value (yi_sym y) + k)).
Proof.
  intros wd lo l fuel w secs data es evs x q off n x' off' y env p s b c R LW L FS RS RA NL Hty Hadd OP HD PE A Ts C Hip.
  destruct (call_near R LW es evs x q off n x' off' y env p s b c L FS RS RA NL Hty Hadd OP HD PE A Ts C Hip) as (s' & Ts' & H). exists s'. split; [exact Ts'|]. intros (K1 & K2 & K3 & K4). split; [exact (H K1)|].
  intros k Hk Hu. rewrite <- (N.add_assoc (addr s' + off')). destruct HD as (_ & HD & _ & _ & Ho & Hd & _). exact (input_memory R es evs x' off' env p s' _ L A (proj1 (proj2 HD)) Ho Hd Ts' K1 K3 Hk Hu).
Qed.
Print Assumptions C73_partial.

(** The address of such a name, loaded through the GOT in the object. *)
Theorem C73_lea : forall wd lo l fuel w secs data es evs x q off n x' off' y env p s k c, runnable wd lo l fuel w secs data -> low secs -> loading wd lo l fuel es evs -> few_sections secs ->
  rel_site es x q off -> rel_against es q n -> stays_in wd lo l n -> rel_type (ri_rel q) = 42 -> rel_addend q = (-4)%Z ->
  defined_in es n x' off' y -> proper env (w_program_headers w) -> alive env w secs p -> the_sec w secs (si_name x) s -> code s -> gr_offset (ri_rel q) = k + 3 -> ip c = addr s + off + k ->
  exists s' reg ea, the_sec w secs (si_name x') s' /\ SpecReloc.decode_at (Z.of_N (addr s + off)) (si_bytes x) k = Some (MovLoad reg ea, 7) /\
    (alloc s' = true -> goes env (p, c) (p, mkCpu (addr s + off + k + 7) (pushed c) (set_reg (registers c) reg (addr s' + off' + st_value (yi_sym y))))).
Proof. intros wd lo l fuel w secs data es evs x q off n x' off' y env p s k c R LW. exact (lea_near R LW es evs x q off n x' off' y env p s k c). Qed.
Print Assumptions C73_lea.

(** * C74 *)

(** Execution starts at the code an object has for [_start]. *)
Theorem C74_partial : forall wd lo l fuel w secs data es evs x off y env p, runnable wd lo l fuel w secs data -> loading wd lo l fuel es evs -> few_sections secs -> defined_in es "_start" x off y -> alive env w secs p ->
  exists eh s, rd_ehdr data 0 = Some eh /\ the_sec w secs (si_name x) s /\ e_entry eh = addr s + off + st_value (yi_sym y) /\ (code s ->
    forall k, st_value (yi_sym y) + k < si_size x ->
      can_run (pr_phs p) (e_entry eh + k) = true /\ (unrelocated es x (st_value (yi_sym y) + k) -> pr_mem p (e_entry eh + k) = si_bytes x !! N.to_nat (st_value (yi_sym y) + k))).
Proof.
  intros wd lo l fuel w secs data es evs x off y env p R L FS HD A. destruct (entry R es evs x off y L FS HD) as (eh & s & He & Ts & E). exists eh, s. split; [exact He|]. split; [exact Ts|]. split; [exact E|].
  intros (K1 & K2 & K3 & K4) k Hk. rewrite E, <- (N.add_assoc (addr s + off)). destruct HD as (_ & HD & _ & _ & Ho & Hd & _). split; [|intros Hu; exact (input_memory R es evs x off env p s _ L A (proj1 (proj2 HD)) Ho Hd Ts K1 K3 Hk Hu)].
  destruct (al_fixed _ _ _ _ A s (proj1 Ts) K1 K3) as [_ M]. rewrite <- K4. rewrite <- N.add_assoc. apply M. destruct Ho as (j & Hj & ->).
  destruct (C40_partial _ _ _ _ _ _ _ _ (si_name x) (rn_good _ _ _ _ _ _ _ R) L (proj1 (proj2 HD))) as (s' & Ts2 & Hsz & _); [by intros E'; rewrite E' in Hj|]. pose proof (the_one _ _ _ _ _ Ts Ts2). subst s'.
  rewrite Hsz. clear -Hj Hk. pose proof (take_drop_middle _ _ _ Hj) as E. rewrite <- E at 2. rewrite fmap_app, ntotal_app, fmap_cons, ntotal_cons. lia.
Qed.
Print Assumptions C74_partial.

(** * C75 *)

(** A 64-bit pointer in a section's data to a name the link defines and no
    library lists: when the program starts its word is the address of the
    definition plus the addend. *)
Theorem C75_partial : forall wd lo l fuel w secs data es evs x q off n x' off' y env s, runnable wd lo l fuel w secs data -> no_objects w secs -> loading wd lo l fuel es evs -> few_sections secs ->
  rel_site es x q off -> rel_against es q n -> stays_in wd lo l n -> rel_type (ri_rel q) = 1 -> defined_in es n x' off' y -> proper env (w_program_headers w) ->
  the_sec w secs (si_name x) s -> alloc s = true -> si_name x ∉ [".copyrel"; ".got"; ".got.plt"] ->
  exists p s', start env data = Some p /\ the_sec w secs (si_name x') s' /\ word (pr_mem p) (addr s + field_off off q) = Some (addr_of (Z.of_N (addr s' + off' + st_value (yi_sym y)) + rel_addend q)).
Proof.
  intros wd lo l fuel w secs data es evs x q off n x' off' y env s R NO L FS RS RA NL Hty HD PE Ts Ha Hn. destruct (started R env NO PE) as (p & Hp & _ & M & _).
  destruct (pointer R es evs x q off n x' off' y p s L FS RS RA NL Hty HD Ts) as (s' & Ts' & H).
  { apply M; [exact (proj1 Ts)|exact Ha|]. intros m Hm. destruct Ts as (_ & Hm' & _). rewrite Hm in Hm'. injection Hm' as ->. exact Hn. }
  exists p, s'. split; [exact Hp|]. split; [exact Ts'|exact H].
Qed.
Print Assumptions C75_partial.

(** * A program and its run *)
Local Instance ehdr_fits_dec h : Decision (ehdr_fits h).
Proof. unfold ehdr_fits. apply _. Defined.
Local Instance phdr_fits_dec h : Decision (phdr_fits h).
Proof. unfold phdr_fits. apply _. Defined.
Local Instance shdr_fits_dec h : Decision (shdr_fits h).
Proof. unfold shdr_fits. apply _. Defined.
Local Instance headers_fit_dec w secs : Decision (headers_fit w secs).
Proof. unfold headers_fit. apply _. Defined.
(** _start: call foo; mov rax, [GOT of baz]; call f; mov rax, [GOT of loc];
    call [GOT of baz]; jmp foo. f: ret. A word of .data is loc + 4. *)
Definition run_main : elf_obj := demo_obj
  [progbits ".text" 6 16 [0xe8; 0; 0; 0; 0; 0x48; 0x8b; 0x05; 0; 0; 0; 0; 0xe8; 0; 0; 0; 0; 0x48; 0x8b; 0x05; 0; 0; 0; 0; 0xff; 0x15; 0; 0; 0; 0; 0xe9; 0; 0; 0; 0; 0xc3]; relasec ".rela.text";
   progbits ".data" 3 8 (zeros 16); relasec ".rela.data"; nobits ".bss" 3 8 16]
  [("_start", dsym 0x12 1 0 35); ("f", dsym 0x12 1 35 1); ("foo", dsym 0x10 0 0 0); ("baz", dsym 0x10 0 0 0); ("loc", dsym 0x11 3 8 8)]
  [(2, [mkGreloc 1 (Some (-4)%Z) 3 4; mkGreloc 8 (Some (-4)%Z) 4 42; mkGreloc 13 (Some (-4)%Z) 2 4; mkGreloc 20 (Some (-4)%Z) 5 42; mkGreloc 26 (Some (-4)%Z) 4 41; mkGreloc 31 (Some (-4)%Z) 3 4]);
   (4, [mkGreloc 0 (Some 4%Z) 5 1])].
(** A library with an [f] of its own. *)
Definition run_lib : elf_obj := demo_lib [("foo", dsym 0x12 7 0x1000 6); ("f", dsym 0x12 7 0x1100 6); ("bar", dsym 0x11 8 0x2000 24); ("baz", dsym 0x12 7 0x1006 6); ("qux", dsym 0x11 8 0x2018 3)].
Definition run_files : list (string * elf_obj) := [("a.o", run_main); ("/l/libduo.so", run_lib)].
Definition run_objs : list (string * elf_obj) := [("a.o", run_main)].
Definition run_wd : world := demo_world run_files [].
Definition run_l : linker := demo_linker ["a.o"] ["/l/libduo.so"].
(** A loader with the libraries high up. *)
Definition run_env : environment := mkEnv (fun n => 0x7f0000000000 + 256 * (le_val n mod 65536)) (fun _ i => i mod 7) 0x7fff00001000 0x7fff00002000.

Definition no_objects_b (w : writer) (secs : list section) : bool :=
  reads_b w secs ".dynsym" (fun ds => forallb (fun j => match rd_sym (contents ds) (24 * N.of_nat j) with Some y => negb (typ y =? 1) | None => true end) (seq 0 (length (contents ds)))).
Lemma no_objects_intro w secs : no_objects_b w secs = true -> no_objects w secs.
Proof.
  unfold no_objects_b. intros H ds j y Tds Hy. pose proof (reads_intro _ _ _ _ _ H Tds) as K. cbv beta in K. rewrite forallb_forall in K. pose proof (proj2 (rd_sym_part _ _ _ Hy)) as B.
  specialize (K (N.to_nat j)). rewrite N2Nat.id, Hy in K. apply N.eqb_neq, negb_true_iff, K. apply in_seq. lia.
Qed.
Definition low_b (secs : list section) : bool := forallb (fun s => if alloc s then addr s + memsz s <=? 2^31 else true) secs.
Lemma low_intro secs : low_b secs = true -> low secs.
Proof. unfold low_b. rewrite forallb_forall. intros H s Hs Ha. apply elem_of_list_In in Hs. specialize (H s Hs). cbv beta in H. rewrite Ha in H. by apply N.leb_le. Qed.
Lemma run_proper phs : negb (can_run phs (en_resolver run_env)) = true -> proper run_env phs.
Proof. intros H. apply negb_true_iff in H. split; [|reflexivity|reflexivity|exact H]. intros name. unfold run_env, en_addr. pose proof (N.mod_lt (le_val name) 65536 ltac:(discriminate)) as B. lia. Qed.
Definition run_b (f : writer -> list section -> bytes -> bool) (w : writer) (secs : list section) : bool :=
  usual w secs && bool_decide (headers_fit w secs) && zero_fill_last_b secs && match write_to_disk demo_oracle w with Ok data => f w secs data | _ => false end.
Lemma runnable_demo files objs libs f : demo_check files objs libs (fun w secs => good_b w secs && run_b f w secs) = true -> demo_plain_b files objs = true -> libs_b files = true ->
  exists w secs evs data, runnable (demo_world files []) demo_lib_oracle (demo_linker objs libs) 10 w secs data /\
    loading (demo_world files []) demo_lib_oracle (demo_linker objs libs) 10 (cmd_objs (demo_world files []) (demo_linker objs libs)) evs /\ f w secs data = true.
Proof.
  intros H H1 H2. destruct (good_demo files objs libs (run_b f) H H1 H2) as (w & secs & evs & G & L & E). unfold run_b in E. rewrite !andb_true_iff in E. destruct E as [[[E1 E2] E3] E4].
  apply usual_spec in E1 as (U1 & U2 & _). apply bool_decide_eq_true_1 in E2. apply zero_fill_last_spec in E3. destruct (write_to_disk demo_oracle w) as [data| |] eqn:Ed; [|discriminate E4|discriminate E4].
  exists w, secs, evs, data. split; [|split; [exact L|exact E4]]. split; [exact G|exact U1|exact E3|exact E2|].
  exists [ECreate "./out"; EWrite "./out" data; EChmod "./out" 493], "./out". split; [|right; left].
  unfold link, link_bytes. rewrite (proj1 (gl_links _ _ _ _ _ _ G)). cbn [mbind res_bind]. change (lo_writer demo_lib_oracle) with demo_oracle. rewrite Ed. reflexivity.
Qed.
Definition code_b (s : section) : bool := alloc s && negb (is_nobits s) && negb (writable s) && executable s.
Lemma code_intro s : code_b s = true -> code s.
Proof. unfold code_b, code. rewrite !andb_true_iff, !negb_true_iff. tauto. Qed.

(** The link, started. *)
Definition run_links (w : writer) (secs : list section) (evs : list event) (data : bytes) : Prop :=
  runnable run_wd demo_lib_oracle run_l 10 w secs data /\ loading run_wd demo_lib_oracle run_l 10 run_objs evs /\
  low secs /\ few_sections secs /\ no_objects w secs /\ proper run_env (w_program_headers w).
Lemma run_check f : demo_check run_files ["a.o"] ["/l/libduo.so"] (fun w secs => good_b w secs && run_b f w secs) = true -> exists w secs evs data, run_links w secs evs data /\ f w secs data = true.
Proof.
  intros H. destruct (runnable_demo run_files ["a.o"] ["/l/libduo.so"] (fun w secs data => low_b secs && (N.of_nat (length secs) <=? 2^16) && no_objects_b w secs && negb (can_run (w_program_headers w) (en_resolver run_env)))) as (w & secs & evs & data & R & L & E); [vm_compute; reflexivity|vm_compute; reflexivity|vm_compute; reflexivity|].
  rewrite !andb_true_iff in E. destruct E as [[[E1 E2] E3] E4]. apply low_intro in E1. apply N.leb_le in E2. apply no_objects_intro in E3. apply run_proper in E4.
  destruct (runnable_demo run_files ["a.o"] ["/l/libduo.so"] f H) as (w' & secs' & evs' & data' & R' & _ & E); [vm_compute; reflexivity|vm_compute; reflexivity|].
  destruct (gl_links _ _ _ _ _ _ (rn_good _ _ _ _ _ _ _ R)) as [Q1 Q2], (gl_links _ _ _ _ _ _ (rn_good _ _ _ _ _ _ _ R')) as [Q1' Q2']. rewrite Q1 in Q1'. injection Q1' as <-. rewrite Q2 in Q2'. injection Q2' as <-.
  exists w, secs, evs, data'. split; [|exact E]. split; [exact R'|]. split; [exact L|]. split; [exact E1|]. split; [exact E2|]. split; [exact E3|exact E4].
Qed.

(** Deciding the hypotheses. *)
Definition unrelocated_b (es : list (string * elf_obj)) (x : sec_in) (k : N) : bool :=
  forallb (fun r => if about_b x r then (k <? (rel_span (ri_rel r)).1) || ((rel_span (ri_rel r)).2 <=? k) else true) (all_rels es).
Lemma unrelocated_intro es x k : unrelocated_b es x k = true -> unrelocated es x k.
Proof.
  unfold unrelocated_b. rewrite forallb_forall. intros H r Hr Ha. apply elem_of_list_In in Hr. specialize (H r Hr). cbv beta in H. apply about_b_spec in Ha. rewrite Ha in H.
  apply orb_true_iff in H. rewrite N.ltb_lt, N.leb_le in H. exact H.
Qed.
Definition opcode_b (es : list (string * elf_obj)) (x : sec_in) (q : rel_in) (b : N) : bool :=
  (0 <? gr_offset (ri_rel q)) && (gr_offset (ri_rel q) <=? si_size x) && bool_decide (si_bytes x !! N.to_nat (gr_offset (ri_rel q) - 1) = Some b) && unrelocated_b es x (gr_offset (ri_rel q) - 1) && ((b =? 0xe8) || (b =? 0xe9)).
Lemma opcode_intro es x q b : opcode_b es x q b = true -> opcode es x q b.
Proof.
  unfold opcode_b, opcode. rewrite !andb_true_iff, orb_true_iff, N.ltb_lt, N.leb_le, !N.eqb_eq. intros [[[[H1 H2] H3] H4] H5]. apply bool_decide_eq_true_1 in H3. apply unrelocated_intro in H4. tauto.
Qed.
(** Relocation [k] of the link, in section [i]. *)
Definition at_b (i k j : nat) (sec n : string) (ty at_ : N) (ad : Z) (g : sec_in -> rel_in -> bool) : bool :=
  match all_secs run_objs !! i, all_rels run_objs !! k with
  | Some x, Some q => site_b run_objs x q k j 0 && String.eqb (si_name x) sec && against_b run_objs q n && (rel_type (ri_rel q) =? ty) && (gr_offset (ri_rel q) =? at_) && (rel_addend q =? ad)%Z && g x q
  | _, _ => false
  end.
Lemma at_intro i k j sec n ty at_ ad g : at_b i k j sec n ty at_ ad g = true -> exists x q, rel_site run_objs x q 0 /\ si_name x = sec /\ rel_against run_objs q n /\ rel_type (ri_rel q) = ty /\ gr_offset (ri_rel q) = at_ /\
  rel_addend q = ad /\ g x q = true.
Proof.
  unfold at_b. destruct (all_secs run_objs !! i) as [x|] eqn:Hx; [|discriminate]. destruct (all_rels run_objs !! k) as [q|] eqn:Hq; [|discriminate]. rewrite !andb_true_iff, String.eqb_eq, !N.eqb_eq, Z.eqb_eq.
  intros [[[[[[H1 H2] H3] H4] H5] H6] H7]. exists x, q. split; [eapply site_intro; [exact Hx|exact Hq|exact H1]|]. split; [exact H2|]. split; [by apply against_intro|]. split; [exact H4|]. split; [exact H5|]. split; [exact H6|exact H7].
Qed.
Definition defined_b (i : nat) (sec n : string) (v : N) : bool :=
  match all_secs run_objs !! i, winner n (all_syms run_objs) with
  | Some x, Some y => sole_b run_objs n i && ordinary_b run_objs n && lies_b x y && match contribs (si_name x) (all_secs run_objs) !! 0%nat with Some x' => bool_decide (sec_key x' = sec_key x) | None => false end &&
      match si_data x with Some _ => true | None => false end && (st_value (yi_sym y) <=? si_size x) && String.eqb (si_name x) sec && (st_value (yi_sym y) =? v)
  | _, _ => false
  end.
Lemma defined_intro i sec n v : defined_b i sec n v = true -> exists x y, defined_in run_objs n x 0 y /\ si_name x = sec /\ st_value (yi_sym y) = v /\ all_secs run_objs !! i = Some x.
Proof.
  unfold defined_b. destruct (all_secs run_objs !! i) as [x|] eqn:Hx; [|discriminate]. destruct (winner n (all_syms run_objs)) as [y|] eqn:Hw; [|discriminate]. rewrite !andb_true_iff, String.eqb_eq, N.leb_le, N.eqb_eq.
  intros [[[[[[[H1 H2] H3] H4] H5] H6] H7] H8]. exists x, y. split; [|split; [exact H7|split; [exact H8|reflexivity]]]. split; [by apply ordinary_intro|]. split; [eapply sole_intro; [exact Hx|exact H1]|]. split; [exact Hw|]. split; [by apply lies_b_spec|].
  split; [|split; [by destruct (si_data x)|exact H6]]. exists 0%nat. split; [|reflexivity]. destruct (contribs (si_name x) (all_secs run_objs) !! 0%nat) as [x'|] eqn:Ey; [|discriminate H4]. apply bool_decide_eq_true_1 in H4. unfold sec_key in H4. injection H4 as E1 E2.
  f_equal. apply elem_of_list_lookup_2, elem_contribs in Ey as [_ Ey]. eapply all_secs_same; [exact Ey|by eapply elem_of_list_lookup_2|exact E1|exact E2].
Qed.
Lemma run_unlisted n : unlisted_b run_lib n = true -> forall d, ~ library_lists run_wd run_l n d.
Proof.
  intros H d (path & e & [Hp He] & Hd & Hn). apply elem_of_list_singleton in Hp as ->. apply (inj Some), (inj Some) in He as <-. unfold unlisted_b in H. rewrite forallb_forall in H. apply elem_of_list_In in Hd. specialize (H d Hd). cbv beta in H.
  rewrite bool_decide_true in H by exact Hn. discriminate H.
Qed.
(** [f] is both: the object's own definition counts. *)
Lemma run_f : (exists d, library_lists run_wd run_l "f" d) /\ stays_in run_wd demo_lib_oracle run_l "f".
Proof.
  assert (D : exists d, eo_dynsyms run_lib !! 2%nat = Some d /\ eo_dynstr run_lib (st_name d) = Some "f") by (eexists; split; [vm_compute; reflexivity|]; vm_compute; reflexivity). destruct D as (d & D1 & D2).
  split. { exists d, "/l/libduo.so", run_lib. split; [split; [apply elem_of_list_singleton; reflexivity|reflexivity]|]. split; [eapply elem_of_list_lookup_2; exact D1|exact D2]. }
  right. split; [intros i k; reflexivity|].
  assert (M : existsb (fun y => bool_decide (eo_strtab run_main (st_name y) = Some "f") && negb (typ y =? 3) && (binding y =? 1) && negb (st_shndx y =? 0)) (eo_syms run_main) = true) by (vm_compute; reflexivity).
  apply existsb_exists in M as (y & Hy & M). rewrite !andb_true_iff, !negb_true_iff, !N.eqb_neq, N.eqb_eq in M. destruct M as [[[M1 M2] M3] M4]. apply bool_decide_eq_true_1 in M1. apply elem_of_list_In in Hy.
  exists "a.o", run_main, y. split; [apply elem_of_list_singleton; reflexivity|]. split; [reflexivity|]. split; [reflexivity|]. split; [exact Hy|]. split; [exact M1|]. split; [exact M2|]. split; [exact M3|exact M4].
Qed.
Lemma run_no_nuls : no_nuls run_objs.
Proof. apply no_nul_intro. vm_compute. reflexivity. Qed.
(** Sections of the program by name. *)
Lemma run_sec w secs evs data n : run_links w secs evs data -> n <> "" -> contribs n (all_secs run_objs) <> [] -> exists s, the_sec w secs n s.
Proof. intros (R & L & _) Hn Hc. destruct (C40_partial _ _ _ _ _ _ _ _ n (rn_good _ _ _ _ _ _ _ R) L Hn Hc) as (s & Hs & _). by exists s. Qed.

(** 36 bytes of code and 16 of zeros in memory. *)
Example C69_case : exists w secs evs data p s b, run_links w secs evs data /\ map_file data = Some p /\ the_sec w secs ".text" s /\ code s /\ memsz s = 36 /\ in_memory p s /\
  the_sec w secs ".bss" b /\ is_nobits b = true /\ memsz b = 16 /\ in_memory p b.
Proof.
  destruct (run_check (fun w secs data => reads_b w secs ".text" (fun s => code_b s && (memsz s =? 36)) && reads_b w secs ".bss" (fun s => alloc s && is_nobits s && (memsz s =? 16)))) as (w & secs & evs & data & RL & E); [vm_compute; reflexivity|].
  apply andb_true_iff in E as [E1 E2]. pose proof RL as (R & _). destruct (run_sec w secs evs data ".text" RL) as (s & Ts); [discriminate|vm_compute; discriminate|]. destruct (run_sec w secs evs data ".bss" RL) as (b & Tb); [discriminate|vm_compute; discriminate|].
  pose proof (reads_intro _ _ _ _ _ E1 Ts) as K. cbv beta in K. apply andb_true_iff in K as [K1 K2]. apply code_intro in K1. apply N.eqb_eq in K2.
  pose proof (reads_intro _ _ _ _ _ E2 Tb) as J. cbv beta in J. rewrite !andb_true_iff, N.eqb_eq in J. destruct J as [[J1 J2] J3]. destruct (C69_partial _ _ _ _ _ _ _ R) as (p & Hp & M).
  exists w, secs, evs, data, p, s, b. split; [exact RL|]. split; [exact Hp|]. split; [exact Ts|]. split; [exact K1|]. split; [exact K2|]. split; [apply M; [exact (proj1 Ts)|exact (proj1 K1)|rewrite (proj1 (proj2 Ts)); discriminate]|].
  split; [exact Tb|]. split; [exact J2|]. split; [exact J3|]. apply M; [exact (proj1 Tb)|exact J1|rewrite (proj1 (proj2 Tb)); discriminate].
Qed.
(** The word of .got.plt for [foo] after start-up, 3 words into the table. *)
Local Instance insn_eq_dec : EqDecision insn.
Proof. solve_decision. Defined.
Local Instance rela_eq_dec : EqDecision Rela.
Proof. solve_decision. Defined.
Local Instance stub_dec pl g i k : Decision (stub_for pl g i k).
Proof. unfold stub_for. apply _. Defined.
Example C70_case : exists w secs evs data p pl g, run_links w secs evs data /\ start run_env data = Some p /\ alive run_env w secs p /\ the_sec w secs ".plt" pl /\ the_sec w secs ".got.plt" g /\
  plt_slot w secs 0 0 (string_bytes "foo") /\ word (pr_mem p) (addr g + 24) = Some (addr pl + 22) /\ word (pr_mem p) (addr g + 16) = Some 0x7fff00002000.
Proof.
  destruct (run_check (fun w secs data => reads_b w secs ".plt" (fun pl => reads_b w secs ".got.plt" (fun g => reads_b w secs ".rela.plt" (fun rp => reads_b w secs ".dynsym" (fun ds => reads_b w secs ".dynstr" (fun sd =>
    bool_decide (stub_for pl g 0 0) && bool_decide (rd_rela (contents rp) 0 = Some (dyn_record (addr g + 24) 2 7)) &&
    match rd_sym (contents ds) 48 with Some y => bool_decide (cstr_at (contents sd) (st_name y) = Some (string_bytes "foo")) | None => false end))))))) as (w & secs & evs & data & RL & E); [vm_compute; reflexivity|].
  pose proof RL as (R & L & LW & FS & NO & PE). destruct (C70_partial _ _ _ _ _ _ _ run_env R NO PE) as (p & Hp & A & _ & S).
  destruct (at_intro 1 0 0 ".text" "foo" 4 1 (-4) (fun x q => left_b run_objs q "foo")) as (x & q & RS & Hx & RA & Ht & Ho & Had & HL); [vm_compute; reflexivity|]. apply left_intro in HL.
  destruct (C66_plt _ _ _ _ _ _ _ _ x q 0 "foo" (rn_good _ _ _ _ _ _ _ R) L run_no_nuls RS RA HL Ht) as (s & pl & g & rp & k & i & j & d & _ & T1 & T2 & T3 & _ & _ & _ & (ds & sd & T4 & T5 & _ & _)).
  pose proof (reads_intro _ _ _ _ _ E T1) as E1. cbv beta in E1. pose proof (reads_intro _ _ _ _ _ E1 T2) as E2. cbv beta in E2. pose proof (reads_intro _ _ _ _ _ E2 T3) as E3. cbv beta in E3.
  pose proof (reads_intro _ _ _ _ _ E3 T4) as E4. cbv beta in E4. pose proof (reads_intro _ _ _ _ _ E4 T5) as E5. cbv beta in E5. clear E E1 E2 E3 E4. rewrite !andb_true_iff in E5. destruct E5 as [[E1 E2] E3].
  apply bool_decide_eq_true_1 in E1, E2. destruct (rd_sym (contents ds) 48) as [y|] eqn:Ey; [|discriminate E3]. apply bool_decide_eq_true_1 in E3.
  assert (PS : plt_slot w secs 0 0 (string_bytes "foo")).
  { exists pl, g, rp, ds, sd, 2, y. split; [exact T1|]. split; [exact T2|]. split; [exact T3|]. split; [exact T4|]. split; [exact T5|]. split; [exact E1|]. split; [exact E2|]. split; [exact Ey|exact E3]. }
  exists w, secs, evs, data, p, pl, g. split; [exact RL|]. split; [exact Hp|]. split; [exact A|]. split; [exact T1|]. split; [exact T2|]. split; [exact PS|]. split; [|exact (proj2 (al_head _ _ _ _ A g T2))].
  pose proof (S pl g 0 0 _ T1 T2 PS) as H. change (8 * (0 + 3)) with 24 in H. rewrite H. f_equal. lia.
Qed.
(** The call of [foo], the first instruction, and the jump there, the last. *)
Example C71_case : exists w secs evs data p p' p'' s, run_links w secs evs data /\ start run_env data = Some p /\ the_sec w secs ".text" s /\ alive run_env w secs p' /\
  goes run_env (p, mkCpu (addr s) [] (fun _ => 0)) (p', mkCpu (en_addr run_env (string_bytes "foo")) [addr s + 5] (fun _ => 0)) /\
  goes run_env (p', mkCpu (addr s + 30) [] (fun _ => 0)) (p'', mkCpu (en_addr run_env (string_bytes "foo")) [] (fun _ => 0)).
Proof.
  destruct (run_check (fun w secs data => reads_b w secs ".text" code_b)) as (w & secs & evs & data & RL & E); [vm_compute; reflexivity|].
  pose proof RL as (R & L & LW & FS & NO & PE). destruct (C70_partial _ _ _ _ _ _ _ run_env R NO PE) as (p & Hp & A & _). destruct (run_sec w secs evs data ".text" RL) as (s & Ts); [discriminate|vm_compute; discriminate|].
  pose proof (code_intro _ (reads_intro _ _ _ _ _ E Ts)) as C.
  destruct (at_intro 1 0 0 ".text" "foo" 4 1 (-4) (fun x q => left_b run_objs q "foo" && opcode_b run_objs x q 0xe8)) as (x & q & RS & Hx & RA & Ht & Ho & Had & HL); [vm_compute; reflexivity|]. apply andb_true_iff in HL as [HL OP]. apply left_intro in HL. apply opcode_intro in OP.
  destruct (at_intro 1 5 0 ".text" "foo" 4 31 (-4) (fun x q => left_b run_objs q "foo" && opcode_b run_objs x q 0xe9)) as (x2 & q2 & RS2 & Hx2 & RA2 & Ht2 & Ho2 & Had2 & HL2); [vm_compute; reflexivity|]. apply andb_true_iff in HL2 as [HL2 OP2]. apply left_intro in HL2. apply opcode_intro in OP2.
  destruct (C71_partial _ _ _ _ _ _ _ _ _ x q 0 "foo" run_env p s 0xe8 (mkCpu (addr s) [] (fun _ => 0)) R LW L run_no_nuls RS RA HL Ht Had OP PE A) as (p' & g & i & _ & _ & Hg & A' & _); [rewrite Hx; exact Ts|exact C|unfold field_off; rewrite Ho; cbn [ip]; lia|].
  destruct (C71_partial _ _ _ _ _ _ _ _ _ x2 q2 0 "foo" run_env p' s 0xe9 (mkCpu (addr s + 30) [] (fun _ => 0)) R LW L run_no_nuls RS2 RA2 HL2 Ht2 Had2 OP2 PE A') as (p'' & g2 & i2 & _ & _ & Hg2 & _); [rewrite Hx2; exact Ts|exact C|unfold field_off; rewrite Ho2; cbn [ip]; lia|].
  unfold field_off in Hg. rewrite Ho in Hg. replace (addr s + (0 + 1) + 4) with (addr s + 5) in Hg by lia.
  exists w, secs, evs, data, p, p', p'', s. split; [exact RL|]. split; [exact Hp|]. split; [exact Ts|]. split; [exact A'|]. split; [exact Hg|exact Hg2].
Qed.
(** The load and the call through the GOT of [baz]. *)
Example C72_case : exists w secs evs data p s, run_links w secs evs data /\ start run_env data = Some p /\ the_sec w secs ".text" s /\
  goes run_env (p, mkCpu (addr s + 5) [] (fun _ => 0)) (p, mkCpu (addr s + 12) [] (set_reg (fun _ => 0) 0 (en_addr run_env (string_bytes "baz")))) /\
  goes run_env (p, mkCpu (addr s + 24) [] (fun _ => 0)) (p, mkCpu (en_addr run_env (string_bytes "baz")) [addr s + 30] (fun _ => 0)).
Proof.
  destruct (run_check (fun w secs data => reads_b w secs ".text" (fun s => reads_b w secs ".got" (fun g => code_b s && bool_decide (SpecReloc.decode_at (Z.of_N (addr s)) (contents s) 5 = Some (MovLoad 0 (Z.of_N (addr g + 8)), 7)) &&
    bool_decide (SpecReloc.decode_at (Z.of_N (addr s)) (contents s) 24 = Some (CallInd (Z.of_N (addr g + 8)), 6)))))) as (w & secs & evs & data & RL & E); [vm_compute; reflexivity|].
  pose proof RL as (R & L & LW & FS & NO & PE). destruct (C70_partial _ _ _ _ _ _ _ run_env R NO PE) as (p & Hp & A & _).
  destruct (at_intro 1 1 0 ".text" "baz" 42 8 (-4) (fun x q => left_b run_objs q "baz")) as (x & q & RS & Hx & RA & Ht & Ho & Had & HL); [vm_compute; reflexivity|]. apply left_intro in HL.
  destruct (at_intro 1 4 0 ".text" "baz" 41 26 (-4) (fun x q => left_b run_objs q "baz")) as (x2 & q2 & RS2 & Hx2 & RA2 & Ht2 & Ho2 & Had2 & HL2); [vm_compute; reflexivity|]. apply left_intro in HL2.
  destruct (C66_got _ _ _ _ _ _ _ _ x q 0 "baz" (rn_good _ _ _ _ _ _ _ R) L run_no_nuls RS RA HL (or_intror Ht)) as (s & g & rd & recs & o & j & d & Ts & Tg & _). rewrite Hx in Ts.
  pose proof (reads_intro _ _ _ _ _ E Ts) as E1. cbv beta in E1. pose proof (reads_intro _ _ _ _ _ E1 Tg) as E2. cbv beta in E2. clear E E1. rewrite !andb_true_iff in E2. destruct E2 as [[E1 E2] E3]. apply code_intro in E1. apply bool_decide_eq_true_1 in E2, E3.
  destruct (C72_partial _ _ _ _ _ _ _ _ _ x q 0 "baz" run_env p s 5 (MovLoad 0 (Z.of_N (addr g + 8)), 7) (mkCpu (addr s + 5) [] (fun _ => 0)) R LW L run_no_nuls RS RA HL (or_intror Ht) Had PE A) as [H _]; [rewrite Hx; exact Ts|exact E1|exact E2|reflexivity|].
  destruct (C72_partial _ _ _ _ _ _ _ _ _ x2 q2 0 "baz" run_env p s 24 (CallInd (Z.of_N (addr g + 8)), 6) (mkCpu (addr s + 24) [] (fun _ => 0)) R LW L run_no_nuls RS2 RA2 HL2 (or_introl Ht2) Had2 PE A) as [_ H2]; [rewrite Hx2; exact Ts|exact E1|exact E3|reflexivity|].
  specialize (H _ _ eq_refl). specialize (H2 _ eq_refl). unfold field_off in H, H2. rewrite Ho in H. rewrite Ho2 in H2. specialize (H eq_refl). specialize (H2 eq_refl). cbn [ip pushed registers] in H, H2.
  replace (addr s + 5 + 7) with (addr s + 12) in H by lia. replace (addr s + 24 + 6) with (addr s + 30) in H2 by lia.
  exists w, secs, evs, data, p, s. split; [exact RL|]. split; [exact Hp|]. split; [exact Ts|]. split; [exact H|exact H2].
Qed.
(** The call of [f] arrives at its [ret], though the library has an [f] too. *)
Example C73_case : exists w secs evs data p s d, library_lists run_wd run_l "f" d /\ run_links w secs evs data /\ start run_env data = Some p /\ the_sec w secs ".text" s /\
  goes run_env (p, mkCpu (addr s + 12) [] (fun _ => 0)) (p, mkCpu (addr s + 35) [addr s + 17] (fun _ => 0)) /\ pr_mem p (addr s + 35) = Some 0xc3.
Proof.
  destruct (run_check (fun w secs data => reads_b w secs ".text" code_b)) as (w & secs & evs & data & RL & E); [vm_compute; reflexivity|].
  pose proof RL as (R & L & LW & FS & NO & PE). destruct (C70_partial _ _ _ _ _ _ _ run_env R NO PE) as (p & Hp & A & _). destruct (run_sec w secs evs data ".text" RL) as (s & Ts); [discriminate|vm_compute; discriminate|].
  pose proof (code_intro _ (reads_intro _ _ _ _ _ E Ts)) as C.
  destruct (at_intro 1 2 0 ".text" "f" 4 13 (-4) (fun x q => opcode_b run_objs x q 0xe8)) as (x & q & RS & Hx & RA & Ht & Ho & Had & OP); [vm_compute; reflexivity|]. apply opcode_intro in OP.
  destruct (defined_intro 1 ".text" "f" 35) as (x' & y & HD & Hx' & Hv & Hi); [vm_compute; reflexivity|].
  destruct run_f as [[fd Hfd] Hu].
  destruct (C73_partial _ _ _ _ _ _ _ _ _ x q 0 "f" x' 0 y run_env p s 0xe8 (mkCpu (addr s + 12) [] (fun _ => 0)) R LW L FS RS RA Hu (or_introl Ht) Had OP HD PE A) as (s' & Ts' & H); [rewrite Hx; exact Ts|exact C|unfold field_off; rewrite Ho; cbn [ip]; lia|].
  rewrite Hx' in Ts'. pose proof (the_one _ _ _ _ _ Ts Ts'). subst s'. destruct (H C) as [H1 H2]. rewrite Hv in H1, H2. unfold field_off in H1. rewrite Ho in H1.
  replace (addr s + 0 + 35) with (addr s + 35) in H1 by lia. replace (addr s + (0 + 13) + 4) with (addr s + 17) in H1 by lia.
  specialize (H2 0). rewrite N.add_0_r in H2. replace (addr s + 0 + 35 + 0) with (addr s + 35) in H2 by lia.
  exists w, secs, evs, data, p, s, fd. split; [exact Hfd|]. split; [exact RL|]. split; [exact Hp|]. split; [exact Ts|]. split; [exact H1|].
  vm_compute in Hi. apply (inj Some) in Hi. rewrite H2; [|rewrite <- Hi; reflexivity|apply unrelocated_intro; rewrite <- Hi; vm_compute; reflexivity]. rewrite <- Hi. reflexivity.
Qed.
(** The address of [loc], 8 bytes into .data. *)
Example C73_lea_case : exists w secs evs data p s d, run_links w secs evs data /\ start run_env data = Some p /\ the_sec w secs ".text" s /\ the_sec w secs ".data" d /\
  goes run_env (p, mkCpu (addr s + 17) [] (fun _ => 0)) (p, mkCpu (addr s + 24) [] (set_reg (fun _ => 0) 0 (addr d + 8))).
Proof.
  destruct (run_check (fun w secs data => reads_b w secs ".text" code_b && reads_b w secs ".data" alloc)) as (w & secs & evs & data & RL & E); [vm_compute; reflexivity|]. apply andb_true_iff in E as [E Ed].
  pose proof RL as (R & L & LW & FS & NO & PE). destruct (C70_partial _ _ _ _ _ _ _ run_env R NO PE) as (p & Hp & A & _). destruct (run_sec w secs evs data ".text" RL) as (s & Ts); [discriminate|vm_compute; discriminate|].
  pose proof (code_intro _ (reads_intro _ _ _ _ _ E Ts)) as C.
  destruct (at_intro 1 3 0 ".text" "loc" 42 20 (-4) (fun x q => bool_decide (SpecReloc.decode_at 0 (si_bytes x) 17 = Some (MovLoad 0 24, 7)))) as (x & q & RS & Hx & RA & Ht & Ho & Had & OP); [vm_compute; reflexivity|]. apply bool_decide_eq_true_1 in OP.
  destruct (defined_intro 2 ".data" "loc" 8) as (x' & y & HD & Hx' & Hv & Hi); [vm_compute; reflexivity|].
  assert (Hu : forall d, ~ library_lists run_wd run_l "loc" d) by (apply run_unlisted; vm_compute; reflexivity).
  destruct (C73_lea _ _ _ _ _ _ _ _ _ x q 0 "loc" x' 0 y run_env p s 17 (mkCpu (addr s + 17) [] (fun _ => 0)) R LW L FS RS RA (or_introl Hu) Ht Had HD PE A) as (d & reg & ea & Td & D & H); [rewrite Hx; exact Ts|exact C|rewrite Ho; reflexivity|cbn [ip]; lia|].
  rewrite Hx' in Td. specialize (H (reads_intro _ _ _ _ _ Ed Td)). rewrite Hv in H. cbn [pushed registers] in H. replace (addr s + 0 + 17 + 7) with (addr s + 24) in H by lia. replace (addr d + 0 + 8) with (addr d + 8) in H by lia.
  assert (Hr : reg = 0). { clear -OP D. unfold SpecReloc.decode_at in OP, D. cases OP; cases D; try congruence. }
  subst reg. exists w, secs, evs, data, p, s, d. split; [exact RL|]. split; [exact Hp|]. split; [exact Ts|]. split; [exact Td|exact H].
Qed.
(** The first byte executed is that of the call. *)
Example C74_case : exists w secs evs data p eh, run_links w secs evs data /\ start run_env data = Some p /\ rd_ehdr data 0 = Some eh /\ can_run (pr_phs p) (e_entry eh) = true /\ pr_mem p (e_entry eh) = Some 0xe8.
Proof.
  destruct (run_check (fun w secs data => reads_b w secs ".text" code_b)) as (w & secs & evs & data & RL & E); [vm_compute; reflexivity|].
  pose proof RL as (R & L & LW & FS & NO & PE). destruct (C70_partial _ _ _ _ _ _ _ run_env R NO PE) as (p & Hp & A & _).
  destruct (defined_intro 1 ".text" "_start" 0) as (x & y & HD & Hx & Hv & Hi); [vm_compute; reflexivity|].
  destruct (C74_partial _ _ _ _ _ _ _ _ _ x 0 y run_env p R L FS HD A) as (eh & s & He & Ts & _ & H). rewrite Hx in Ts. specialize (H (code_intro _ (reads_intro _ _ _ _ _ E Ts)) 0). rewrite Hv, !N.add_0_r in H.
  exists w, secs, evs, data, p, eh. split; [exact RL|]. split; [exact Hp|]. split; [exact He|]. vm_compute in Hi. apply (inj Some) in Hi. destruct H as [H1 H2]; [rewrite <- Hi; reflexivity|]. split; [exact H1|].
  rewrite H2; [rewrite <- Hi; reflexivity|]. apply unrelocated_intro. rewrite <- Hi. vm_compute. reflexivity.
Qed.
(** The word at the start of .data points 4 bytes into [loc]. *)
Example C75_case : exists w secs evs data p d, run_links w secs evs data /\ start run_env data = Some p /\ the_sec w secs ".data" d /\ word (pr_mem p) (addr d) = Some (addr d + 12).
Proof.
  destruct (run_check (fun w secs data => reads_b w secs ".data" alloc)) as (w & secs & evs & data & RL & Ed); [vm_compute; reflexivity|].
  pose proof RL as (R & L & LW & FS & NO & PE). destruct (run_sec w secs evs data ".data" RL) as (d & Td); [discriminate|vm_compute; discriminate|]. pose proof (reads_intro _ _ _ _ _ Ed Td) as Ha.
  destruct (at_intro 2 6 0 ".data" "loc" 1 0 4 (fun x q => true)) as (x & q & RS & Hx & RA & Ht & Ho & Had & _); [vm_compute; reflexivity|].
  destruct (defined_intro 2 ".data" "loc" 8) as (x' & y & HD & Hx' & Hv & Hi); [vm_compute; reflexivity|].
  assert (Hu : forall d, ~ library_lists run_wd run_l "loc" d) by (apply run_unlisted; vm_compute; reflexivity).
  destruct (C75_partial _ _ _ _ _ _ _ _ _ x q 0 "loc" x' 0 y run_env d R NO L FS RS RA (or_introl Hu) Ht HD PE) as (p & d' & Hp & Td' & H); [rewrite Hx; exact Td|exact Ha|rewrite Hx; apply (bool_decide_unpack _); vm_compute; exact I|].
  rewrite Hx' in Td'. pose proof (the_one _ _ _ _ _ Td Td'). subst d'. unfold field_off in H. rewrite Ho, Hv, Had in H. replace (addr d + (0 + 0)) with (addr d) in H by lia.
  exists w, secs, evs, data, p, d. split; [exact RL|]. split; [exact Hp|]. split; [exact Td|]. rewrite H. f_equal. replace (Z.of_N (addr d + 0 + 8) + 4)%Z with (Z.of_N (addr d + 12)) by lia. apply addr_of_N. specialize (LW d (proj1 Td) Ha). lia.
Qed.

(** * Counterexamples *)

(** A zero-fill section before one with contents in the same segment: the
    latter's bytes are mapped at another address (C32_refuted). *)
Theorem C69_refuted : exists wd lo l fuel w secs data p s k, good_link wd lo l fuel w secs /\ (forall s, s ∈ secs -> ~ lone_write s) /\ headers_fit w secs /\
  (exists effs path, link wd lo l fuel = (effs, Ok tt) /\ EWrite path data ∈ effs) /\ map_file data = Some p /\
  s ∈ secs /\ alloc s = true /\ sec_name w s <> Some ".copyrel" /\ is_nobits s = false /\ k < memsz s /\ pr_mem p (addr s + k) <> contents s !! N.to_nat k.
Proof.
  destruct (good_demo [("a.o", bss_first)] ["a.o"] [] (fun w secs => usual w secs && bool_decide (headers_fit w secs) && match write_to_disk demo_oracle w with
    | Ok data => match map_file data with
      | Some p => any secs (fun s => alloc s && negb (is_nobits s) && bool_decide (sec_name w s <> Some ".copyrel") && any (seq 0 (N.to_nat (memsz s))) (fun k => bool_decide (pr_mem p (addr s + N.of_nat k) <> contents s !! k)))
      | None => false end
    | _ => false end)) as (w & secs & evs & G & _ & E); [vm_compute; reflexivity|vm_compute; reflexivity|vm_compute; reflexivity|].
  rewrite !andb_true_iff in E. destruct E as [[E1 E2] E3]. apply usual_spec in E1 as (U1 & _). apply bool_decide_eq_true_1 in E2. destruct (write_to_disk demo_oracle w) as [data| |] eqn:Ed; [|discriminate E3|discriminate E3].
  destruct (map_file data) as [p|] eqn:Ep; [|discriminate E3]. apply any_spec in E3 as (s & Hs & E3). rewrite !andb_true_iff, negb_true_iff in E3. destruct E3 as [[[E3 E4] E5] E6]. apply bool_decide_eq_true_1 in E5.
  apply any_spec in E6 as (k & Hk & E6). apply bool_decide_eq_true_1 in E6. apply elem_of_seq in Hk.
  eexists _, _, _, _, w, secs, data, p, s, (N.of_nat k). split; [exact G|]. split; [exact U1|]. split; [exact E2|]. split.
  { exists [ECreate "./out"; EWrite "./out" data; EChmod "./out" 493], "./out". split; [|right; left].
    unfold link, link_bytes. rewrite (proj1 (gl_links _ _ _ _ _ _ G)). cbn [mbind res_bind]. change (lo_writer demo_lib_oracle) with demo_oracle. rewrite Ed. reflexivity. }
  split; [exact Ep|]. split; [exact Hs|]. split; [exact E3|]. split; [exact E5|]. split; [exact E4|]. split; [lia|]. rewrite Nat2N.id. exact E6.
Qed.
Print Assumptions C69_refuted.

(** An object of a library: its storage, sized after the layout, begins where
    the GOT does, and copying the object there at start-up destroys the words
    of the GOT, here the one the program reads for that very object. *)
Theorem C70_refuted : exists wd lo l fuel w secs data env p g name, runnable wd lo l fuel w secs data /\ proper env (w_program_headers w) /\ start env data = Some p /\
  the_sec w secs ".got" g /\ got_slot w secs (addr g + 8) name /\ word (pr_mem p) (addr g + 8) <> Some (en_addr env name).
Proof.
  destruct (runnable_demo demo_files ["a.o"] ["/l/libfoo.so"] (fun w secs data => negb (can_run (w_program_headers w) (en_resolver run_env)) && match start run_env data with
    | Some p => reads_b w secs ".got" (fun g => reads_b w secs ".rela.dyn" (fun rdy => reads_b w secs ".dynsym" (fun ds => reads_b w secs ".dynstr" (fun sd =>
        match rd_relas (contents rdy) with Some recs => match recs !! 0%nat with Some r => match rd_sym (contents ds) (24 * reloc_sym r) with
          | Some y => bool_decide (reloc_type r = 6) && bool_decide (r_offset r = addr g + 8) && bool_decide (cstr_at (contents sd) (st_name y) = Some (string_bytes "bar")) &&
              bool_decide (word (pr_mem p) (addr g + 8) <> Some (en_addr run_env (string_bytes "bar")))
          | None => false end | None => false end | None => false end))))
    | None => false end)) as (w & secs & evs & data & R & _ & E); [vm_compute; reflexivity|vm_compute; reflexivity|vm_compute; reflexivity|].
  apply andb_true_iff in E as [E0 E]. apply run_proper in E0. destruct (start run_env data) as [p|] eqn:Ep; [|discriminate E].
  destruct (tables R) as (_ & d & ds & sd & rdy & rp & gp & [_ Tds Tsd Trdy _ _ _ _ _ _ _ _ _ _ _]). destruct (own_there R ".got" 5) as (g & Tg); [lia|member|reflexivity|].
  pose proof (reads_intro _ _ _ _ _ E Tg) as E1. cbv beta in E1. pose proof (reads_intro _ _ _ _ _ E1 Trdy) as E2. cbv beta in E2. pose proof (reads_intro _ _ _ _ _ E2 Tds) as E3. cbv beta in E3. pose proof (reads_intro _ _ _ _ _ E3 Tsd) as E4. cbv beta in E4. clear E E1 E2 E3.
  destruct (rd_relas (contents rdy)) as [recs|] eqn:Er; [|discriminate E4]. destruct (recs !! 0%nat) as [r|] eqn:H0; [|discriminate E4]. destruct (rd_sym (contents ds) (24 * reloc_sym r)) as [y|] eqn:Hy; [|discriminate E4].
  rewrite !andb_true_iff in E4. destruct E4 as [[[E1 E2] E3] E4]. apply bool_decide_eq_true_1 in E1, E2, E3, E4.
  eexists _, _, _, _, w, secs, data, run_env, p, g, (string_bytes "bar"). split; [exact R|]. split; [exact E0|]. split; [exact Ep|]. split; [exact Tg|]. split; [|exact E4].
  exists rdy, ds, sd, recs, r, y. split; [exact Trdy|]. split; [exact Tds|]. split; [exact Tsd|]. split; [exact Er|]. split; [eapply elem_of_list_lookup_2; exact H0|]. split; [exact E1|]. split; [exact E2|]. split; [exact Hy|exact E3].
Qed.
Print Assumptions C70_refuted.
