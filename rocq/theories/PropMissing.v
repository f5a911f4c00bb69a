(** Names reported as undefined (C78). *)
From Verif Require Import SpecMissing SpecArgs DemoLink ProofMissing.

(** Every name of the message is missing from all the inputs. Missing: weak
    definitions, see [C78_refuted]; and the empty name. *)
Theorem C78_partial : forall wd lo l fuel es evs ns n, valid_orders lo -> few_outputs wd lo l fuel -> loading wd lo l fuel es evs ->
  link_writer wd lo l fuel = Err (EUndefined ns) -> n ∈ ns -> n <> "" -> unprovided wd l es n.
Proof.
  intros wd lo l fuel es evs ns n (V & Hu & Hm) F L E Hn Hne. destruct (genuine wd lo l fuel ns es evs V Hu Hm E L F n Hn Hne) as (A & B & C & D). split; assumption.
Qed.
Print Assumptions C78_partial.

(** ** A message naming two of three names *)
Definition miss_a : elf_obj := demo_obj [progbits ".text" 6 16 [0xc3; 0xc3]] [("_start", dsym 0x12 1 0 1); ("f", dsym 0x10 0 0 0); ("g", dsym 0x10 0 0 0); ("h", dsym 0x20 0 0 0); ("k", dsym 0x10 0 0 0)] [].
Definition miss_b : elf_obj := demo_obj [progbits ".text" 6 16 [0xc3; 0xc3]] [("k", dsym 0x12 1 0 1)] [].
Definition miss_lib : elf_obj := demo_lib [("f", dsym 0x12 7 0x1000 6)].
Definition miss_files : list (string * elf_obj) := [("a.o", miss_a); ("/l/libm.so", miss_lib)].
Definition miss_ar : archive := mkArchive (fun s => if (s =? "k")%string then Some "k.o" else None) (fun m => if (m =? "k.o")%string then Some (Some miss_b) else None).
Definition miss_world : world := demo_world miss_files [("l.a", miss_ar)].
Definition miss_linker : linker := mkLinker (options_default <| opt_shared_libs := [("/l/libm.so", false)] |>) ["a.o"] ["l.a"].
Definition small_b (wd : world) (lo : lib_oracle) (l : linker) (fuel : nat) : bool :=
  match resolve wd lo l fuel with Ok w => N.of_nat (length (w_sections w)) <=? 2^16 | _ => true end.
Lemma small_intro wd lo l fuel : small_b wd lo l fuel = true -> few_outputs wd lo l fuel.
Proof. unfold small_b. intros H w E. rewrite E in H. by apply N.leb_le in H. Qed.
Lemma demo_orders : valid_orders demo_lib_oracle.
Proof. split; [exact demo_valid|]. split; intros; reflexivity. Qed.
Definition message (r : res writer) : option (list string) := match r with Err (EUndefined ns) => Some ns | _ => None end.
Lemma message_intro r ns : message r = Some ns -> r = Err (EUndefined ns).
Proof. destruct r as [?|e|?]; [discriminate| |discriminate]. destruct e; intros [=]; by subst. Qed.
Lemma resolved_loading wd lo l fuel : match resolve wd lo l fuel with Ok _ => true | _ => false end = true -> exists es evs, loading wd lo l fuel es evs.
Proof. destruct (resolve wd lo l fuel) as [w| |] eqn:E; [intros _|discriminate..]. destruct (resolve_trace _ _ _ _ _ E) as (es & evs & R). exists es, evs, w. split; [exact E|exact R]. Qed.
(** The library has [f] and the archive [k]; [g] and the weak [h] are missing. *)
Example C78_case : exists es evs, loading miss_world demo_lib_oracle miss_linker 10 es evs /\ valid_orders demo_lib_oracle /\ few_outputs miss_world demo_lib_oracle miss_linker 10 /\
  link_writer miss_world demo_lib_oracle miss_linker 10 = Err (EUndefined ["h"; "g"]) /\ unprovided miss_world miss_linker es "g" /\ (exists d, library_lists miss_world miss_linker "f" d).
Proof.
  destruct (resolved_loading miss_world demo_lib_oracle miss_linker 10) as (es & evs & L); [vm_compute; reflexivity|].
  assert (F : few_outputs miss_world demo_lib_oracle miss_linker 10) by (apply small_intro; vm_compute; reflexivity).
  assert (M : link_writer miss_world demo_lib_oracle miss_linker 10 = Err (EUndefined ["h"; "g"])) by (apply message_intro; vm_compute; reflexivity).
  exists es, evs. split; [exact L|]. split; [exact demo_orders|]. split; [exact F|]. split; [exact M|]. split.
  - refine (C78_partial _ _ _ _ _ _ _ _ demo_orders F L M _ _); [apply elem_of_list_further, elem_of_list_here|discriminate].
  - exists (mkSym 1 18 0 7 0x1000 6), "/l/libm.so", miss_lib. split; [split; [apply elem_of_list_singleton; reflexivity|reflexivity]|]. split; [apply (elem_of_list_lookup_2 _ 1%nat); vm_compute; reflexivity|vm_compute; reflexivity].
Qed.

(** A weak absolute definition is forgotten at the first global reference: the
    name is reported although an object defines it. *)
Definition abs_def : elf_obj := demo_obj [progbits ".text" 6 16 [0xc3; 0xc3]] [("_start", dsym 0x12 1 0 1); ("f", dsym 0x20 0xfff1 42 0)] [].
Definition abs_use : elf_obj := demo_obj [progbits ".text" 6 16 [0xc3]] [("f", dsym 0x10 0 0 0)] [].
Definition abs_world : world := demo_world [("a.o", abs_def); ("b.o", abs_use)] [].
Definition abs_linker : linker := demo_linker ["a.o"; "b.o"] [].
Theorem C78_refuted : exists wd lo l fuel es evs ns n y, valid_orders lo /\ few_outputs wd lo l fuel /\ loading wd lo l fuel es evs /\ link_writer wd lo l fuel = Err (EUndefined ns) /\ n ∈ ns /\ n <> "" /\
  y ∈ named n (all_syms es) /\ binding (yi_sym y) = 2 /\ st_shndx (yi_sym y) = 0xfff1.
Proof.
  destruct (resolved_loading abs_world demo_lib_oracle abs_linker 10) as (es & evs & wr & Er & R); [vm_compute; reflexivity|].
  assert (F : few_outputs abs_world demo_lib_oracle abs_linker 10) by (apply small_intro; vm_compute; reflexivity).
  assert (M : link_writer abs_world demo_lib_oracle abs_linker 10 = Err (EUndefined ["f"])) by (apply message_intro; vm_compute; reflexivity).
  destruct (ld_cmd _ _ _ _ _ R) as (ms & E & HF). assert (es = [("a.o", abs_def); ("b.o", abs_use)]) as ->.
  { destruct ms as [|m ms]; [rewrite app_nil_r in E; exact E|]. apply Forall_cons in HF as [(ar & m' & Ha & _) _]. exfalso. exact (proj1 (elem_of_nil _) Ha). }
  assert (Q : exists y, named "f" (all_syms [("a.o", abs_def); ("b.o", abs_use)]) !! 0%nat = Some y) by (eexists; vm_compute; reflexivity). destruct Q as (y & Hy).
  assert (B : binding (yi_sym y) = 2 /\ st_shndx (yi_sym y) = 0xfff1) by (vm_compute in Hy; apply (inj Some) in Hy; rewrite <- Hy; split; reflexivity). apply elem_of_list_lookup_2 in Hy. destruct B as [B1 B2].
  eexists _, _, _, _, _, evs, ["f"], "f", y. split; [exact demo_orders|]. split; [exact F|]. split; [exists wr; split; [exact Er|exact R]|]. split; [exact M|]. split; [apply elem_of_list_here|]. split; [discriminate|]. split; [exact Hy|]. split; [exact B1|exact B2].
Qed.
Print Assumptions C78_refuted.
