(** C111: archive members that the index does not name have no influence. *)
From Verif Require Import SpecTotal ProofTotal ProofMembers PropUnused PropTotal PropResolve PropScan DemoLink.

(** Such members may be anything, even unreadable, or missing; libraries may be
    replaced by stubs at the same time. *)
Theorem C111 : forall wd wd' lo l fuel, valid_orders lo -> offered wd wd' l -> link wd' lo l fuel = link wd lo l fuel.
Proof. intros wd wd' lo l fuel V H. exact (offered_link _ _ _ _ _ (proj2 (proj2 V)) H). Qed.
Print Assumptions C111.

(** ** An archive with a member that is no object file *)
Definition mem_f : elf_obj := demo_obj [progbits ".text" 6 16 [0x90; 0xc3]] [("f", dsym 0x12 1 0 2)] [].
Definition mem_index (s : string) : option string := if (s =? "f")%string then Some "f.o" else None.
Definition mem_ar : archive := mkArchive mem_index (fun m => if (m =? "f.o")%string then Some (Some mem_f) else None).
Definition mem_ar' : archive := mkArchive mem_index (fun m => if (m =? "f.o")%string then Some (Some mem_f) else if (m =? "README")%string then Some None else if (m =? "x.o")%string then Some (Some una_a) else None).
Definition mem_wd (ar : archive) : world := demo_world [("a.o", una_a)] [("l.a", ar)].
Definition mem_l : linker := mkLinker options_default ["a.o"] ["l.a"].
Example C111_case : valid_orders demo_lib_oracle /\ offered (mem_wd mem_ar) (mem_wd mem_ar') mem_l /\ (link (mem_wd mem_ar) demo_lib_oracle mem_l 10).2 = Ok tt.
Proof.
  split; [exact demo_orders|]. split; [|vm_compute; reflexivity]. split.
  - intros p _. reflexivity.
  - intros p _. left. reflexivity.
  - reflexivity.
  - intros p Hp. apply elem_of_list_singleton in Hp as ->. right. exists mem_ar, mem_ar'. split; [reflexivity|]. split; [reflexivity|]. split; [reflexivity|].
    intros n m H. change (mem_index n = Some m) in H. unfold mem_index in H. destruct (n =? "f")%string; [|discriminate H]. injection H as <-. reflexivity.
Qed.
(** Without the index entry the member is not found, though it is there. *)
Definition mem_ar0 : archive := mkArchive (fun _ => None) (ar_get mem_ar).
Theorem C111_index_refuted : exists wd wd' lo l a b, valid_orders lo /\ wd = mem_wd a /\ wd' = mem_wd b /\ ar_get a = ar_get b /\ (link wd lo l 10).2 = Ok tt /\ (link wd' lo l 10).2 <> Ok tt.
Proof.
  exists (mem_wd mem_ar), (mem_wd mem_ar0), demo_lib_oracle, mem_l, mem_ar, mem_ar0. split; [exact demo_orders|]. split; [reflexivity|]. split; [reflexivity|]. split; [reflexivity|]. split; [vm_compute; reflexivity|]. intros H. vm_compute in H. discriminate H.
Qed.
Print Assumptions C111_index_refuted.
