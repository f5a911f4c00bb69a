(** C110: linking against a stub of a library gives the same program. *)
From Verif Require Import SpecTotal ProofTotal ProofStub PropUnused PropTotal PropResolve PropScan DemoLink.

(** Neither the code and data of a library nor the addresses of its symbols have
    any influence, and neither do files that are not named. *)
Theorem C110 : forall wd wd' lo l fuel, stubbed wd wd' l -> link wd' lo l fuel = link wd lo l fuel.
Proof. intros wd wd' lo l fuel H. exact (stub_link _ _ _ H lo fuel). Qed.
Print Assumptions C110.

(** ** A library, its next release, and a stray file *)
Definition stub_a : elf_obj := demo_lib [("f", dsym 0x12 7 0x1000 6)].
Definition stub_b : elf_obj := let e := demo_lib [("f", dsym 0x12 9 0x88000 6)] in
  mkElfObj false [1; 2; 3] [] (fun _ => None) [] (fun _ => None) (eo_dynsyms e) (eo_dynstr e) [].
Definition stub_wd (e : elf_obj) (more : list (string * elf_obj)) : world := demo_world ([("a.o", una_a); ("/l/libf.so", e)] ++ more) [].
Example C110_case : stubbed (stub_wd stub_a []) (stub_wd stub_b [("b.o", una_a)]) una_l /\ (link (stub_wd stub_a []) demo_lib_oracle una_l 10).2 = Ok tt.
Proof.
  split; [|vm_compute; reflexivity]. split.
  - intros p Hp. apply elem_of_list_singleton in Hp as ->. reflexivity.
  - intros p Hp. exfalso. exact (not_elem_of_nil _ Hp).
  - reflexivity.
  - intros p Hp. apply elem_of_list_singleton in Hp as ->. right. exists stub_a, stub_b. split; [reflexivity|]. split; [reflexivity|].
    constructor; [repeat split; reflexivity|]. constructor; [repeat split; reflexivity|constructor].
Qed.
(** The sizes of its symbols do count. *)
Definition stub_c : elf_obj := demo_lib [("f", dsym 0x12 7 0x1000 8)].
Theorem C110_size_refuted : exists wd wd' lo l a b, valid_orders lo /\ (link wd lo l 10).2 = Ok tt /\ (link wd' lo l 10).2 = Ok tt /\ link wd' lo l 10 <> link wd lo l 10 /\
  wd = stub_wd a [] /\ wd' = stub_wd b [] /\ Forall2 (fun s t => eo_dynstr a (st_name s) = eo_dynstr b (st_name t) /\ st_info s = st_info t /\ st_other s = st_other t) (eo_dynsyms a) (eo_dynsyms b).
Proof.
  exists (stub_wd stub_a []), (stub_wd stub_c []), demo_lib_oracle, una_l, stub_a, stub_c. split; [exact demo_orders|]. split; [vm_compute; reflexivity|]. split; [vm_compute; reflexivity|].
  split; [intros H; vm_compute in H; discriminate H|]. split; [reflexivity|]. split; [reflexivity|]. constructor; [repeat split; reflexivity|]. constructor; [repeat split; reflexivity|constructor].
Qed.
Print Assumptions C110_size_refuted.
