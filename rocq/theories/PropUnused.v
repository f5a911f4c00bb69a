(** C108: a library that has nothing to do with the inputs leaves no trace. *)
From Verif Require Import SpecUnused ProofUnused PropTotal PropResolve PropScan DemoLink.

(** With the library anywhere among the others, the link does and reports exactly
    what it does without: same effects on files, same bytes, same result. *)
Theorem C108 : forall wd lo l U fuel pre x post e, valid_orders lo -> sound_inputs wd l -> names_within wd l U -> room U <= 2 ^ 32 -> unnamed_local wd l ->
  opt_shared_libs (lk_options l) = pre ++ post -> unrelated wd l x.1 e ->
  link wd lo (with_libs l (pre ++ x :: post)) fuel = link wd lo l fuel.
Proof. intros wd lo l U fuel pre x post e V HS HU HR HL Hl Hx. exact (link_same _ _ _ _ _ _ _ _ _ V HS HU HR HL Hl Hx). Qed.
Print Assumptions C108.

(** Any number of such libraries, in any places. *)
Inductive padded (bad : string * bool -> Prop) : list (string * bool) -> list (string * bool) -> Prop :=
| padded_refl k : padded bad k k
| padded_add k pre x post : padded bad k (pre ++ post) -> bad x -> padded bad k (pre ++ x :: post).
Theorem C108_many : forall wd lo l U fuel libs, valid_orders lo -> sound_inputs wd l -> names_within wd l U -> room U <= 2 ^ 32 -> unnamed_local wd l ->
  padded (fun x => file_name x.1 <> None /\ exists e, unrelated wd l x.1 e) (opt_shared_libs (lk_options l)) libs ->
  link wd lo (with_libs l libs) fuel = link wd lo l fuel.
Proof.
  intros wd lo l U fuel libs V HS HU HR HL H. remember (opt_shared_libs (lk_options l)) as k eqn:Ek.
  assert (G : link wd lo (with_libs l libs) fuel = link wd lo l fuel /\ forall p, p ∈ libs.*1 -> wd_elf wd p <> Some None /\ file_name p <> None); [|exact (proj1 G)].
  induction H as [k|k pre x post H IH [Hf [e Hx]]]; subst k.
  - split; [by destruct l as [[] ? ?]|exact (sd_libs _ _ HS)].
  - destruct (IH eq_refl) as [IH1 IH2]. split.
    + rewrite <- IH1. change (with_libs l (pre ++ x :: post)) with (with_libs (with_libs l (pre ++ post)) (pre ++ x :: post)).
      apply (C108 wd lo (with_libs l (pre ++ post)) U fuel pre x post e V); [|exact HU|exact HR|exact HL|reflexivity|destruct Hx as [X1 X2 X3]; split; assumption].
      destruct HS as [S1 S2 S3 S4]. split; [exact S1|exact S2|exact IH2|exact S4].
    + intros p Hp. rewrite fmap_app, fmap_cons in Hp. apply elem_of_app in Hp as [Hp|Hp]; [apply IH2; rewrite fmap_app; apply elem_of_app; by left|]. apply elem_of_cons in Hp as [->|Hp]; [|apply IH2; rewrite fmap_app; apply elem_of_app; by right].
      split; [rewrite (ul_read _ _ _ _ Hx); discriminate|exact Hf].
Qed.
Print Assumptions C108_many.

(** ** A program that needs one of two libraries *)
Definition una_files : list (string * elf_obj) :=
  [("a.o", demo_obj [progbits ".text" 6 16 [0xc3; 0xc3]] [("_start", dsym 0x12 1 0 1); ("f", dsym 0x10 0 0 0); ("g", dsym 0x22 1 1 1)] []);
   ("/l/libf.so", demo_lib [("f", dsym 0x12 7 0x1000 6)]); ("/l/libx.so", demo_lib [("compress", dsym 0x12 7 0x1000 6); ("inflate", dsym 0x12 7 0x1100 6)])].
Definition una_e : elf_obj := demo_lib [("compress", dsym 0x12 7 0x1000 6); ("inflate", dsym 0x12 7 0x1100 6)].
Definition una_wd : world := demo_world una_files [].
Definition una_l : linker := demo_linker ["a.o"] ["/l/libf.so"].
Definition una_a : elf_obj := match una_files with (_, e) :: _ => e | [] => una_e end.
Lemma una_input e : is_input una_wd una_l e -> e = una_a.
Proof.
  intros [(p & Hp & He)|(p & ar & m & Hp & _)]; [|exfalso; exact (not_elem_of_nil _ Hp)]. apply elem_of_list_singleton in Hp as ->. change (Some (Some una_a) = Some (Some e)) in He. injection He as <-. reflexivity.
Qed.
Lemma una_names sym n : sym ∈ eo_syms una_a -> eo_strtab una_a (st_name sym) = Some n -> n ∈ [""; "_start"; "f"; "g"].
Proof.
  intros Hs En. assert (K : forallb (fun s => match eo_strtab una_a (st_name s) with Some n => bool_decide (n ∈ [""; "_start"; "f"; "g"]) | None => true end) (eo_syms una_a) = true) by (vm_compute; reflexivity).
  rewrite forallb_forall in K. specialize (K sym (proj1 (elem_of_list_In _ _) Hs)). cbv beta in K. rewrite En in K. exact (bool_decide_eq_true_1 _ K).
Qed.
Lemma una_lib sym : sym ∈ eo_dynsyms una_e -> exists n, eo_dynstr una_e (st_name sym) = Some n /\ n ∈ [""; "compress"; "inflate"].
Proof.
  intros Hs. assert (K : forallb (fun s => match eo_dynstr una_e (st_name s) with Some n => bool_decide (n ∈ [""; "compress"; "inflate"]) | None => false end) (eo_dynsyms una_e) = true) by (vm_compute; reflexivity).
  rewrite forallb_forall in K. specialize (K sym (proj1 (elem_of_list_In _ _) Hs)). cbv beta in K. destruct (eo_dynstr una_e (st_name sym)) as [n|]; [|discriminate K]. exists n. split; [reflexivity|]. exact (bool_decide_eq_true_1 _ K).
Qed.
Example C108_case : valid_orders demo_lib_oracle /\ sound_inputs una_wd una_l /\ names_within una_wd una_l (demo_names una_files ["a.o"]) /\ room (demo_names una_files ["a.o"]) <= 2 ^ 32 /\ unnamed_local una_wd una_l /\
  opt_shared_libs (lk_options una_l) = [("/l/libf.so", false)] ++ [] /\ unrelated una_wd una_l ("/l/libx.so", false).1 una_e /\ (link una_wd demo_lib_oracle una_l 10).2 = Ok tt.
Proof.
  split; [exact demo_orders|]. split; [apply demo_sound; vm_compute; reflexivity|]. split; [apply demo_within|]. split; [vm_compute; discriminate|]. split.
  - intros e sym Hi Hs En _. apply una_input in Hi as ->.
    assert (K : forallb (fun s => match eo_strtab una_a (st_name s) with Some n => if bool_decide (n = "") then binding s =? 0 else true | None => true end) (eo_syms una_a) = true) by (vm_compute; reflexivity).
    rewrite forallb_forall in K. specialize (K sym (proj1 (elem_of_list_In _ _) Hs)). cbv beta in K. rewrite En in K. exact (proj1 (N.eqb_eq _ _) K).
  - split; [reflexivity|]. split; [|vm_compute; reflexivity]. split.
    + reflexivity.
    + intros sym Hs. destruct (una_lib sym Hs) as (n & En & _). rewrite En. discriminate.
    + intros sym e' sym' n Hs En Hne Hi Hs' En'. apply una_input in Hi as ->. destruct (una_lib sym Hs) as (n' & En2 & Hn). rewrite En in En2. injection En2 as <-. pose proof (una_names _ _ Hs' En') as Hm.
      apply elem_of_list_In in Hn, Hm. cbn [In] in Hn, Hm. destruct Hn as [<-|[<-|[<-|[]]]]; [exact (Hne eq_refl)| |]; destruct Hm as [Hm|[Hm|[Hm|[Hm|[]]]]]; discriminate Hm.
Qed.

(** The names have to be apart: a library that shares a name changes the result. *)
Theorem C108_related_refuted : exists wd lo l x, valid_orders lo /\ sound_inputs wd l /\ unnamed_local wd l /\ opt_shared_libs (lk_options l) = [] /\
  (link wd lo (with_libs l [x]) 10).2 = Ok tt /\ (link wd lo l 10).2 <> Ok tt.
Proof.
  exists una_wd, demo_lib_oracle, (demo_linker ["a.o"] []), ("/l/libf.so", false). split; [exact demo_orders|]. split; [apply demo_sound; vm_compute; reflexivity|].
  split; [exact (proj1 (proj2 (proj2 (proj2 (proj2 C108_case)))))|]. split; [reflexivity|]. split; [vm_compute; reflexivity|].
  intros H. vm_compute in H. discriminate H.
Qed.
Print Assumptions C108_related_refuted.
