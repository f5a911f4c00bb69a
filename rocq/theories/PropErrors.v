(** C90: every error has its cause in the inputs. *)
From Verif Require Import ProofErrors SpecArgs PropResolve DemoLink.

(** A run that ends with an error: either the output file cannot be created, or
    the inputs are as [cause] says. *)
Theorem C90 : forall wd lo l fuel fx e, valid_orders lo -> link wd lo l fuel = (fx, Err e) ->
  (e = EIo /\ wd_can_create wd = false) \/ cause wd l e.
Proof. intros wd lo l fuel fx e V H. exact (link_cause wd lo l fuel fx e V H). Qed.
Print Assumptions C90.

(** So good inputs give no error: all files can be read, all names are there, no
    narrow relocation, no two definitions, nothing undefined. *)
Theorem C90_clean : forall wd lo l fuel, valid_orders lo -> wd_can_create wd = true -> ~ unreadable wd l -> ~ nameless wd l ->
  (forall t, ~ narrow_reloc wd l t) -> (forall n p, ~ twice wd l n p) ->
  forall fx e, link wd lo l fuel = (fx, Err e) -> exists ns, e = EUndefined ns /\ ns <> [].
Proof.
  intros wd lo l fuel V Hc H1 H2 H3 H4 fx e H. destruct (C90 wd lo l fuel fx e V H) as [[_ E]|C]; [rewrite Hc in E; discriminate E|].
  destruct e as [n p|t|ns| | |u]; cbn [cause] in C; [destruct (H4 _ _ C)|destruct (H3 _ C)|by eauto|destruct (H2 C)|destruct (H1 C)|destruct C].
Qed.
Print Assumptions C90_clean.

(** One case for each kind of error. *)
Definition err_f : elf_obj := demo_obj [progbits ".text" 6 16 [0xc3]] [("_start", dsym 0x10 0 0 0); ("f", dsym 0x12 1 0 1)] [].
Definition err_g : elf_obj := demo_obj [progbits ".text" 6 16 [0xc3]] [("g", dsym 0x12 1 0 1); ("f", dsym 0x12 1 0 1)] [].
Definition err_narrow : elf_obj := demo_obj [progbits ".text" 6 16 [0; 0; 0; 0]; relasec ".rela.text"] [("f", dsym 0x12 1 0 1)] [(2, [mkGreloc 1 (Some 0%Z) 1 13])].
Definition err_names : elf_obj := mkElfObj true [] [] (fun _ => None) [dsym 0x12 0xfff1 0 1] (fun _ => None) [] (fun _ => None) [].
Definition err_wd : world := demo_world [("f.o", err_f); ("g.o", err_g); ("narrow.o", err_narrow); ("names.o", err_names)] [].
Definition err_run (objs : list string) := link err_wd demo_lib_oracle (demo_linker objs []) 10.
Example C90_case :
  err_run ["f.o"; "missing.o"] = ([ECreate "./out"], Err EIo) /\
  err_run ["f.o"; "names.o"] = ([ECreate "./out"], Err ENoName) /\
  err_run ["narrow.o"] = ([ECreate "./out"], Err (ENotAbi 13)) /\
  err_run ["f.o"; "g.o"] = ([ECreate "./out"], Err (EAlreadyDefined "f" "f.o")) /\
  err_run ["f.o"] = ([ECreate "./out"], Err (EUndefined ["_start"])).
Proof. split; [vm_compute; reflexivity|]. split; [vm_compute; reflexivity|]. split; [vm_compute; reflexivity|]. split; vm_compute; reflexivity. Qed.
(** For the fourth of these the theorem gives the two definitions. *)
Example C90_twice : exists ys y, all_syms [("f.o", err_f); ("g.o", err_g)] = ys ++ [y] /\ yi_file y = "g.o" /\ mentions "f" y /\ binding (yi_sym y) = 1 /\ st_shndx (yi_sym y) = 1 /\
  names_room (ys ++ [y]) < 2^32 /\ yi_file <$> head (filter (mentions "f") ys) = Some "f.o".
Proof.
  destruct (all_syms [("f.o", err_f); ("g.o", err_g)]) as [|a [|b [|c [|d [|e [|f [|]]]]]]] eqn:E; vm_compute in E; try discriminate E.
  injection E as <- <- <- <- <- <-. eexists [_; _; _; _; _], _. split; [reflexivity|]. split; [reflexivity|]. split; [split; [reflexivity|vm_compute; discriminate]|]. split; [reflexivity|]. split; [reflexivity|]. split; vm_compute; reflexivity.
Qed.
(** And inputs that meet the hypotheses of the second theorem. *)
Example C90_clean_case : exists l, ~ unreadable err_wd l /\ ~ nameless err_wd l /\ (forall t, ~ narrow_reloc err_wd l t) /\ (forall n p, ~ twice err_wd l n p) /\ lk_objects l = ["f.o"].
Proof.
  exists (demo_linker ["f.o"] []).
  assert (Hin : forall e, is_input err_wd (demo_linker ["f.o"] []) e -> e = err_f).
  { intros e [(p & Hp & He)|(p & ar & m & Hp & _)]; [|by apply elem_of_nil in Hp]. apply elem_of_list_singleton in Hp as ->. change (wd_elf err_wd "f.o") with (Some (Some err_f)) in He. injection He as <-. reflexivity. }
  split; [|split; [|split; [|split; [|reflexivity]]]].
  - intros [(p & Hp & [He|He])|[(p & Hp & _)|[(p & Hp & _)|(p & ar & n & m & Hp & _)]]]; [| |by apply elem_of_nil in Hp..]; apply elem_of_list_singleton in Hp as ->; discriminate He.
  - intros [(e & sh & Hi & Hs & _ & Hn)|[(e & s & Hi & Hs & Hn)|(p & e & s & [Hp _] & _)]]; [| |by apply elem_of_nil in Hp]; rewrite (Hin e Hi) in Hs, Hn; cbn in Hs; rewrite !elem_of_cons, elem_of_nil in Hs.
    + repeat (destruct Hs as [->|Hs]; [vm_compute in Hn; discriminate Hn|]). destruct Hs.
    + repeat (destruct Hs as [->|Hs]; [vm_compute in Hn; discriminate Hn|]). destruct Hs.
  - intros t (_ & e & idx & rels & rel & Hi & Hr & _). rewrite (Hin e Hi) in Hr. by apply elem_of_nil in Hr.
  - intros n p (es & ms & ys & y & rest & -> & HF & E & [Hn _] & _ & Hd & H). destruct ms as [|x ms].
    + rewrite app_nil_r in E. change (cmd_objs err_wd (demo_linker ["f.o"] [])) with [("f.o", err_f)] in E.
      assert (Ea : all_syms [("f.o", err_f)] = ((fun x : string * Sym => mkSymIn 0 x.2 x.1 "f.o") <$> [("", mkSym 0 0 0 0 0 0); ("_start", mkSym 1 16 0 0 0 0); ("f", mkSym 2 18 0 1 0 1)])) by (vm_compute; reflexivity). rewrite Ea in E.
      destruct ys as [|a [|b [|c ys]]]; cbn in E; [injection E; intros; subst; by destruct Hd|injection E; intros; subst; by destruct Hd| |injection E; intros Hq _ _ _; by destruct ys]. injection E; intros; subst. cbn in H.
      destruct H as (_ & (d & Hx & [Hm _] & _) & _); [discriminate|vm_compute; reflexivity|]. rewrite !elem_of_cons, elem_of_nil in Hx. destruct Hx as [->|[->|[]]]; discriminate Hm.
    + apply Forall_cons in HF as [(ar & m & Hp & _) _]. by apply elem_of_nil in Hp.
Qed.
