(** C88, C89: the members of archives a run brings in. *)
From Verif Require Import ProofArchive PropResolve DemoLink.

(** * C88: no member twice *)

(** A member can come twice. Here [m.o] comes for its global definition of
    [z]; the object it needs refers to [x], of which [m.o] has a weak
    definition, and that undefines [x] again. So [m.o] comes a second time, for
    [x], and the run fails because its only definition of [z] is there twice. *)
Definition user_z : elf_obj := demo_obj [] [("z", dsym 0x10 0 0 0)] [].
Definition weak_x : elf_obj := demo_obj [] [("x", dsym 0x20 0xfff1 4 0); ("z", dsym 0x10 0xfff1 8 0); ("q", dsym 0x10 0 0 0)] [].
Definition user_of_x : elf_obj := demo_obj [] [("q", dsym 0x10 0xfff1 12 0); ("x", dsym 0x10 0 0 0)] [].
Definition again_ar : archive := mkArchive
  (fun s => if (s =? "x")%string then Some "m.o" else if (s =? "z")%string then Some "m.o" else if (s =? "q")%string then Some "n.o" else None)
  (fun m => if (m =? "m.o")%string then Some (Some weak_x) else if (m =? "n.o")%string then Some (Some user_of_x) else None).
Definition again_wd : world := demo_world [("a.o", user_z)] [("l.a", again_ar)].
Lemma again_path p ar : p ∈ lk_archives stale_linker -> wd_archive again_wd p = Some (Some ar) -> p = "l.a" /\ ar = again_ar.
Proof. intros Hp Ha. apply elem_of_list_singleton in Hp as ->. change (wd_archive again_wd "l.a") with (Some (Some again_ar)) in Ha. injection Ha as <-. done. Qed.
Theorem C88_refuted : exists wd lo l fuel, valid_orders lo /\ truthful wd l /\ NoDup (lk_archives l) /\
  brought_in wd lo l fuel = [("l.a", "m.o"); ("l.a", "n.o"); ("l.a", "m.o")] /\
  link_writer wd lo l fuel = Err (EAlreadyDefined "z" "a.o") /\ ~ main_defines wd l "z" /\
  forall p m, member_defines wd l p m "z" -> p = "l.a" /\ m = "m.o".
Proof.
  exists again_wd, demo_lib_oracle, stale_linker, 10%nat. split; [exact demo_orders|]. split; [|split; [|split; [|split; [|split]]]].
  - intros p ar name m e Hp Ha Hi Hg. destruct (again_path p ar Hp Ha) as [-> ->]. cbn [again_ar ar_get ar_member_of_symbol] in Hi, Hg.
    destruct (String.eqb_spec name "x") as [->|]; [|destruct (String.eqb_spec name "z") as [->|]; [|destruct (String.eqb_spec name "q") as [->|]; [|discriminate Hi]]]; injection Hi as <-; simpl in Hg; injection Hg as <-.
    + eexists. split; [apply elem_of_cons; right; apply elem_of_list_here|]. split; [reflexivity|]. split; vm_compute; discriminate.
    + eexists. split; [apply elem_of_cons; right; apply elem_of_cons; right; apply elem_of_list_here|]. split; [reflexivity|]. split; vm_compute; discriminate.
    + eexists. split; [apply elem_of_cons; right; apply elem_of_list_here|]. split; [reflexivity|]. split; vm_compute; discriminate.
  - apply NoDup_singleton.
  - vm_compute. reflexivity.
  - vm_compute. reflexivity.
  - intros (p & e & sym & Hp & He & _ & Hs & Hn & _ & _ & Hd). apply elem_of_list_singleton in Hp as ->. change (wd_elf again_wd "a.o") with (Some (Some user_z)) in He. injection He as <-.
    cbn [user_z demo_obj eo_syms] in Hs. simpl in Hs. rewrite !elem_of_cons, elem_of_nil in Hs. destruct Hs as [->|[->|[]]]; vm_compute in Hd; apply Hd; reflexivity.
  - intros p m (ar & e & sym & Hp & Ha & Hg & Hs & Hn & Ht & Hb & Hd). destruct (again_path p ar Hp Ha) as [-> ->]. split; [reflexivity|]. cbn [again_ar ar_get] in Hg.
    destruct (String.eqb_spec m "m.o") as [->|]; [reflexivity|]. destruct (m =? "n.o")%string; [|discriminate Hg]. injection Hg as <-. simpl in Hs. rewrite !elem_of_cons, elem_of_nil in Hs.
    destruct Hs as [->|[->|[->|[]]]]; vm_compute in Hn; discriminate Hn.
Qed.
Print Assumptions C88_refuted.

(** No member comes twice, in a run that succeeds or fails, if a member has
    global definitions of all names the index has for it. Missing: weak
    definitions in the index. *)
Theorem C88_partial : forall wd lo l fuel, valid_orders lo -> NoDup (lk_archives l) -> strong_index wd l -> NoDup (brought_in wd lo l fuel).
Proof.
  intros wd lo l fuel V Hnd HS. unfold brought_in, run_rounds. destruct (w ← writer_new (lk_options l); load_objects wd l w) as [w| |] eqn:E; [|constructor..].
  refine (proj1 (rounds_once wd l lo V HS Hnd fuel 0 w [] (run_start _ _ _ E) _)). intros x Hx. by apply elem_of_nil in Hx.
Qed.
Print Assumptions C88_partial.
Example C88_case : strong_index honest_world stale_linker /\
  brought_in honest_world demo_lib_oracle stale_linker 45 = [("l.a", "x.o"); ("l.a", "y.o")].
Proof.
  split; [|vm_compute; reflexivity]. intros p ar name m e Hp Ha Hi Hg. apply elem_of_list_singleton in Hp as ->. change (wd_archive honest_world "l.a") with (Some (Some honest)) in Ha. injection Ha as <-. cbn [honest ar_get ar_member_of_symbol] in Hi, Hg.
  destruct (String.eqb_spec name "x") as [->|]; [injection Hi as <-; simpl in Hg; injection Hg as <-|destruct (String.eqb_spec name "y") as [->|]; [|discriminate Hi]; injection Hi as <-; simpl in Hg; injection Hg as <-];
    (eexists; split; [apply elem_of_cons; right; apply elem_of_list_here|]; split; [reflexivity|]; split; [vm_compute; discriminate|]; split; [reflexivity|vm_compute; discriminate]).
Qed.

(** * C89: a member only for a name that is undefined *)

(** A member can come for a name that is defined by then. Both members come in
    one round: [m1.o] for [x], and with it a definition of [y]; [m2.o] for [y]
    nevertheless, and the run fails. With an index that has [m1.o] for both
    names the link succeeds. *)
Definition user_xy : elf_obj := demo_obj [progbits ".text" 6 16 [0xc3]] [("_start", dsym 0x12 1 0 1); ("x", dsym 0x10 0 0 0); ("y", dsym 0x10 0 0 0)] [].
Definition both_xy : elf_obj := demo_obj [progbits ".text" 6 16 [0xc3; 0xc3]] [("x", dsym 0x12 1 0 1); ("y", dsym 0x12 1 1 1)] [].
Definition only_y : elf_obj := demo_obj [progbits ".text" 6 16 [0xc3]] [("y", dsym 0x12 1 0 1)] [].
Definition two_ar (for_y : string) : archive := mkArchive
  (fun s => if (s =? "x")%string then Some "m1.o" else if (s =? "y")%string then Some for_y else None)
  (fun m => if (m =? "m1.o")%string then Some (Some both_xy) else if (m =? "m2.o")%string then Some (Some only_y) else None).
Definition two_wd (for_y : string) : world := demo_world [("a.o", user_xy)] [("l.a", two_ar for_y)].
Definition writes (r : res writer) : bool := match r with Ok _ => true | _ => false end.
Lemma two_strong (for_y : string) : for_y = "m1.o" \/ for_y = "m2.o" -> strong_index (two_wd for_y) stale_linker.
Proof.
  intros Hf p ar name m e Hp Ha Hi Hg. apply elem_of_list_singleton in Hp as ->. change (wd_archive (two_wd for_y) "l.a") with (Some (Some (two_ar for_y))) in Ha. injection Ha as <-. cbn [two_ar ar_get ar_member_of_symbol] in Hi, Hg.
  destruct (String.eqb_spec name "x") as [->|]; [|destruct (String.eqb_spec name "y") as [->|]; [|discriminate Hi]]; injection Hi as <-.
  - simpl in Hg. injection Hg as <-. eexists. split; [apply elem_of_cons; right; apply elem_of_list_here|]. split; [reflexivity|]. split; [vm_compute; discriminate|]. split; [reflexivity|vm_compute; discriminate].
  - destruct Hf as [-> | ->]; simpl in Hg; injection Hg as <-.
    + eexists. split; [apply elem_of_cons; right; apply elem_of_cons; right; apply elem_of_list_here|]. split; [reflexivity|]. split; [vm_compute; discriminate|]. split; [reflexivity|vm_compute; discriminate].
    + eexists. split; [apply elem_of_cons; right; apply elem_of_list_here|]. split; [reflexivity|]. split; [vm_compute; discriminate|]. split; [reflexivity|vm_compute; discriminate].
Qed.
Theorem C89_refuted : exists wd wd' lo l fuel w, valid_orders lo /\ strong_index wd l /\ strong_index wd' l /\
  brought_in wd lo l fuel = [("l.a", "m1.o"); ("l.a", "m2.o")] /\ member_defines wd l "l.a" "m1.o" "y" /\
  (forall ar name, wd_archive wd "l.a" = Some (Some ar) -> ar_member_of_symbol ar name = Some "m2.o" -> name = "y") /\
  link_writer wd lo l fuel = Err (EAlreadyDefined "y" "a.o") /\
  wd_elf wd' = wd_elf wd /\ (forall p ar ar', wd_archive wd p = Some (Some ar) -> wd_archive wd' p = Some (Some ar') -> ar_get ar' = ar_get ar) /\
  brought_in wd' lo l fuel = [("l.a", "m1.o")] /\ link_writer wd' lo l fuel = Ok w.
Proof.
  assert (Hw : writes (link_writer (two_wd "m1.o") demo_lib_oracle stale_linker 10) = true) by (vm_compute; reflexivity).
  destruct (link_writer (two_wd "m1.o") demo_lib_oracle stale_linker 10) as [w| |] eqn:El; [|discriminate Hw..].
  exists (two_wd "m2.o"), (two_wd "m1.o"), demo_lib_oracle, stale_linker, 10%nat, w. split; [exact demo_orders|]. split; [apply two_strong; by right|]. split; [apply two_strong; by left|].
  split; [vm_compute; reflexivity|]. split.
  { eexists _, _, _. split; [apply elem_of_list_here|]. split; [reflexivity|]. split; [reflexivity|]. split; [apply elem_of_cons; right; apply elem_of_cons; right; apply elem_of_list_here|].
    split; [reflexivity|]. split; [vm_compute; discriminate|]. split; [reflexivity|vm_compute; discriminate]. }
  split. { intros ar name Ha Hi. change (wd_archive (two_wd "m2.o") "l.a") with (Some (Some (two_ar "m2.o"))) in Ha. injection Ha as <-. cbn [two_ar ar_member_of_symbol] in Hi. destruct (name =? "x")%string; [discriminate Hi|]. destruct (String.eqb_spec name "y"); [done|discriminate Hi]. }
  split; [vm_compute; reflexivity|]. split; [reflexivity|]. split.
  { intros p ar ar' H H'. unfold two_wd, demo_world in H, H'. cbn -[two_ar] in H, H'. destruct (decide _); [|discriminate H]. injection H as <-. injection H' as <-. reflexivity. }
  split; [vm_compute; reflexivity|exact El].
Qed.
Print Assumptions C89_refuted.

(** A member comes for a name that was undefined when the round began and that
    no library lists. Missing: names that earlier members of the same round
    define. *)
Theorem C89_partial : forall wd lo l fuel w ms p m, valid_orders lo -> (w, ms) ∈ run_rounds wd lo l fuel -> (p, m) ∈ ms ->
  exists k n ar, RNamed k ∈ undefined_symbols (lo_writer lo) w /\ symbol_name w (RNamed k) = Ok (Some n) /\
    p ∈ lk_archives l /\ wd_archive wd p = Some (Some ar) /\ ar_member_of_symbol ar n = Some m /\ forall sym, ~ library_lists wd l n sym.
Proof.
  intros wd lo l fuel w ms p m V Hr Hm. unfold run_rounds in Hr. destruct (w ← writer_new (lk_options l); load_objects wd l w) as [w1| |] eqn:E; [|by apply elem_of_nil in Hr..].
  destruct (rounds_why wd l lo V fuel 0 w1 (run_start _ _ _ E) w ms p m Hr Hm) as (Hp & k & n & ar & A & B & C & D & F). exists k, n, ar. split; [exact A|]. split; [apply symbol_name_at; eauto|]. by split.
Qed.
Print Assumptions C89_partial.
Example C89_case : exists w ms, (w, ms) ∈ run_rounds honest_world demo_lib_oracle stale_linker 45 /\ ("l.a", "y.o") ∈ ms.
Proof.
  assert (H : (run_rounds honest_world demo_lib_oracle stale_linker 45).*2 = [[("l.a", "x.o")]; [("l.a", "y.o")]; []]) by (vm_compute; reflexivity).
  destruct (run_rounds honest_world demo_lib_oracle stale_linker 45) as [|[w1 m1] [|[w2 m2] q]]; [discriminate H..|]. cbn in H. injection H as -> -> _.
  exists w2, [("l.a", "y.o")]. split; [right; left|left].
Qed.
