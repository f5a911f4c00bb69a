(** Weak references (C81), and names libraries take from the program (C82). *)
From Verif Require Import SpecRun SpecArgs DemoLink PropLayout PropFile PropGot PropMerge PropSyms PropFields PropHashLink ProofBound PropBound PropMissing.

(** * C81 *)

(** Every mention of the name is a weak reference (STB_WEAK 2, SHN_UNDEF 0). *)
Definition only_weak (es : list (string * elf_obj)) (n : string) : Prop :=
  named n (all_syms es) <> [] /\ forall y, y ∈ named n (all_syms es) -> binding (yi_sym y) = 2 /\ st_shndx (yi_sym y) = 0.

(** A weak reference to a name nobody defines stops the link. *)
Definition weak_a : elf_obj := demo_obj [progbits ".text" 6 16 [0xc3; 0xc3]] [("_start", dsym 0x12 1 0 1); ("h", dsym 0x20 0 0 0)] [].
Definition weak_wd (ars : list (string * archive)) : world := demo_world [("a.o", weak_a)] ars.
Definition weak_l (ars : list string) : linker := mkLinker options_default ["a.o"] ars.
Lemma weak_only : only_weak [("a.o", weak_a)] "h".
Proof.
  assert (H : forallb (fun y => (binding (yi_sym y) =? 2) && (st_shndx (yi_sym y) =? 0)) (named "h" (all_syms [("a.o", weak_a)])) && negb (Nat.eqb (length (named "h" (all_syms [("a.o", weak_a)]))) 0) = true) by (vm_compute; reflexivity).
  apply andb_true_iff in H as [H H']. split.
  - intros E. rewrite E in H'. discriminate H'.
  - intros y Hy. rewrite forallb_forall in H. apply elem_of_list_In in Hy. specialize (H y Hy). apply andb_true_iff in H as [H1 H2]. apply N.eqb_eq in H1, H2. split; assumption.
Qed.
Theorem C81_refuted : exists wd lo l fuel es evs n, valid_orders lo /\ loading wd lo l fuel es evs /\ only_weak es n /\ link_writer wd lo l fuel = Err (EUndefined [n]).
Proof.
  destruct (resolved_loading (weak_wd []) demo_lib_oracle (weak_l []) 10) as (es & evs & wr & Er & R); [vm_compute; reflexivity|].
  destruct (ld_cmd _ _ _ _ _ R) as (ms & E & HF). assert (es = [("a.o", weak_a)]) as ->.
  { destruct ms as [|m ms]; [rewrite app_nil_r in E; exact E|]. apply Forall_cons in HF as [(ar & m' & Ha & _) _]. exfalso. exact (proj1 (elem_of_nil _) Ha). }
  eexists _, _, _, _, _, evs, "h". split; [exact demo_orders|]. split; [exists wr; split; [exact Er|exact R]|]. split; [exact weak_only|]. apply message_intro. vm_compute. reflexivity.
Qed.
Print Assumptions C81_refuted.

(** It always does: no link succeeds with such a name. *)
Theorem C81_always_refuted : forall wd lo l fuel w secs es evs n, good_link wd lo l fuel w secs -> loading wd lo l fuel es evs -> n <> "" -> all_standard n (all_syms es) ->
  only_weak es n -> linker_defines es n \/ (exists sym, library_lists wd l n sym) \/ object_defines es n.
Proof.
  intros wd lo l fuel w secs es evs n G L Hn Hst [Hne Hw]. destruct (named n (all_syms es)) as [|y k] eqn:E; [contradiction|].
  assert (Hy : y ∈ named n (all_syms es)) by (rewrite E; left). assert (Hb : binding (yi_sym y) <> 0) by (rewrite (proj1 (Hw y (elem_of_list_here _ _))); discriminate).
  destruct (C46_partial _ _ _ _ _ _ _ _ _ _ G L Hn Hst Hy Hb) as [H|[H|H]]; [right; right|left|right; left]; exact H.
Qed.
Print Assumptions C81_always_refuted.

(** And archive members are loaded for weak references alone. *)
Definition weak_m : elf_obj := demo_obj [progbits ".text" 6 16 [0xc3; 0xc3]] [("h", dsym 0x12 1 0 1); ("z", dsym 0x12 1 1 1)] [].
Definition weak_ar : archive := mkArchive (fun s => if (s =? "h")%string then Some "m.o" else None) (fun m => if (m =? "m.o")%string then Some (Some weak_m) else None).
Definition weak_loaded : bool := match resolve (weak_wd [("l.a", weak_ar)]) demo_lib_oracle (weak_l ["l.a"]) 10 with Ok wr => match st_get (w_strtab wr) "z" with Some _ => true | None => false end | _ => false end.
Theorem C81_archive_refuted : exists wd lo l fuel es evs n p e ms, valid_orders lo /\ loading wd lo l fuel es evs /\ only_weak (cmd_objs wd l) n /\ es = cmd_objs wd l ++ (p, e) :: ms /\
  match link_writer wd lo l fuel with Ok _ => true | _ => false end = true.
Proof.
  assert (H : weak_loaded = true) by (vm_compute; reflexivity). unfold weak_loaded in H. set (wd := weak_wd [("l.a", weak_ar)]) in *. set (l := weak_l ["l.a"]) in *.
  destruct (resolve wd demo_lib_oracle l 10) as [wr| |] eqn:Er; [|discriminate H..].
  destruct (resolve_trace _ _ _ _ _ Er) as (es & evs & R). destruct (ld_cmd _ _ _ _ _ R) as (ms & E & HF). change (cmd_objs wd l) with [("a.o", weak_a)] in E. destruct ms as [|[p e] ms].
  - exfalso. cbn [app] in E. destruct (st_get (w_strtab wr) "z") as [en|] eqn:Ez; [|discriminate H]. destruct (proj1 (yv_names _ _ (reads_yinv _ _ _ _ _ R) "z")) as [K|(y & Hy & Hyn)]; [eexists; exact Ez|discriminate K|].
    rewrite (ld_syms _ _ _ _ _ R), E in Hy. assert (Q : forallb (fun y => negb (yi_name y =? "z")%string) (all_syms [("a.o", weak_a)]) = true) by (vm_compute; reflexivity).
    rewrite forallb_forall in Q. apply elem_of_list_In in Hy. specialize (Q _ Hy). rewrite Hyn in Q. discriminate Q.
  - exists wd, demo_lib_oracle, l, 10%nat, es, evs, "h", p, e, ms. split; [exact demo_orders|]. split; [exists wr; split; [exact Er|exact R]|]. split; [exact weak_only|]. split; [exact E|]. vm_compute. reflexivity.
Qed.
Print Assumptions C81_archive_refuted.

(** * C82 *)

(** A library refers to the name without defining it. *)
Definition library_needs (wd : world) (l : linker) (n : string) : Prop :=
  exists path e sym, is_lib wd l path e /\ sym ∈ eo_dynsyms e /\ eo_dynstr e (st_name sym) = Some n /\ binding sym = 1 /\ st_shndx sym = 0.

(** A name the program defines is never in .dynsym, so no library can find it. *)
Theorem C82_always_refuted : forall wd lo l fuel w secs es evs n, good_link wd lo l fuel w secs -> tidy_libs wd l -> loading wd lo l fuel es evs ->
  (forall i k, lo_undef lo i k ≡ₚ k) -> n <> "" -> main_defines wd l n -> forall j d, ~ dynsym_entry w secs n j d.
Proof.
  intros wd lo l fuel w secs es evs n G TL L Hu Hn Hm j d Hd. destruct (C76_partial _ _ _ _ _ _ _ _ _ _ _ G TL L Hu Hn Hd) as (_ & _ & H & _). exact (H Hm).
Qed.
Print Assumptions C82_always_refuted.

(** [foo] of the library calls back [cb] of the program. *)
Definition cb_a : elf_obj := demo_obj [progbits ".text" 6 16 [0xe8; 0; 0; 0; 0; 0xc3; 0xc3]; relasec ".rela.text"]
  [("_start", dsym 0x12 1 0 6); ("cb", dsym 0x12 1 6 1); ("foo", dsym 0x10 0 0 0)] [(2, [mkGreloc 1 (Some (-4)%Z) 3 4])].
Definition cb_files : list (string * elf_obj) := [("a.o", cb_a); ("/l/libcb.so", demo_lib [("foo", dsym 0x12 7 0x1010 6); ("cb", dsym 0x10 0 0 0)])].
Theorem C82_refuted : exists wd lo l fuel w secs n d, good_link wd lo l fuel w secs /\ valid_orders lo /\ library_needs wd l n /\ main_defines wd l n /\
  dynsym_entry w secs "foo" 1 d /\ forall j d, ~ dynsym_entry w secs n j d.
Proof.
  destruct (good_demo cb_files ["a.o"] ["/l/libcb.so"] (fun w secs => dyn_names_b w secs (string_bytes <$> ["";"foo"]))) as (w & secs & evs & G & L & E); [vm_compute; reflexivity..|].
  set (wd := demo_world cb_files []) in *. set (l := demo_linker ["a.o"] ["/l/libcb.so"]) in *.
  assert (TL : tidy_libs wd l) by (apply tidy_intro; vm_compute; reflexivity).
  destruct (dyn_names_intro w secs ["";"foo"] 1 "foo" E eq_refl (dyn_there _ _ _ _ _ _ G)) as [d Hd].
  assert (M : main_defines wd l "cb").
  { exists "a.o", cb_a, (mkSym 2 18 0 1 6 1). split; [apply elem_of_list_singleton; reflexivity|]. split; [reflexivity|]. split; [reflexivity|]. split; [apply (elem_of_list_lookup_2 _ 2%nat); vm_compute; reflexivity|]. split; [vm_compute; reflexivity|]. split; [discriminate|]. split; [reflexivity|discriminate]. }
  exists wd, demo_lib_oracle, l, 10%nat, w, secs, "cb", d. split; [exact G|]. split; [exact demo_orders|]. split.
  { exists "/l/libcb.so", (demo_lib [("foo", dsym 0x12 7 0x1010 6); ("cb", dsym 0x10 0 0 0)]), (mkSym 2 16 0 0 0 0). split; [split; [apply elem_of_list_singleton; reflexivity|reflexivity]|].
    split; [apply (elem_of_list_lookup_2 _ 2%nat); vm_compute; reflexivity|]. split; [vm_compute; reflexivity|]. split; reflexivity. }
  split; [exact M|]. split; [exact Hd|]. apply (C82_always_refuted _ _ _ _ _ _ _ _ "cb" G TL L); [intros; reflexivity|discriminate|exact M].
Qed.
Print Assumptions C82_refuted.
