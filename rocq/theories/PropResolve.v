(** C47, C48, C52: the resolution loop, what a failed run leaves behind, and
    as-needed libraries. *)
From Verif Require Import ProofResolve ProofArgs ProofScript DemoLink.

(** * C47 *)

(** The loop need not end: here the index names a member without the symbol,
    which is loaded again and again. *)
Definition user_x : elf_obj := demo_obj [] [("x", dsym 0x10 0 0 0)] [].
Definition empty_member : elf_obj := mkElfObj true [] [] (fun _ => None) [] (fun _ => None) [] (fun _ => None) [].
Definition stale : archive := mkArchive (fun s => if (s =? "x")%string then Some "m.o" else None) (fun _ => Some (Some empty_member)).
Definition stale_world : world := demo_world [("a.o", user_x)] [("l.a", stale)].
Definition stale_linker : linker := mkLinker options_default ["a.o"] ["l.a"].
Definition stale_start : res writer := w ← writer_new options_default; load_objects stale_world stale_linker w.
Definition stale_writer : option writer := match stale_start with Ok w => Some w | _ => None end.
Lemma stale_loop w : stale_start = Ok w -> forall fuel round,
  resolve_loop stale_world demo_lib_oracle stale_linker fuel round (undefined_symbols demo_oracle w) w = Panic PFuel.
Proof.
  intros Hw. assert (E1 : (us ← Ok (undefined_symbols demo_oracle w); Ok (us : list symref)) = (w ← stale_start; Ok (undefined_symbols demo_oracle w))) by (rewrite Hw; reflexivity).
  assert (Eus : undefined_symbols demo_oracle w = [RNamed 1]). { assert (Ok (undefined_symbols demo_oracle w) = Ok [RNamed 1]) as E; [|congruence]. etransitivity; [exact E1|]. vm_compute. reflexivity. }
  assert (En : st_name_at (w_strtab w) 1 = Some "x").
  { assert (Ok (st_name_at (w_strtab w) 1) = Ok (Some "x")) as E; [|congruence].
    transitivity (w ← stale_start; Ok (st_name_at (w_strtab w) 1)); [rewrite Hw; reflexivity|]. vm_compute. reflexivity. }
  induction fuel as [|fuel IH]; intros round; [reflexivity|]. cbn [resolve_loop]. rewrite Eus.
  change (lo_undef demo_lib_oracle (2 * round) [RNamed 1]) with [RNamed 1]. change (find_undefined_symbols_in_libs stale_world stale_linker [RNamed 1] w) with (Ok (w, [RNamed 1])).
  cbn [mbind res_bind]. change (lo_undef demo_lib_oracle (2 * round + 1) [RNamed 1]) with [RNamed 1].
  assert (process_archives_containing stale_world demo_lib_oracle round stale_linker [RNamed 1] w = Ok (w, [])) as Ea.
  { unfold process_archives_containing. cbn [lk_archives stale_linker foldM]. unfold search_archive.
    change (wd_archive stale_world "l.a") with (Some (Some stale)). cbn beta iota. cbn [wanted_members]. unfold symbol_name. rewrite En. reflexivity. }
  rewrite Ea. cbn [mbind res_bind length Nat.eqb]. change (lo_writer demo_lib_oracle) with demo_oracle. apply IH.
Qed.
Lemma demo_orders : valid_orders demo_lib_oracle.
Proof. split; [exact demo_valid|]. split; intros; reflexivity. Qed.
Theorem C47_refuted : exists wd lo l, valid_orders lo /\ forall fuel, resolve wd lo l fuel = Panic PFuel.
Proof.
  exists stale_world, demo_lib_oracle, stale_linker. split; [exact demo_orders|]. intros fuel. unfold resolve.
  destruct stale_start as [w| |] eqn:E; [|vm_compute in E; discriminate E|vm_compute in E; discriminate E].
  pose proof E as E2. unfold stale_start in E. apply bind_Ok in E as (w0 & E0 & E1). change (lk_options stale_linker) with options_default.
  rewrite E0. cbn [mbind res_bind]. rewrite E1. cbn [mbind res_bind]. change (lo_writer demo_lib_oracle) with demo_oracle. by apply stale_loop.
Qed.
Print Assumptions C47_refuted.

(** It ends, after a number of rounds linear in the names around, if the
    indices of the archives tell the truth. Missing: archives that do not. *)
Theorem C47_partial : forall wd lo l U fuel, valid_orders lo -> names_within wd l U -> truthful wd l ->
  (11 * (1 + length U) < fuel)%nat -> resolve wd lo l fuel <> Panic PFuel.
Proof.
  intros wd lo l U fuel (Ho & Hu & Hm) HU Ht Hf. apply (resolve_runs wd l U lo HU); [|apply Ho|done|done|exact Hf].
  intros p ar name m e H1 H2 H3 H4. destruct (Ht p ar name m e H1 H2 H3 H4) as (sym & A & B & C & D). by exists sym.
Qed.
Print Assumptions C47_partial.
Definition member_x : elf_obj := demo_obj [] [("x", dsym 0x10 0xfff1 4 0); ("y", dsym 0x10 0 0 0)] [].
Definition member_y : elf_obj := demo_obj [] [("y", dsym 0x10 0xfff1 8 0)] [].
Definition honest : archive := mkArchive (fun s => if (s =? "x")%string then Some "x.o" else if (s =? "y")%string then Some "y.o" else None)
  (fun m => if (m =? "x.o")%string then Some (Some member_x) else if (m =? "y.o")%string then Some (Some member_y) else None).
Definition honest_world : world := demo_world [("a.o", user_x)] [("l.a", honest)].
Example C47_case : names_within honest_world stale_linker [""; "x"; "y"] /\ truthful honest_world stale_linker /\
  exists w, resolve honest_world demo_lib_oracle stale_linker 45 = Ok w.
Proof.
  split; [|split].
  - intros e sym name [(p & Hp & He)|(p & ar & m & Hp & Ha & Hm)] Hs Hn.
    + apply elem_of_list_singleton in Hp as ->. vm_compute in He. injection He as <-. simpl in Hs. rewrite !elem_of_cons, elem_of_nil in Hs.
      destruct Hs as [->|[->|[]]]; vm_compute in Hn; injection Hn as <-; set_solver.
    + apply elem_of_list_singleton in Hp as ->. change (wd_archive honest_world "l.a") with (Some (Some honest)) in Ha. injection Ha as <-. cbn [honest ar_get] in Hm.
      destruct (m =? "x.o")%string; [|destruct (m =? "y.o")%string; [|done]]; injection Hm as <-; simpl in Hs; rewrite !elem_of_cons, elem_of_nil in Hs.
      * destruct Hs as [->|[->|[->|[]]]]; vm_compute in Hn; injection Hn as <-; set_solver.
      * destruct Hs as [->|[->|[]]]; vm_compute in Hn; injection Hn as <-; set_solver.
  - intros p ar name m e Hp Ha Hi Hg. apply elem_of_list_singleton in Hp as ->. change (wd_archive honest_world "l.a") with (Some (Some honest)) in Ha. injection Ha as <-. cbn [honest ar_get ar_member_of_symbol] in Hi, Hg.
    destruct (String.eqb_spec name "x") as [->|]; [injection Hi as <-; simpl in Hg; injection Hg as <-|destruct (String.eqb_spec name "y") as [->|]; [|done]; injection Hi as <-; simpl in Hg; injection Hg as <-].
    + eexists. split; [apply elem_of_cons; right; apply elem_of_list_here|]. split; [reflexivity|]. split; vm_compute; discriminate.
    + eexists. split; [apply elem_of_cons; right; apply elem_of_list_here|]. split; [reflexivity|]. split; vm_compute; discriminate.
  - eexists. vm_compute. reflexivity.
Qed.

(** * C48 *)

(** A link that fails empties an existing output file. *)
Theorem C48_refuted : exists wd lo l fuel e old, (link wd lo l fuel).2 = Err e /\ old <> [] /\
  contents_after (opt_output (lk_options l)) (Some old) (link wd lo l fuel).1 = Some [].
Proof.
  exists (demo_world [] []), demo_lib_oracle, (demo_linker ["missing.o"] []), 10%nat, EIo, [1; 2; 3].
  split; [vm_compute; reflexivity|]. split; [discriminate|]. vm_compute. reflexivity.
Qed.
Print Assumptions C48_refuted.
(** Not worse: no other file is touched, the file is never left with part of
    an output, and it is left alone if it cannot be opened for writing. *)
Theorem C48_partial : forall wd lo l fuel path old, (link wd lo l fuel).2 <> Ok tt ->
  (path <> opt_output (lk_options l) -> contents_after path old (link wd lo l fuel).1 = old) /\
  (wd_can_create wd = false -> contents_after path old (link wd lo l fuel).1 = old) /\
  (contents_after path old (link wd lo l fuel).1 = old \/ contents_after path old (link wd lo l fuel).1 = Some []).
Proof.
  intros wd lo l fuel path old. unfold link. destruct (wd_can_create wd).
  - destruct (link_bytes wd lo l fuel) as [d|e|p]; cbn [fst snd]; [done|..]; intros _; unfold contents_after; cbn [foldl];
      (destruct (decide (opt_output (lk_options l) = path)) as [<-|]; [split; [done|]; split; [done|by right]|split; [done|]; split; [done|by left]]).
  - intros _. split; [done|]. split; [done|]. by left.
Qed.
Print Assumptions C48_partial.
Example C48_case : (link (demo_world [] []) demo_lib_oracle (demo_linker ["missing.o"] []) 10).2 <> Ok tt /\
  (link (demo_world demo_files []) demo_lib_oracle (demo_linker ["a.o"] ["/l/libfoo.so"]) 10).2 = Ok tt.
Proof. split; [vm_compute; discriminate|]. vm_compute. reflexivity. Qed.

(** * C52 *)

(** [GROUP(AS_NEEDED(a) b)]: [b] is as-needed too. *)
Theorem C52_refuted_script : exists args app, parse_script 100 (list_ascii_of_string "GROUP(AS_NEEDED(a) b)") = SArgs args /\
  handle_linker_args (mkMainFs (fun _ => true) Some (fun _ => None) (fun _ => None)) (string_of_list_ascii <$> args) app_default = Ok app /\ ap_inputs app = [("a", true); ("b", true)].
Proof. eexists _, _. split; [vm_compute; reflexivity|]. split; [vm_compute; reflexivity|]. vm_compute. reflexivity. Qed.
Print Assumptions C52_refuted_script.

(** A library given without --as-needed, but not used, is not recorded. *)
Definition unused_check (w : writer) (secs : list section) : bool :=
  forallb (fun d => negb (fst d =? 1) || negb (bool_decide (st_name_at (w_dynstr w) (snd d) = Some "libbaz.so"))) (w_dyn_entries w).
Definition with_baz : list (string * elf_obj) := demo_files ++ [("/l/libbaz.so", demo_lib [("baz", dsym 0x12 7 0x1000 6)])].
Theorem C52_refuted_needed : exists wd lo l fuel w secs, valid_orders lo /\ ("/l/libbaz.so", false) ∈ opt_shared_libs (lk_options l) /\
  links wd lo l fuel w secs /\ forall v, (1, v) ∈ w_dyn_entries w -> st_name_at (w_dynstr w) v <> Some "libbaz.so".
Proof.
  assert (H : demo_check with_baz ["a.o"] ["/l/libfoo.so"; "/l/libbaz.so"] unused_check = true) by (vm_compute; reflexivity).
  apply demo_links in H as (w & secs & Hl & Hc). eexists _, demo_lib_oracle, _, _, w, secs. split; [exact demo_orders|]. split; [|split; [exact Hl|]].
  - cbn. apply elem_of_cons. right. apply elem_of_list_here.
  - intros v Hv E. unfold unused_check in Hc. rewrite forallb_forall in Hc. specialize (Hc (1, v)). rewrite <- elem_of_list_In in Hc. specialize (Hc Hv).
    cbn [fst snd] in Hc. rewrite E in Hc. rewrite bool_decide_eq_true_2 in Hc by reflexivity. discriminate Hc.
Qed.
Print Assumptions C52_refuted_needed.

(** The flags make no difference at all. *)
Theorem C52_flags_ignored : forall wd lo l l' fuel, same_but_flags l l' -> link wd lo l fuel = link wd lo l' fuel.
Proof.
  intros wd lo l l' fuel (E1 & E2 & E3 & E4).
  assert (Hlibs : forall us w, find_undefined_symbols_in_libs wd l us w = find_undefined_symbols_in_libs wd l' us w).
  { intros us w. unfold find_undefined_symbols_in_libs. revert us w E3. generalize (opt_shared_libs (lk_options l)), (opt_shared_libs (lk_options l')).
    induction l0 as [|[p b] k IH]; intros [|[p' b'] k'] us w E; try discriminate E; [reflexivity|]. injection E as -> E. cbn [foldM].
    change (search_lib wd (w, us) (p', b)) with (search_lib wd (w, us) (p', b')).
    destruct (search_lib wd (w, us) (p', b')) as [[w1 us1]| |]; [|reflexivity|reflexivity]. cbn [mbind res_bind]. by apply IH. }
  assert (Hloop : forall fuel round us w, resolve_loop wd lo l fuel round us w = resolve_loop wd lo l' fuel round us w).
  { induction fuel0 as [|n IH]; intros round us w; [reflexivity|]. cbn [resolve_loop]. rewrite Hlibs. destruct (find_undefined_symbols_in_libs _ _ _ _) as [[w1 n1]| |]; [|reflexivity|reflexivity].
    cbn [mbind res_bind]. unfold process_archives_containing. rewrite E2. destruct (foldM _ _ _) as [[w2 n2]| |]; [|reflexivity|reflexivity]. cbn [mbind res_bind].
    destruct (_ =? _)%nat; [reflexivity|apply IH]. }
  assert (Hnew : writer_new (lk_options l) = writer_new (lk_options l')) by (rewrite E4; reflexivity).
  assert (Hw : link_writer wd lo l fuel = link_writer wd lo l' fuel).
  { unfold link_writer, resolve. rewrite Hnew. destruct (writer_new (lk_options l')) as [w0| |]; [|reflexivity|reflexivity]. cbn [mbind res_bind].
    unfold load_objects. rewrite E1. destruct (mapM_res _ _) as [ins| |]; [|reflexivity|reflexivity]. cbn [mbind res_bind].
    destruct (foldM add_object_sections _ _) as [[w1 elfs]| |]; [|reflexivity|reflexivity]. cbn [mbind res_bind].
    destruct (foldM add_object_symbols _ _) as [w2| |]; [|reflexivity|reflexivity]. cbn [mbind res_bind]. by rewrite Hloop. }
  unfold link, link_bytes. rewrite Hw. rewrite E4. reflexivity.
Qed.
Print Assumptions C52_flags_ignored.
Example C52_case : same_but_flags (mkLinker (options_default <| opt_shared_libs := [("/l/libfoo.so", true)] |>) ["a.o"] [])
    (demo_linker ["a.o"] ["/l/libfoo.so"]).
Proof. split; [reflexivity|]. split; [reflexivity|]. split; reflexivity. Qed.
