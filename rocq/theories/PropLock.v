(** A link does not wait for a lock it holds itself (C62). *)
From Verif Require Import ProofBase DemoLink PropLayout PropFile PropGot PropSyms ProofLock.

(** Everything after loading, in links of inputs that use none of the names of
    the linker's own sections, with trace messages off: whatever pairs of
    sections the sort compares. Both conditions are needed, see below. *)
Theorem C62_partial : forall wd lo l fuel w secs wr cmps, good_link wd lo l fuel w secs -> resolve wd lo l fuel = Ok wr ->
  exists es, lk_link (lo_writer lo) cmps false wr = Ok es /\ held es = [] /\ ~ self_deadlock es.
Proof.
  intros wd lo l fuel w secs wr' cmps G Hr.
  destruct (links_outcome _ _ _ _ _ _ (gl_links _ _ _ _ _ _ G)) as (w0 & wr & ws & w1 & extra & null & rest & rest' & st & w3 & w4 & w5 & w6 & w7 & null' & out & O).
  pose proof (proj2 (gl_links _ _ _ _ _ _ G)) as Fin. destruct G as [_ V P PL NF AF SF]. rewrite (oc_resolve O) in Hr. injection Hr as <-.
  destruct (link_locks O Fin V P NF cmps false) as (es & He & Hq). exists (es ++ lk_write false w). split; [exact He|].
  assert (Q : quiet [] (es ++ lk_write false w)) by (apply quiet_app; [exact Hq|apply quiet_write; exact (final_links O V)]).
  split; [symmetry; exact (go_held _ _ _ Q)|exact (quiet_safe _ Q)].
Qed.
Print Assumptions C62_partial.
(** And each addition while loading. *)
Theorem C62_loading_partial : forall wd lo l fuel w secs es evs pre v post wp, good_link wd lo l fuel w secs -> loading wd lo l fuel es evs ->
  evs = pre ++ v :: post -> held (event_locks wp v) = [] /\ ~ self_deadlock (event_locks wp v).
Proof.
  intros wd lo l fuel w secs es evs pre v post wp G L E.
  destruct (links_outcome _ _ _ _ _ _ (gl_links _ _ _ _ _ _ G)) as (w0 & wr & ws & w1 & extra & null & rest & rest' & st & w3 & w4 & w5 & w6 & w7 & null' & out & O).
  destruct G as [_ V P PL NF AF SF]. destruct L as (wr' & Hr & R). rewrite (oc_resolve O) in Hr. injection Hr as <-.
  pose proof (event_quiet O P R pre v post wp E) as Q. split; [symmetry; exact (go_held _ _ _ Q)|exact (quiet_safe _ Q)].
Qed.
Print Assumptions C62_loading_partial.
(** With trace messages on every one of these links hangs: the message for
    .shstrtab wants to read the name table while it is locked for writing. *)
Theorem C62_trace_hangs : forall wd lo l fuel w secs wr cmps, good_link wd lo l fuel w secs -> resolve wd lo l fuel = Ok wr ->
  exists es, lk_link (lo_writer lo) cmps true wr = Ok es /\ self_deadlock es.
Proof.
  intros wd lo l fuel w secs wr' cmps G Hr.
  destruct (links_outcome _ _ _ _ _ _ (gl_links _ _ _ _ _ _ G)) as (w0 & wr & ws & w1 & extra & null & rest & rest' & st & w3 & w4 & w5 & w6 & w7 & null' & out & O).
  pose proof (proj2 (gl_links _ _ _ _ _ _ G)) as Fin. destruct G as [_ V P PL NF AF SF]. rewrite (oc_resolve O) in Hr. injection Hr as <-.
  destruct (link_locks O Fin V P NF cmps true) as (es & He & Hq). exists (es ++ lk_write true w). split; [exact He|].
  destruct (has_shstr O V) as (s & Hs & Hid). apply stuck_quiet_app; [exact Hq|]. exact (write_traced _ _ Hs Hid).
Qed.
Print Assumptions C62_trace_hangs.

(** A program with a PLT call, an init array with an end symbol, and a copied
    object: all nested locks occur. *)
Definition lock_files : list (string * elf_obj) := [("a.o", demo_obj
  [progbits ".text" 6 4 [0xe8; 0; 0; 0; 0; 0x8b; 0x05; 0; 0; 0; 0; 0xc3]; relasec ".rela.text"; mkDsec ".init_array" 14 3 8 8 [0; 0; 0; 0; 0; 0; 0; 0]]
  [("_start", dsym 0x12 1 0 12); ("f", dsym 0x10 0 0 0); ("x", dsym 0x10 0 0 0); ("__init_array_end", dsym 0x10 0 0 0)]
  [(2, [mkGreloc 1 (Some (-4)%Z) 2 4; mkGreloc 7 (Some (-4)%Z) 3 2])]);
  ("/l/lib.so", demo_lib [("f", dsym 0x12 8 0x1000 4); ("x", dsym 0x11 9 0x2000 4)])].
Example C62_case : exists w secs wr es, good_link (demo_world lock_files []) demo_lib_oracle (demo_linker ["a.o"] ["/l/lib.so"]) 10 w secs /\
  resolve (demo_world lock_files []) demo_lib_oracle (demo_linker ["a.o"] ["/l/lib.so"]) 10 = Ok wr /\
  lk_link demo_oracle [] false wr = Ok es /\ ~ self_deadlock es /\ (150 <= length es)%nat /\
  exists pre post, es = pre ++ Acq Excl id_plt :: post /\ length (held pre) = 2%nat.
Proof.
  destruct (good_demo lock_files ["a.o"] ["/l/lib.so"] (fun w _ => match resolve (demo_world lock_files []) demo_lib_oracle (demo_linker ["a.o"] ["/l/lib.so"]) 10 with
     | Ok wr => match lk_link demo_oracle [] false wr with Ok es => (150 <=? length es)%nat &&
         any (seq 0 (length es)) (fun i => match es !! i with Some (Acq Excl j) => (j =? id_plt)%nat && (length (held (take i es)) =? 2)%nat | _ => false end) | _ => false end | _ => false end))
    as (w & secs & evs & G & L & E); [vm_compute; reflexivity|vm_compute; reflexivity|vm_compute; reflexivity|].
  destruct (resolve (demo_world lock_files []) demo_lib_oracle (demo_linker ["a.o"] ["/l/lib.so"]) 10) as [wr| |] eqn:Hr; [|discriminate E|discriminate E].
  destruct (C62_partial _ _ _ _ _ _ wr [] G Hr) as (es & He & _ & Hs). change (lo_writer demo_lib_oracle) with demo_oracle in He. rewrite He in E. apply andb_true_iff in E as [E1 E2].
  exists w, secs, wr, es. split; [exact G|]. split; [reflexivity|]. split; [exact He|]. split; [exact Hs|]. split; [by apply Nat.leb_le|].
  apply any_spec in E2 as (i & _ & E2). destruct (es !! i) as [[[|] j|m j]|] eqn:Ei; [discriminate E2| |discriminate E2|discriminate E2].
  apply andb_true_iff in E2 as [E2 E3]. apply Nat.eqb_eq in E2 as ->. apply Nat.eqb_eq in E3. exists (take i es), (drop (S i) es). split; [|exact E3]. symmetry. exact (take_drop_middle _ _ _ Ei).
Qed.

(** Names of the linker's own sections: a section with contents called
    .symtab. The scan for relocations holds its lock while it asks for the
    symbol table's, which is the same. *)
Definition symtab_obj : elf_obj := demo_obj [progbits ".text" 6 4 [0xc3]; progbits ".symtab" 0 1 [1]] [("_start", dsym 0x12 1 0 1)] [].
Theorem C62_refuted : exists wd lo l fuel wr, resolve wd lo l fuel = Ok wr /\ self_deadlock (lk_scan wr).
Proof.
  exists (demo_world [("a.o", symtab_obj)] []), demo_lib_oracle, (demo_linker ["a.o"] []), 10%nat.
  assert (K : match resolve (demo_world [("a.o", symtab_obj)] []) demo_lib_oracle (demo_linker ["a.o"] []) 10 with Ok wr => match go [] (lk_scan wr) with None => true | _ => false end | _ => false end = true) by (vm_compute; reflexivity).
  destruct (resolve _ _ _ _) as [wr| |]; [|discriminate K|discriminate K]. exists wr. split; [reflexivity|]. apply go_stuck. destruct (go [] (lk_scan wr)); [discriminate K|reflexivity].
Qed.
Print Assumptions C62_refuted.
(** One called .strtab that defines a symbol: already adding the symbol. *)
Theorem C62_strtab_refuted : exists w0 w1 sr, writer_new options_default = Ok w0 /\ add_section w0 ".strtab" (shdr0 <| sh_type := SHT_PROGBITS |> <| sh_size := 1 |>) (Some [1]) = Ok (w1, sr) /\
  self_deadlock (lk_add_symbol (dsym 0x11 1 0 1) (Some sr)).
Proof.
  assert (K : match writer_new options_default with Ok w0 => match add_section w0 ".strtab" (shdr0 <| sh_type := SHT_PROGBITS |> <| sh_size := 1 |>) (Some [1]) with
     | Ok (w1, sr) => match go [] (lk_add_symbol (dsym 0x11 1 0 1) (Some sr)) with None => true | _ => false end | _ => false end | _ => false end = true) by (vm_compute; reflexivity).
  destruct (writer_new options_default) as [w0| |]; [|discriminate K|discriminate K]. destruct (add_section w0 _ _ _) as [[w1 sr]| |] eqn:E; [|discriminate K|discriminate K].
  exists w0, w1, sr. split; [reflexivity|]. split; [exact E|]. apply go_stuck. destruct (go [] _); [discriminate K|reflexivity].
Qed.
Print Assumptions C62_strtab_refuted.
