(** What .dynsym says of the names it imports (C97). *)
From Verif Require Import SpecMissing SpecArgs SpecHashLink SpecFields DemoLink ProofImport PropGot PropSyms PropFields PropHashLink PropBound.

(** The dynamic loader takes an entry with a section for a definition of the
    program's own, and looks for the others in the libraries: functions are
    looked for, with the type, binding, visibility and size one of the libraries
    gives them; objects that are copied are defined, in .copyrel. *)
Theorem C97_import : forall wd lo l fuel w secs n j d, good_link wd lo l fuel w secs -> tidy_libs wd l -> few_sections secs -> n <> "" -> dynsym_entry w secs n j d ->
  (exists sym, library_lists wd l n sym /\ st_info d = st_info sym /\ st_other d = st_other sym /\ st_size d = st_size sym) /\
  (typ d <> 1 -> st_shndx d = 0 /\ st_value d = 0) /\
  (typ d = 1 -> exists cr, the_sec w secs ".copyrel" cr /\ secs !! N.to_nat (st_shndx d) = Some cr /\ addr cr <= st_value d /\ st_value d + st_size d <= addr cr + memsz cr).
Proof.
  intros wd lo l fuel w secs n j d G TL F Hn Hd. destruct (imported G TL n j d Hn Hd) as [A B]. split; [exact A|]. split; [exact B|]. intros Ht.
  destruct Hd as (ds & sd & Tds & Tsd & Hd & _). destruct (object_home G j ds d F Tds Hd Ht) as (cr & Tcr & Hi). exists cr. split; [exact Tcr|]. split; [exact Hi|].
  destruct (good_copy G) as (cr' & rd & ds' & recs & Tcr' & _ & Tds' & _ & Hc & _). rewrite (the_one _ _ _ _ _ Tcr Tcr') in Hc. rewrite (the_one _ _ _ _ _ Tds Tds') in Hc. exact (proj2 (Hc _ _ Hd Ht)).
Qed.
Print Assumptions C97_import.

(** ** A function and an object of one library *)
Definition entry_of (w : writer) (secs : list section) (j : N) : option (N * N * N * N) :=
  match filter (fun s => sec_name w s = Some ".dynsym") secs with [ds] => match rd_sym (contents ds) (24 * j) with Some d => Some (st_info d, st_shndx d, st_value d, st_size d) | None => None end | _ => None end.
Example C97_case : exists w secs evs, good_link (demo_world duo_files []) demo_lib_oracle (demo_linker ["a.o"] ["/l/libduo.so"]) 10 w secs /\
  loading (demo_world duo_files []) demo_lib_oracle (demo_linker ["a.o"] ["/l/libduo.so"]) 10 [("a.o", duo_main)] evs /\
  tidy_libs (demo_world duo_files []) (demo_linker ["a.o"] ["/l/libduo.so"]) /\ few_sections secs /\
  (exists d, dynsym_entry w secs "foo" 3 d) /\ entry_of w secs 3 = Some (0x12, 0, 0, 6) /\
  (exists d, dynsym_entry w secs "bar" 1 d) /\ entry_of w secs 1 = Some (0x11, 8, 0x201000, 24) /\ (sec_name w <$> secs !! 8%nat) = Some (Some ".copyrel").
Proof.
  destruct (good_demo duo_files ["a.o"] ["/l/libduo.so"] (fun w secs => dyn_names_b w secs (string_bytes <$> ["";"bar";"baz";"foo";"qux"]) && bool_decide (N.of_nat (length secs) <= 2^16) &&
    bool_decide (entry_of w secs 3 = Some (0x12, 0, 0, 6)) && bool_decide (entry_of w secs 1 = Some (0x11, 8, 0x201000, 24)) && bool_decide ((sec_name w <$> secs !! 8%nat) = Some (Some ".copyrel")))) as (w & secs & evs & G & L & E); [vm_compute; reflexivity..|].
  rewrite !andb_true_iff in E. destruct E as [[[[E1 E2] E3] E4] E5]. apply bool_decide_eq_true_1 in E2, E3, E4, E5.
  assert (TL : tidy_libs (demo_world duo_files []) (demo_linker ["a.o"] ["/l/libduo.so"])) by (apply tidy_intro; vm_compute; reflexivity).
  exists w, secs, evs. split; [exact G|]. split; [exact L|]. split; [exact TL|]. split; [exact E2|].
  split; [exact (dyn_names_intro w secs ["";"bar";"baz";"foo";"qux"] 3 "foo" E1 eq_refl (dyn_there _ _ _ _ _ _ G))|]. split; [exact E3|].
  split; [exact (dyn_names_intro w secs ["";"bar";"baz";"foo";"qux"] 1 "bar" E1 eq_refl (dyn_there _ _ _ _ _ _ G))|]. split; [exact E4|exact E5].
Qed.
