(** Names bound to libraries (C76). *)
From Verif Require Import SpecRun DemoLink PropLayout PropFile PropGot PropMerge PropSyms PropFields PropHashLink ProofBound.

(** A named entry of .dynsym: a library lists the name, an object mentions it,
    no object of the command line has a global definition of it, and there is
    no second entry of that name. Missing: weak definitions, see [C76_refuted]. *)
Theorem C76_partial : forall wd lo l fuel w secs es evs n j d, good_link wd lo l fuel w secs -> tidy_libs wd l -> loading wd lo l fuel es evs ->
  (forall i k, lo_undef lo i k ≡ₚ k) -> n <> "" -> dynsym_entry w secs n j d ->
  (exists sym, library_lists wd l n sym) /\ (exists y, y ∈ all_syms es /\ yi_name y = n) /\ ~ main_defines wd l n /\
  forall j' d', dynsym_entry w secs n j' d' -> j' = j.
Proof.
  intros wd lo l fuel w secs es evs n j d G TL L Hun Hn Hd. destruct (listed_bound G TL _ _ _ Hn Hd) as (_ & _ & _ & Hl). split; [exact Hl|]. split; [exact (listed_mentioned G TL _ _ _ _ _ L Hn Hd)|].
  split; [exact (listed_open G TL _ _ _ Hn Hd Hun)|]. intros j' d' Hd'. exact (listed_once G TL _ _ _ _ _ Hd' Hd).
Qed.
Print Assumptions C76_partial.

(** A name referred to which neither an object nor the linker defines is
    listed. *)
Theorem C76_listed : forall wd lo l fuel w secs es evs n y, good_link wd lo l fuel w secs -> loading wd lo l fuel es evs -> no_nuls es ->
  n <> "" -> y ∈ named n (all_syms es) -> all_standard n (all_syms es) -> binding (yi_sym y) <> 0 -> ~ object_defines es n -> ~ linker_defines es n ->
  exists j d, dynsym_entry w secs n j d.
Proof. intros wd lo l fuel w secs es evs n y G L Hnn Hn Hy Hst Hb Hod Hld. exact (left_listed G _ _ _ _ L Hnn Hn Hy Hst Hb Hod Hld). Qed.
Print Assumptions C76_listed.

(** ** A library with names needed and names defined here already *)
Definition own_a : elf_obj := demo_obj [progbits ".text" 6 16 [0xe8; 0; 0; 0; 0; 0xe8; 0; 0; 0; 0; 0xc3; 0xc3]; relasec ".rela.text"]
  [("_start", dsym 0x12 1 0 11); ("f", dsym 0x12 1 11 1); ("foo", dsym 0x10 0 0 0)] [(2, [mkGreloc 1 (Some (-4)%Z) 2 4; mkGreloc 6 (Some (-4)%Z) 3 4])].
Definition own_lib : elf_obj := demo_lib [("f", dsym 0x12 7 0x1000 6); ("foo", dsym 0x12 7 0x1010 6); ("bar", dsym 0x11 8 0x2000 24)].
Definition own_files : list (string * elf_obj) := [("a.o", own_a); ("/l/libown.so", own_lib)].
Definition dyn_names_b (w : writer) (secs : list section) (k : list bytes) : bool :=
  reads_b w secs ".dynsym" (fun ds => reads_b w secs ".dynstr" (fun sd => bool_decide (filesz ds = 24 * N.of_nat (length k)) && bool_decide ((fun j => SpecHashLink.dyn_name ds sd (N.of_nat j)) <$> seq 0 (length k) = Some <$> k))).
Lemma dyn_names_intro w secs k (j : nat) n : dyn_names_b w secs (string_bytes <$> k) = true -> k !! j = Some n -> (exists ds sd, the_sec w secs ".dynsym" ds /\ the_sec w secs ".dynstr" sd) -> exists d, dynsym_entry w secs n (N.of_nat j) d.
Proof.
  intros H Hj (ds & sd & Tds & Tsd). pose proof (reads_intro _ _ _ _ _ H Tds) as H1. cbv beta in H1. pose proof (reads_intro _ _ _ _ _ H1 Tsd) as H2. cbv beta in H2. apply andb_true_iff in H2 as [_ H2]. apply bool_decide_eq_true_1 in H2.
  apply (f_equal (fun x : list _ => x !! j)) in H2. rewrite !list_lookup_fmap, Hj in H2. pose proof (lookup_lt_Some _ _ _ Hj) as Hl. rewrite fmap_length, lookup_seq_lt in H2 by exact Hl. cbn [fmap option_fmap option_map] in H2. apply (inj Some) in H2.
  change (0 + j)%nat with j in H2. unfold SpecHashLink.dyn_name in H2. destruct (rd_sym (contents ds) (24 * N.of_nat j)) as [d|] eqn:Ed; cbn [mbind option_bind] in H2; [|discriminate H2]. exists d, ds, sd. done.
Qed.
Definition own_links (w : writer) (secs : list section) (evs : list event) : Prop :=
  good_link (demo_world own_files []) demo_lib_oracle (demo_linker ["a.o"] ["/l/libown.so"]) 10 w secs /\
  loading (demo_world own_files []) demo_lib_oracle (demo_linker ["a.o"] ["/l/libown.so"]) 10 [("a.o", own_a)] evs /\
  tidy_libs (demo_world own_files []) (demo_linker ["a.o"] ["/l/libown.so"]).
Lemma dyn_there wd lo l fuel w secs : good_link wd lo l fuel w secs -> exists ds sd, the_sec w secs ".dynsym" ds /\ the_sec w secs ".dynstr" sd.
Proof.
  intros G. destruct (links_outcome _ _ _ _ _ _ (gl_links _ _ _ _ _ _ G)) as (w0 & wr & ws & w1 & extra & null & rest & rest' & st & w3 & w4 & w5 & w6 & w7 & null' & out & O).
  pose proof (proj2 (gl_links _ _ _ _ _ _ G)) as Fin. destruct G as [_ V P PL NF AF SF]. destruct (hash_there O Fin V P NF) as (_ & _ & [ds Hds] & [sd Hsd]). eauto.
Qed.
(** [foo] is the library's, [f] is not. *)
Example C76_case : exists w secs evs d, own_links w secs evs /\ (exists sym, library_lists (demo_world own_files []) (demo_linker ["a.o"] ["/l/libown.so"]) "f" sym) /\
  main_defines (demo_world own_files []) (demo_linker ["a.o"] ["/l/libown.so"]) "f" /\ dynsym_entry w secs "foo" 1 d /\ forall j d', ~ dynsym_entry w secs "f" j d'.
Proof.
  destruct (good_demo own_files ["a.o"] ["/l/libown.so"] (fun w secs => dyn_names_b w secs (string_bytes <$> ["";"foo"]))) as (w & secs & evs & G & L & E); [vm_compute; reflexivity..|].
  change (cmd_objs (demo_world own_files []) (demo_linker ["a.o"] ["/l/libown.so"])) with [("a.o", own_a)] in L.
  assert (TL : tidy_libs (demo_world own_files []) (demo_linker ["a.o"] ["/l/libown.so"])) by (apply tidy_intro; vm_compute; reflexivity).
  destruct (dyn_names_intro w secs ["";"foo"] 1 "foo" E eq_refl (dyn_there _ _ _ _ _ _ G)) as [d Hd].
  assert (M : main_defines (demo_world own_files []) (demo_linker ["a.o"] ["/l/libown.so"]) "f").
  { exists "a.o", own_a, (mkSym 2 18 0 1 11 1). split; [apply elem_of_list_singleton; reflexivity|]. split; [reflexivity|]. split; [reflexivity|]. split; [apply (elem_of_list_lookup_2 _ 2%nat); vm_compute; reflexivity|]. split; [vm_compute; reflexivity|]. split; [discriminate|]. split; [reflexivity|discriminate]. }
  exists w, secs, evs, d. split; [split; [exact G|split; [exact L|exact TL]]|]. split.
  { exists (mkSym 1 18 0 7 0x1000 6), "/l/libown.so", own_lib. split; [split; [apply elem_of_list_singleton; reflexivity|reflexivity]|]. split; [apply (elem_of_list_lookup_2 _ 1%nat); vm_compute; reflexivity|vm_compute; reflexivity]. }
  split; [exact M|]. split; [exact Hd|]. intros j d' Hd'. assert (Hf : "f" <> "") by discriminate. assert (Hun : forall i k, lo_undef demo_lib_oracle i k ≡ₚ k) by (intros; reflexivity).
  destruct (C76_partial _ _ _ _ _ _ _ _ _ _ _ G TL L Hun Hf Hd') as (_ & _ & Hm & _). exact (Hm M).
Qed.
Example C76_listed_case : exists w secs evs y j d, own_links w secs evs /\ no_nuls [("a.o", own_a)] /\ y ∈ named "foo" (all_syms [("a.o", own_a)]) /\ binding (yi_sym y) = 1 /\
  ~ object_defines [("a.o", own_a)] "foo" /\ ~ linker_defines [("a.o", own_a)] "foo" /\ dynsym_entry w secs "foo" j d.
Proof.
  destruct (good_demo own_files ["a.o"] ["/l/libown.so"] (fun _ _ => true)) as (w & secs & evs & G & L & _); [vm_compute; reflexivity..|].
  change (cmd_objs (demo_world own_files []) (demo_linker ["a.o"] ["/l/libown.so"])) with [("a.o", own_a)] in L.
  assert (TL : tidy_libs (demo_world own_files []) (demo_linker ["a.o"] ["/l/libown.so"])) by (apply tidy_intro; vm_compute; reflexivity).
  assert (Hnn : no_nuls [("a.o", own_a)]) by (apply no_nul_intro; vm_compute; reflexivity).
  assert (Q : exists q y, all_rels [("a.o", own_a)] !! 1%nat = Some q /\ named "foo" (all_syms [("a.o", own_a)]) !! 0%nat = Some y) by (eexists _, _; split; vm_compute; reflexivity). destruct Q as (q & y & Hq & Hy).
  assert (B : binding (yi_sym y) = 1) by (vm_compute in Hy; apply (inj Some) in Hy; rewrite <- Hy; reflexivity). apply elem_of_list_lookup_2 in Hy.
  assert (Hl : left_to_libraries [("a.o", own_a)] q "foo") by (apply left_intro; vm_compute in Hq; apply (inj Some) in Hq; rewrite <- Hq; vm_compute; reflexivity).
  destruct Hl as (H1 & H2 & _ & H4 & H5). assert (B' : binding (yi_sym y) <> 0) by (rewrite B; discriminate). destruct (C76_listed _ _ _ _ _ _ _ _ _ _ G L Hnn H1 Hy H2 B' H4 H5) as (j & d & Hd).
  exists w, secs, evs, y, j, d. split; [split; [exact G|split; [exact L|exact TL]]|]. split; [exact Hnn|]. split; [exact Hy|]. split; [exact B|]. split; [exact H4|]. split; [exact H5|exact Hd].
Qed.

(** A weak definition does not stand up to a reference from another object: the
    name is bound to the library. *)
Definition weak_def : elf_obj := demo_obj [progbits ".text" 6 16 [0xc3; 0xc3]] [("_start", dsym 0x12 1 0 1); ("f", dsym 0x22 1 1 1)] [].
Definition weak_use : elf_obj := demo_obj [progbits ".text" 6 16 [0xe8; 0; 0; 0; 0; 0xc3]; relasec ".rela.text"] [("f", dsym 0x10 0 0 0)] [(2, [mkGreloc 1 (Some (-4)%Z) 1 4])].
Definition weak_files : list (string * elf_obj) := [("a.o", weak_def); ("b.o", weak_use); ("/l/libown.so", own_lib)].
Theorem C76_refuted : exists wd lo l fuel w secs es evs n j d y, good_link wd lo l fuel w secs /\ tidy_libs wd l /\ loading wd lo l fuel es evs /\ (forall i k, lo_undef lo i k ≡ₚ k) /\
  n <> "" /\ y ∈ named n (all_syms es) /\ binding (yi_sym y) = 2 /\ st_shndx (yi_sym y) = 1 /\ dynsym_entry w secs n j d.
Proof.
  destruct (good_demo weak_files ["a.o"; "b.o"] ["/l/libown.so"] (fun w secs => dyn_names_b w secs (string_bytes <$> ["";"f"]))) as (w & secs & evs & G & L & E); [vm_compute; reflexivity..|].
  change (cmd_objs (demo_world weak_files []) (demo_linker ["a.o"; "b.o"] ["/l/libown.so"])) with [("a.o", weak_def); ("b.o", weak_use)] in L.
  destruct (dyn_names_intro w secs ["";"f"] 1 "f" E eq_refl (dyn_there _ _ _ _ _ _ G)) as [d Hd].
  assert (Q : exists y, named "f" (all_syms [("a.o", weak_def); ("b.o", weak_use)]) !! 0%nat = Some y) by (eexists; vm_compute; reflexivity). destruct Q as (y & Hy).
  assert (B : binding (yi_sym y) = 2 /\ st_shndx (yi_sym y) = 1) by (vm_compute in Hy; apply (inj Some) in Hy; rewrite <- Hy; split; reflexivity). apply elem_of_list_lookup_2 in Hy. destruct B as [B1 B2].
  eexists _, _, _, _, w, secs, _, evs, "f", 1, d, y. split; [exact G|]. split; [apply tidy_intro; vm_compute; reflexivity|]. split; [exact L|]. split; [intros; reflexivity|]. split; [discriminate|]. split; [exact Hy|]. split; [exact B1|]. split; [exact B2|exact Hd].
Qed.
Print Assumptions C76_refuted.

(** Nor does a global definition in an archive member: libraries are searched
    before archives, so a name that a library lists is bound to it even if a
    member loaded for another name defines it as well. *)
Definition arc_a : elf_obj := demo_obj [progbits ".text" 6 16 [0xe8; 0; 0; 0; 0; 0xe8; 0; 0; 0; 0; 0xc3]; relasec ".rela.text"]
  [("_start", dsym 0x12 1 0 11); ("f", dsym 0x10 0 0 0); ("g", dsym 0x10 0 0 0)] [(2, [mkGreloc 1 (Some (-4)%Z) 2 4; mkGreloc 6 (Some (-4)%Z) 3 4])].
Definition arc_m : elf_obj := demo_obj [progbits ".text" 6 16 [0xc3; 0xc3]] [("g", dsym 0x12 1 0 1); ("f", dsym 0x12 1 1 1); ("z", dsym 0x12 1 1 1)] [].
Definition arc_ar : archive := mkArchive (fun s => if (s =? "g")%string then Some "m.o" else if (s =? "f")%string then Some "m.o" else None) (fun m => if (m =? "m.o")%string then Some (Some arc_m) else None).
Definition arc_files : list (string * elf_obj) := [("a.o", arc_a); ("/l/libown.so", own_lib)].
Definition arc_wd : world := demo_world arc_files [("l.a", arc_ar)].
Definition arc_l : linker := mkLinker (lk_options (demo_linker ["a.o"] ["/l/libown.so"])) ["a.o"] ["l.a"].
Definition arc_check (f : writer -> list section -> bool) : bool :=
  match link_writer arc_wd demo_lib_oracle arc_l 10 with
  | Ok w => match mapM_res (sec_finalize demo_oracle w) (w_sections w) with Ok secs => f w secs | _ => false end
  | _ => false
  end.
Lemma arc_links f : arc_check f = true -> exists w secs, links arc_wd demo_lib_oracle arc_l 10 w secs /\ f w secs = true.
Proof.
  unfold arc_check, links. destruct (link_writer _ _ _ _) as [w| |]; [|discriminate..]. intros H. change (lo_writer demo_lib_oracle) with demo_oracle.
  destruct (mapM_res (sec_finalize demo_oracle w) (w_sections w)) as [secs| |] eqn:E; [|discriminate..]. exists w, secs. split; [split; [reflexivity|exact E]|exact H].
Qed.
Lemma arc_member m e : ar_get arc_ar m = Some (Some e) -> e = arc_m.
Proof. cbn. destruct (m =? "m.o")%string; [intros [=]; by subst|discriminate]. Qed.
Lemma arc_path p ar : wd_archive arc_wd p = Some (Some ar) -> ar = arc_ar.
Proof. unfold arc_wd, demo_world. cbn -[arc_ar]. destruct (decide _); [intros [=]; by subst|discriminate]. Qed.
Definition arc_all : list (string * elf_obj) := [("a.o", arc_a); ("m.o", arc_m)].
Lemma arc_sections e name sh : input_section arc_wd arc_l e name sh -> input_section (demo_world arc_all []) (demo_linker ["a.o"; "m.o"] []) e name sh.
Proof.
  intros (Hi & H). split; [|exact H]. left. destruct Hi as [(p & Hp & He)|(p & ar & m & Hp & Ha & He)].
  - apply elem_of_list_singleton in Hp as ->. exists "a.o". split; [left|]. exact He.
  - rewrite (arc_path _ _ Ha) in He. apply arc_member in He as ->. exists "m.o". split; [right; left|reflexivity].
Qed.
Lemma arc_good w secs : links arc_wd demo_lib_oracle arc_l 10 w secs -> good_b w secs = true -> good_link arc_wd demo_lib_oracle arc_l 10 w secs.
Proof.
  intros H HG. unfold good_b in HG. rewrite !andb_true_iff, !forallb_forall, !N.ltb_lt in HG. destruct HG as [[[[[G1 G2] G3] G4] G5] G6].
  assert (P : plain_inputs (demo_world arc_all []) (demo_linker ["a.o"; "m.o"] [])) by (apply demo_plain; vm_compute; reflexivity).
  assert (PL : plain_libs (demo_world arc_files []) (demo_linker ["a.o"] ["/l/libown.so"])) by (apply libs_plain; vm_compute; reflexivity).
  split; [exact H|exact demo_valid| |exact PL|split_and!; assumption| |split].
  - destruct P as [P1 P2 P3]. split.
    + intros e name sh K. exact (P1 _ _ _ (arc_sections _ _ _ K)).
    + intros e sh K. exact (P2 _ _ (arc_sections _ _ _ K)).
    + intros e sh e' sh' name K K'. exact (P3 _ _ _ _ _ (arc_sections _ _ _ K) (arc_sections _ _ _ K')).
  - intros s Hs. apply elem_of_list_In in Hs. specialize (G4 _ Hs). simpl in G4. by apply N.ltb_lt.
  - intros n s Hs. apply elem_of_map_to_list, elem_of_list_In in Hs. exact (bool_decide_eq_true_1 _ (G5 _ Hs)).
  - intros n s Hs. apply elem_of_map_to_list, elem_of_list_In in Hs. exact (bool_decide_eq_true_1 _ (G6 _ Hs)).
Qed.
Definition arc_resolved : bool := match resolve arc_wd demo_lib_oracle arc_l 10 with Ok wr => match st_get (w_strtab wr) "z" with Some _ => true | None => false end | _ => false end.
Lemma arc_loading : exists p ms evs, loading arc_wd demo_lib_oracle arc_l 10 (("a.o", arc_a) :: (p, arc_m) :: ms) evs.
Proof.
  assert (H : arc_resolved = true) by (vm_compute; reflexivity). unfold arc_resolved in H. destruct (resolve arc_wd demo_lib_oracle arc_l 10) as [wr| |] eqn:Er; [|discriminate H..].
  destruct (resolve_trace _ _ _ _ _ Er) as (es & evs & R). destruct (ld_cmd _ _ _ _ _ R) as (ms & E & HF). change (cmd_objs arc_wd arc_l) with [("a.o", arc_a)] in E. cbn [app] in E. destruct ms as [|[p e] ms].
  - exfalso. destruct (st_get (w_strtab wr) "z") as [en|] eqn:Ez; [|discriminate H]. destruct (proj1 (yv_names _ _ (reads_yinv _ _ _ _ _ R) "z")) as [K|(y & Hy & Hyn)]; [eexists; exact Ez|discriminate K|].
    rewrite (ld_syms _ _ _ _ _ R), E in Hy. assert (Q : forallb (fun y => negb (yi_name y =? "z")%string) (all_syms [("a.o", arc_a)]) = true) by (vm_compute; reflexivity).
    rewrite forallb_forall in Q. apply elem_of_list_In in Hy. specialize (Q _ Hy). rewrite Hyn in Q. discriminate Q.
  - apply Forall_cons in HF as [HF _]. destruct HF as (ar & m & Ha & Hw & Hg & _). rewrite (arc_path _ _ Hw) in Hg. apply arc_member in Hg. cbn [snd] in Hg. subst e.
    exists p, ms, evs, wr. split; [exact Er|]. rewrite <- E. exact R.
Qed.
Theorem C76_archive_refuted : exists wd lo l fuel w secs es evs n j d y, good_link wd lo l fuel w secs /\ tidy_libs wd l /\ loading wd lo l fuel es evs /\ (forall i k, lo_undef lo i k ≡ₚ k) /\
  n <> "" /\ y ∈ named n (all_syms es) /\ binding (yi_sym y) = 1 /\ st_shndx (yi_sym y) = 1 /\ dynsym_entry w secs n j d.
Proof.
  destruct (arc_links (fun w secs => good_b w secs && dyn_names_b w secs (string_bytes <$> ["";"f"]))) as (w & secs & Hl & E); [vm_compute; reflexivity|]. apply andb_true_iff in E as [E1 E2].
  pose proof (arc_good _ _ Hl E1) as G. destruct arc_loading as (p & ms & evs & L).
  destruct (dyn_names_intro w secs ["";"f"] 1 "f" E2 eq_refl (dyn_there _ _ _ _ _ _ G)) as [d Hd].
  assert (Q : exists y, named "f" (obj_syms 1 p arc_m) !! 0%nat = Some y /\ binding (yi_sym y) = 1 /\ st_shndx (yi_sym y) = 1) by (eexists; split; [vm_compute; reflexivity|split; reflexivity]). destruct Q as (y & Hy & B1 & B2). apply elem_of_list_lookup_2 in Hy.
  assert (Hy' : y ∈ named "f" (all_syms (("a.o", arc_a) :: (p, arc_m) :: ms))). { unfold named in *. apply elem_of_list_filter in Hy as [Hp Hy]. apply elem_of_list_filter. split; [exact Hp|]. unfold all_syms. rewrite !imap_cons. cbn [concat]. apply elem_of_app. right. apply elem_of_app. left. exact Hy. }
  assert (TL : tidy_libs arc_wd arc_l) by (change (tidy_libs (demo_world arc_files []) (demo_linker ["a.o"] ["/l/libown.so"])); apply tidy_intro; vm_compute; reflexivity).
  eexists _, _, _, _, w, secs, _, evs, "f", 1, d, y. split; [exact G|]. split; [exact TL|]. split; [exact L|]. split; [intros; reflexivity|]. split; [discriminate|]. split; [exact Hy'|]. split; [exact B1|]. split; [exact B2|exact Hd].
Qed.
Print Assumptions C76_archive_refuted.
