(** The symbol table of the output, name by name (C10-C12, C15, C58, C63). *)
From Verif Require Import ProofBase DemoLink PropLayout PropFile PropGot PropMerge PropSyms PropFields ProofNames.

(** * C10 *)

(** In the output's .symtab all locals come before all other symbols. sh_info
    is never below the number of locals, and it is that number if no name
    first seen as a local has another binding elsewhere. Missing: sh_info for
    overridden locals, see [C10_link_refuted]. *)
Theorem C10_link_partial : forall wd lo l fuel w secs es evs, good_link wd lo l fuel w secs -> loading wd lo l fuel es evs ->
  N.of_nat (length (all_syms es)) + 1 < 2^32 -> sane_bindings es ->
  exists t k, the_sec w secs ".symtab" t /\ (forall i sym, rd_sym (contents t) (24 * i) = Some sym -> (binding sym = 0 <-> i < k)) /\
    k <= sh_info (sc_sh t) /\ (locals_stay es -> sh_info (sc_sh t) = k).
Proof. intros wd lo l fuel w secs es evs G L. exact (good_locals G L). Qed.
Print Assumptions C10_link_partial.

Definition sane_b (es : list (string * elf_obj)) : bool :=
  forallb (fun y => bool_decide (is_Some (strength (binding (yi_sym y))))) (all_syms es) && forallb (fun y => binding (yi_sym y) =? 0) (named "" (all_syms es)).
Lemma sane_intro es : sane_b es = true -> sane_bindings es.
Proof.
  unfold sane_b. rewrite andb_true_iff, !forallb_forall. intros [H1 H2]. split; intros y Hy; apply elem_of_list_In in Hy; [exact (bool_decide_eq_true_1 _ (H1 y Hy))|exact (proj1 (N.eqb_eq _ _) (H2 y Hy))].
Qed.
Definition stay_b (es : list (string * elf_obj)) : bool :=
  forallb (fun z => match head (named (yi_name z) (all_syms es)) with Some y => if binding (yi_sym y) =? 0 then binding (yi_sym z) =? 0 else true | None => true end) (filter (fun y : sym_in => typ (yi_sym y) <> 3) (all_syms es)).
Lemma stay_intro es : stay_b es = true -> locals_stay es.
Proof.
  unfold stay_b. rewrite forallb_forall. intros H n y y' Hh Hb Hy. apply elem_of_list_filter in Hy as [[Ht Hn] Hy].
  specialize (H y'). cbv beta in H. rewrite Hn, Hh, Hb in H. apply N.eqb_eq, H. apply elem_of_list_In, elem_of_list_filter. done.
Qed.
Example C10_link_case : exists w secs evs t, twin_good w secs /\ loading twin_wd demo_lib_oracle twin_l 10 twin_files evs /\
  N.of_nat (length (all_syms twin_files)) + 1 < 2^32 /\ sane_bindings twin_files /\ locals_stay twin_files /\ the_sec w secs ".symtab" t /\ sh_info (sc_sh t) = 1.
Proof.
  destruct (twin_check (fun w secs => reads_b w secs ".symtab" (fun t => sh_info (sc_sh t) =? 1))) as (w & secs & evs & G & L & E); [vm_compute; reflexivity|].
  assert (H1 : N.of_nat (length (all_syms twin_files)) + 1 < 2^32) by (vm_compute; reflexivity). assert (H2 : sane_bindings twin_files) by (apply sane_intro; vm_compute; reflexivity).
  assert (H3 : locals_stay twin_files) by (apply stay_intro; vm_compute; reflexivity).
  destruct (C10_link_partial _ _ _ _ _ _ _ _ G L H1 H2) as (t & k & Ht & _). exists w, secs, evs, t. split_and!; try assumption. apply N.eqb_eq, (reads_intro _ _ _ _ _ E Ht).
Qed.

(** A local in one object, a global of the same name in the next: the symbol
    is global but counted as local. *)
Definition ov_a : elf_obj := demo_obj [progbits ".text" 6 4 [0xc3; 0xc3]] [("f", dsym 0x02 1 1 1)] [].
Definition ov_b : elf_obj := demo_obj [progbits ".text" 6 4 [0xc3; 0xc3]] [("_start", dsym 0x12 1 0 1); ("f", dsym 0x12 1 1 1)] [].
Definition ov_files : list (string * elf_obj) := [("a.o", ov_a); ("b.o", ov_b)].
Theorem C10_link_refuted : exists wd lo l fuel w secs es evs t i sym, good_link wd lo l fuel w secs /\ loading wd lo l fuel es evs /\
  sane_bindings es /\ the_sec w secs ".symtab" t /\ rd_sym (contents t) (24 * i) = Some sym /\ i < sh_info (sc_sh t) /\ binding sym <> 0.
Proof.
  destruct (good_demo ov_files ["a.o"; "b.o"] [] (fun w secs => reads_b w secs ".symtab" (fun t => match rd_sym (contents t) (24 * 1) with Some sym => (1 <? sh_info (sc_sh t)) && negb (binding sym =? 0) | None => false end))) as (w & secs & evs & G & L & E); [vm_compute; reflexivity..|].
  change (cmd_objs (demo_world ov_files []) (demo_linker ["a.o"; "b.o"] [])) with ov_files in L.
  assert (H1 : N.of_nat (length (all_syms ov_files)) + 1 < 2^32) by (vm_compute; reflexivity). assert (H2 : sane_bindings ov_files) by (apply sane_intro; vm_compute; reflexivity).
  destruct (C10_link_partial _ _ _ _ _ _ _ _ G L H1 H2) as (t & k & Ht & _). pose proof (reads_intro _ _ _ _ _ E Ht) as K. cbv beta in K. destruct (rd_sym (contents t) (24 * 1)) as [sym|] eqn:Es; [|discriminate K].
  apply andb_true_iff in K as [K1 K2]. apply N.ltb_lt in K1. apply negb_true_iff, N.eqb_neq in K2.
  exists (demo_world ov_files []), demo_lib_oracle, (demo_linker ["a.o"; "b.o"] []), 10%nat, w, secs, ov_files, evs, t, 1, sym. split_and!; assumption.
Qed.
Print Assumptions C10_link_refuted.

(** * C11 *)

(** A link that succeeds has at most one strong definition of every name. *)
Theorem C11_link : forall wd lo l fuel w secs es evs n i j a b, good_link wd lo l fuel w secs -> loading wd lo l fuel es evs ->
  n <> "" -> all_standard n (all_syms es) -> named n (all_syms es) !! i = Some a -> named n (all_syms es) !! j = Some b ->
  binding (yi_sym a) = 1 -> binding (yi_sym b) = 1 -> defined (yi_sym a) -> defined (yi_sym b) -> i = j.
Proof.
  intros wd lo l fuel w secs es evs n i j a b G L Hn Hst Ha Hb B1 B2 D1 D2. destruct (decide (i = j)) as [|Hij]; [done|]. destruct (good_no_clash G L n i j a b Hn Hst Hij Ha Hb B1 B2 D1 D2).
Qed.
Print Assumptions C11_link.
(** [f] of [twin_files]: a reference and one definition. *)
Example C11_link_case : exists w secs evs a, twin_good w secs /\ loading twin_wd demo_lib_oracle twin_l 10 twin_files evs /\ all_standard "f" (all_syms twin_files) /\
  length (named "f" (all_syms twin_files)) = 2%nat /\ named "f" (all_syms twin_files) !! 1%nat = Some a /\ binding (yi_sym a) = 1 /\ defined (yi_sym a).
Proof.
  destruct (twin_check (fun _ _ => true)) as (w & secs & evs & G & L & _); [vm_compute; reflexivity|].
  assert (Ho : ordinary twin_files "f") by (apply ordinary_intro; vm_compute; reflexivity).
  assert (Ha : exists a, named "f" (all_syms twin_files) !! 1%nat = Some a /\ binding (yi_sym a) = 1 /\ st_shndx (yi_sym a) = 2) by (eexists; split; [vm_compute; reflexivity|split; vm_compute; reflexivity]).
  destruct Ha as (a & Ha & Hb & Hd). exists w, secs, evs, a. split; [exact G|]. split; [exact L|]. split; [apply Ho|]. split; [vm_compute; reflexivity|]. split; [exact Ha|]. split; [exact Hb|]. intros E. rewrite Hd in E. discriminate E.
Qed.

(** * C12 *)

(** The entry of a name in the output's .symtab has binding, type, visibility
    and size of the first of the strongest symbols of that name. *)
Theorem C12_link : forall wd lo l fuel w secs es evs n, good_link wd lo l fuel w secs -> loading wd lo l fuel es evs -> no_nuls es ->
  n <> "" -> named n (all_syms es) <> [] -> all_standard n (all_syms es) ->
  exists sym y, symtab_entry w secs n sym /\ winner n (all_syms es) = Some y /\
    st_info sym = st_info (yi_sym y) /\ st_other sym = st_other (yi_sym y) /\ st_size sym = st_size (yi_sym y) /\
    forall z, z ∈ named n (all_syms es) -> rank (yi_sym z) <= rank sym.
Proof.
  intros wd lo l fuel w secs es evs n G L Hnn Hn Hne Hst. destruct (good_named G L n Hn Hnn Hne Hst) as (sym & y & H1 & H2 & H3 & H4 & H5). exists sym, y. split_and!; try assumption.
  intros z Hz. assert (Hr : rank sym = rank (yi_sym y)) by (unfold rank, binding; by rewrite H3). rewrite Hr.
  assert (Hy : rank (yi_sym y) = top_rank n (all_syms es)).
  { unfold winner in H2. destruct (filter _ _) as [|y' ys] eqn:Ef; [discriminate|]. injection H2 as ->. assert (Hy : y ∈ filter (fun y => rank (yi_sym y) = top_rank n (all_syms es)) (named n (all_syms es))) by (rewrite Ef; by left).
    by apply elem_of_list_filter in Hy as [Hy _]. }
  rewrite Hy. unfold top_rank, nmax. apply foldr_max_in. apply elem_of_list_fmap. by exists z.
Qed.
Print Assumptions C12_link.
(** The global [f] of the second object, after the local one of the first. *)
Example C12_link_case : exists w secs evs sym, good_link (demo_world ov_files []) demo_lib_oracle (demo_linker ["a.o"; "b.o"] []) 10 w secs /\
  loading (demo_world ov_files []) demo_lib_oracle (demo_linker ["a.o"; "b.o"] []) 10 ov_files evs /\ no_nuls ov_files /\ all_standard "f" (all_syms ov_files) /\
  length (named "f" (all_syms ov_files)) = 2%nat /\ symtab_entry w secs "f" sym /\ binding sym = 1.
Proof.
  destruct (good_demo ov_files ["a.o"; "b.o"] [] (fun _ _ => true)) as (w & secs & evs & G & L & _); [vm_compute; reflexivity..|].
  change (cmd_objs (demo_world ov_files []) (demo_linker ["a.o"; "b.o"] [])) with ov_files in L.
  assert (Ho : ordinary ov_files "f") by (apply ordinary_intro; vm_compute; reflexivity). assert (Hl : length (named "f" (all_syms ov_files)) = 2%nat) by (vm_compute; reflexivity).
  assert (Hnn : no_nuls ov_files) by (apply no_nul_intro; vm_compute; reflexivity).
  destruct (C12_link _ _ _ _ _ _ _ _ "f" G L Hnn) as (sym & y & H1 & H2 & H3 & _); [discriminate|intros E; rewrite E in Hl; discriminate Hl|apply Ho|].
  exists w, secs, evs, sym. split; [exact G|]. split; [exact L|]. split; [exact Hnn|]. split; [apply Ho|]. split; [exact Hl|]. split; [exact H1|]. unfold binding. rewrite H3.
  assert (K : (fun y => st_info (yi_sym y) / 16) <$> winner "f" (all_syms ov_files) = Some 1) by (vm_compute; reflexivity). rewrite H2 in K. cbn [fmap option_fmap option_map] in K. by apply (inj Some) in K.
Qed.

(** * C15 *)

(** Every name of the input symbols has exactly one entry in the output's
    .symtab, and every entry has one of these names or none. *)
Theorem C15_link : forall wd lo l fuel w secs es evs, good_link wd lo l fuel w secs -> loading wd lo l fuel es evs -> no_nuls es ->
  (forall n, n <> "" -> named n (all_syms es) <> [] -> all_standard n (all_syms es) -> exists sym, symtab_entry w secs n sym) /\
  (forall t i sym, the_sec w secs ".symtab" t -> rd_sym (contents t) (24 * i) = Some sym ->
     exists n s, the_sec w secs ".strtab" s /\ cstr_at (contents s) (st_name sym) = Some (string_bytes n) /\ (n = "" \/ named n (all_syms es) <> [])).
Proof.
  intros wd lo l fuel w secs es evs G L Hnn. split.
  - intros n Hn Hne Hst. destruct (good_named G L n Hn Hnn Hne Hst) as (sym & y & H & _). by exists sym.
  - intros t i sym. exact (good_entries G L t i sym Hnn).
Qed.
Print Assumptions C15_link.
Example C15_link_case : exists w secs evs t sym, twin_good w secs /\ loading twin_wd demo_lib_oracle twin_l 10 twin_files evs /\ no_nuls twin_files /\
  symtab_entry w secs "f" sym /\ the_sec w secs ".symtab" t /\ blen (contents t) = 24 * 7.
Proof.
  destruct (twin_check (fun w secs => reads_b w secs ".symtab" (fun t => blen (contents t) =? 24 * 7))) as (w & secs & evs & G & L & E); [vm_compute; reflexivity|].
  assert (Ho : ordinary twin_files "f") by (apply ordinary_intro; vm_compute; reflexivity). assert (Hl : length (named "f" (all_syms twin_files)) = 2%nat) by (vm_compute; reflexivity).
  assert (Hnn : no_nuls twin_files) by (apply no_nul_intro; vm_compute; reflexivity).
  destruct (proj1 (C15_link _ _ _ _ _ _ _ _ G L Hnn) "f") as [sym Hsym]; [discriminate|intros E'; rewrite E' in Hl; discriminate Hl|apply Ho|].
  pose proof Hsym as (t & _ & _ & Ht & _). exists w, secs, evs, t, sym. split; [exact G|]. split; [exact L|]. split; [exact Hnn|]. split; [exact Hsym|]. split; [exact Ht|]. apply N.eqb_eq, (reads_intro _ _ _ _ _ E Ht).
Qed.

(** * C58 *)

(** What happens to a name with tentative definitions and no other: its entry
    keeps the value of the first of the strongest symbols of that name (the
    alignment, or 0 if that is a reference) as its address, and a section index
    as in the inputs. No storage is made. *)
Theorem C58_no_storage : forall wd lo l fuel w secs es evs n y, good_link wd lo l fuel w secs -> loading wd lo l fuel es evs ->
  ordinary es n -> only_referenced es n -> winner n (all_syms es) = Some y ->
  exists sym, symtab_entry w secs n sym /\ st_size sym = st_size (yi_sym y) /\ st_value sym = st_value (yi_sym y) /\
    exists y', y' ∈ named n (all_syms es) /\ st_shndx sym = st_shndx (yi_sym y').
Proof.
  intros wd lo l fuel w secs es evs n y G L Ho Hu Hw. destruct (good_unplaced G L n y Ho Hu Hw) as (sym & H1 & _ & H3 & H4 & H5). exists sym. split_and!; assumption.
Qed.
Print Assumptions C58_no_storage.

(** [int c;] compiled with -fcommon: size 4, alignment 4. Its address is 4,
    and no loaded section is there. *)
Definition cm_a : elf_obj := demo_obj [progbits ".text" 6 4 [0xc3]; nobits ".bss" 3 8 16] [("_start", dsym 0x12 1 0 1); ("c", dsym 0x11 0xfff2 4 4)] [].
Definition cm_files : list (string * elf_obj) := [("a.o", cm_a)].
Theorem C58_refuted : exists wd lo l fuel w secs es evs n y sym, good_link wd lo l fuel w secs /\ loading wd lo l fuel es evs /\
  ordinary es n /\ named n (all_syms es) = [y] /\ common y /\ symtab_entry w secs n sym /\ 0 < st_size sym /\
  forall s, s ∈ secs -> alloc s = true -> st_value sym < addr s.
Proof.
  destruct (good_demo cm_files ["a.o"] [] (fun w secs => forallb (fun s => if alloc s then 4 <? addr s else true) secs)) as (w & secs & evs & G & L & E); [vm_compute; reflexivity..|].
  change (cmd_objs (demo_world cm_files []) (demo_linker ["a.o"] [])) with cm_files in L.
  assert (Hy : exists y, named "c" (all_syms cm_files) = [y] /\ winner "c" (all_syms cm_files) = Some y /\ st_shndx (yi_sym y) = 0xfff2 /\ st_value (yi_sym y) = 4 /\ st_size (yi_sym y) = 4) by (eexists; split; [vm_compute; reflexivity|]; split; [vm_compute; reflexivity|]; split_and!; vm_compute; reflexivity).
  destruct Hy as (y & Hy & Hw & H1 & H2 & H3).
  assert (Ho : ordinary cm_files "c") by (apply ordinary_intro; vm_compute; reflexivity).
  assert (Hu : only_referenced cm_files "c").
  { split; [rewrite Hy; discriminate|]. assert (K : forallb (fun x => forallb (fun y => negb (lies_b x y)) (named "c" (all_syms cm_files))) (all_secs cm_files) = true) by (vm_compute; reflexivity).
    intros x z Hx _ Hz Hl. rewrite forallb_forall in K. apply elem_of_list_In in Hx. specialize (K x Hx). cbv beta in K. rewrite forallb_forall in K. apply elem_of_list_In in Hz. specialize (K z Hz). cbv beta in K. apply lies_b_spec in Hl. rewrite Hl in K. discriminate K. }
  destruct (C58_no_storage _ _ _ _ _ _ _ _ "c" y G L Ho Hu Hw) as (sym & S1 & S2 & S3 & _).
  exists (demo_world cm_files []), demo_lib_oracle, (demo_linker ["a.o"] []), 10%nat, w, secs, cm_files, evs, "c", y, sym. split; [exact G|]. split; [exact L|]. split; [exact Ho|]. split; [exact Hy|]. split; [exact H1|]. split; [exact S1|].
  split; [rewrite S2, H3; lia|]. intros s Hs Ha. rewrite forallb_forall in E. apply elem_of_list_In in Hs. specialize (E s Hs). cbv beta in E. rewrite Ha in E. apply N.ltb_lt in E. rewrite S3, H2. exact E.
Qed.
Print Assumptions C58_refuted.

(** The same tentative definition in two objects is refused. *)
Definition cm_b : elf_obj := demo_obj [progbits ".data" 3 1 [1]] [("c", dsym 0x11 0xfff2 4 4)] [].
Theorem C58_twice_refuted : exists files objs es,
  cmd_objs (demo_world files []) (demo_linker objs []) = es /\ (forall y, y ∈ named "c" (all_syms es) -> common y) /\ length (named "c" (all_syms es)) = 2%nat /\
  (exists e, demo_run files objs [] = Err e) /\ exists w, demo_run files ["a.o"] [] = Ok w.
Proof.
  exists [("a.o", cm_a); ("b.o", cm_b)], ["a.o"; "b.o"], [("a.o", cm_a); ("b.o", cm_b)]. split; [reflexivity|]. split; [|split; [vm_compute; reflexivity|split]].
  - assert (K : forallb (fun y => st_shndx (yi_sym y) =? 0xfff2) (named "c" (all_syms [("a.o", cm_a); ("b.o", cm_b)])) = true) by (vm_compute; reflexivity).
    intros y Hy. rewrite forallb_forall in K. apply elem_of_list_In in Hy. apply N.eqb_eq, (K y Hy).
  - eexists. vm_compute. reflexivity.
  - destruct (demo_links [("a.o", cm_a); ("b.o", cm_b)] ["a.o"] [] (fun _ _ => true)) as (w & secs & [H _] & _); [vm_compute; reflexivity|]. exists w. exact H.
Qed.
Print Assumptions C58_twice_refuted.

(** * C63 *)

(** A link: the only definition of [f] is local to the second object, but the
    reference of the first is resolved to it. *)
Definition pv_a : elf_obj := demo_obj [progbits ".text" 6 4 [0xe8; 0; 0; 0; 0; 0xc3]; relasec ".rela.text"] [("_start", dsym 0x12 1 0 6); ("f", dsym 0x10 0 0 0)] [(2, [mkGreloc 1 (Some (-4)%Z) 2 4])].
Definition pv_b : elf_obj := demo_obj [progbits ".text" 6 4 [0xc3]] [("f", dsym 0x02 1 0 1)] [].
Definition pv_files : list (string * elf_obj) := [("a.o", pv_a); ("b.o", pv_b)].
Definition calls_b (s : section) (a : N) : bool := match SpecReloc.decode_at (Z.of_N (addr s)) (contents s) 0 with Some (CallRel t, 5) => (t =? Z.of_N a)%Z | _ => false end.
Lemma calls_intro s a : calls_b s a = true -> SpecReloc.decode_at (Z.of_N (addr s)) (contents s) 0 = Some (CallRel (Z.of_N a), 5).
Proof.
  unfold calls_b. intros H. destruct (SpecReloc.decode_at _ _ _) as [[i k]|]; [|discriminate H]. destruct i; try discriminate H. destruct (N.eq_dec k 5) as [->|Hk].
  - by apply Z.eqb_eq in H as ->.
  - destruct k as [|[[[]|[]|]|[]|]]; try discriminate H. by destruct Hk.
Qed.
Theorem C63_link_refuted : exists wd lo l fuel w secs es evs r d s sym, good_link wd lo l fuel w secs /\ loading wd lo l fuel es evs /\
  named "f" (all_syms es) = [r; d] /\ yi_obj r <> yi_obj d /\ ~ defined (yi_sym r) /\ binding (yi_sym r) = 1 /\ binding (yi_sym d) = 0 /\ (forall path e, ~ is_lib wd l path e) /\
  the_sec w secs ".text" s /\ symtab_entry w secs "f" sym /\ binding sym = 1 /\ SpecReloc.decode_at (Z.of_N (addr s)) (contents s) 0 = Some (CallRel (Z.of_N (st_value sym)), 5) /\ st_value sym = addr s + 6.
Proof.
  destruct (good_demo pv_files ["a.o"; "b.o"] [] (fun w secs => few_b w secs && reads_b w secs ".text" (fun s => calls_b s (addr s + 6)))) as (w & secs & evs & G & L & E); [vm_compute; reflexivity..|].
  change (cmd_objs (demo_world pv_files []) (demo_linker ["a.o"; "b.o"] [])) with pv_files in L. apply andb_true_iff in E as [Ef E]. apply N.leb_le in Ef.
  assert (Hn : exists r d, named "f" (all_syms pv_files) = [r; d] /\ yi_obj r = 0%nat /\ yi_obj d = 1%nat /\ st_shndx (yi_sym r) = 0 /\ binding (yi_sym r) = 1 /\ binding (yi_sym d) = 0 /\ winner "f" (all_syms pv_files) = Some r /\ st_value (yi_sym r) = 0) by (eexists _, _; split; [vm_compute; reflexivity|]; split_and!; vm_compute; reflexivity).
  destruct Hn as (r & d & Hn & O1 & O2 & Hs & B1 & B2 & Hw & Hv).
  assert (Ho : ordinary pv_files "f") by (apply ordinary_intro; vm_compute; reflexivity).
  assert (Hx : exists x, all_secs pv_files !! 3%nat = Some x /\ contribs ".text" (all_secs pv_files) !! 1%nat = Some x /\ si_name x = ".text") by (eexists; split; [vm_compute; reflexivity|]; split; vm_compute; reflexivity). destruct Hx as (x & Hx & Hc & Hxn).
  assert (Hh : sole_home pv_files "f" x) by (apply (sole_intro _ _ 3%nat); [exact Hx|vm_compute; reflexivity]).
  assert (Hof : offset_of pv_files x 6) by (exists 1%nat; rewrite Hxn; split; [exact Hc|vm_compute; reflexivity]).
  destruct (C16_placed _ _ _ _ _ _ _ _ "f" x r 6 G L Ho Hh Hw Hof Ef) as (s & sym & S1 & S2 & _ & S4 & _ & S6). rewrite Hxn in S1.
  pose proof (reads_intro _ _ _ _ _ E S1) as K. apply calls_intro in K.
  assert (Hnb : is_nobits s = false).
  { pose proof (good_kind G L x s) as HK. rewrite Hxn in HK. specialize (HK ltac:(discriminate) (elem_of_list_lookup_2 _ _ _ Hx) S1). destruct (is_nobits s); [|reflexivity].
    assert (Hd : si_data <$> all_secs pv_files !! 3%nat = Some (Some [0xc3])) by (vm_compute; reflexivity). rewrite Hx in Hd. cbn [fmap option_fmap option_map] in Hd. rewrite HK in Hd. discriminate Hd. }
  rewrite Hnb, Hv, N.add_0_r in S6.
  exists (demo_world pv_files []), demo_lib_oracle, (demo_linker ["a.o"; "b.o"] []), 10%nat, w, secs, pv_files, evs, r, d, s, sym. split; [exact G|]. split; [exact L|]. split; [exact Hn|]. split; [rewrite O1, O2; discriminate|].
  split; [intros H; exact (H Hs)|]. split; [exact B1|]. split; [exact B2|]. split; [intros p e [Hp _]; cbn in Hp; by apply elem_of_nil in Hp|]. split; [exact S1|]. split; [exact S2|]. split; [unfold binding; rewrite S4; exact B1|].
  split; [|exact S6]. rewrite S6. exact K.
Qed.
Print Assumptions C63_link_refuted.
