(** The hash sections of whole links, looked up as a loader does (C07, C09). *)
From Verif Require Import ProofBase DemoLink PropLayout PropFile ProofBind PropGot PropSyms PropFields ProofHashLink.

Definition tidy_b (files : list (string * elf_obj)) : bool :=
  forallb (fun f => forallb (fun y => match eo_dynstr f.2 (st_name y) with Some n => bool_decide (0 ∉ string_bytes n) && bool_decide (binding y = 0 <-> n = "") | None => true end) (eo_dynsyms f.2)) files.
Lemma tidy_intro files objs libs : tidy_b files = true -> tidy_libs (demo_world files []) (demo_linker objs libs).
Proof.
  unfold tidy_b. rewrite forallb_forall. intros H path e sym n He Hs Hn. destruct He as [_ He]. simpl in He. destruct (ModelTables.assoc path files) as [e'|] eqn:E; [|discriminate He]. injection He as ->.
  assert (Hin : exists q, List.In (q, e) files).
  { clear -E. induction files as [|[q x] k IH]; [discriminate E|]. simpl in E. destruct (decide _) in E; [injection E as ->; exists q; by left|]. destruct (IH E) as [q' ?]. exists q'. by right. }
  destruct Hin as [q Hin]. specialize (H _ Hin). rewrite forallb_forall in H. apply elem_of_list_In in Hs. specialize (H _ Hs). simpl in H. rewrite Hn in H. apply andb_true_iff in H as [H1 H2].
  split; [exact (bool_decide_eq_true_1 _ H1)|exact (bool_decide_eq_true_1 _ H2)].
Qed.

(** * C07 *)

(** Looking a name up in .hash of a finished link as the gABI says finds
    exactly the entry of .dynsym with that name, whatever the name: an entry
    that is there is found, and a name that is not there is not. The chain
    array covers the whole of .dynsym. *)
Theorem C07_link : forall wd lo l fuel w secs, good_link wd lo l fuel w secs -> tidy_libs wd l -> opt_hash_style (lk_options l) <> HGnu ->
  exists h ds sd, the_sec w secs ".hash" h /\ the_sec w secs ".dynsym" ds /\ the_sec w secs ".dynstr" sd /\
    (exists k, w32 (contents h) 1 = Some k /\ filesz ds = 24 * k) /\
    forall n i, sysv_lookup (contents h) (is_name ds sd (string_bytes n)) (gabi_hash (string_bytes n)) = Some i <-> 1 <= i /\ dyn_name ds sd i = Some (string_bytes n).
Proof. intros wd lo l fuel w secs G TL H. exact (good_sysv G TL H). Qed.
Print Assumptions C07_link.

(** * C09 *)

(** The same for .gnu.hash. A name that is not in .dynsym is never found and
    the walk never runs off the section; a name that is there is found when the
    entries of each bucket are adjacent. Missing: the buckets need not be. *)
Theorem C09_link_partial : forall wd lo l fuel w secs, good_link wd lo l fuel w secs -> tidy_libs wd l -> opt_hash_style (lk_options l) <> HSysv ->
  exists g ds sd nb, the_sec w secs ".gnu.hash" g /\ the_sec w secs ".dynsym" ds /\ the_sec w secs ".dynstr" sd /\
    (filesz ds < 2^32 -> w32 (contents g) 0 = Some nb /\ w32 (contents g) 1 = Some 1 /\ nb = (filesz ds / 24) / 8 + 1 /\ forall n, exists r,
      gnu_lookup (contents g) (is_name ds sd (string_bytes n)) (gnu_hash (string_bytes n)) = Some r /\
      (forall i, r = Some i -> 1 <= i /\ dyn_name ds sd i = Some (string_bytes n)) /\
      (buckets_adjacent ds sd nb -> forall i, 1 <= i -> dyn_name ds sd i = Some (string_bytes n) -> r = Some i)).
Proof. intros wd lo l fuel w secs G TL H. exact (good_gnu G TL H). Qed.
Print Assumptions C09_link_partial.

(** With at most six symbols beside the null entry there is one bucket, and
    .gnu.hash finds exactly what .dynsym holds. *)
Theorem C09_link_small_partial : forall wd lo l fuel w secs, good_link wd lo l fuel w secs -> tidy_libs wd l -> opt_hash_style (lk_options l) <> HSysv ->
  exists g ds sd, the_sec w secs ".gnu.hash" g /\ the_sec w secs ".dynsym" ds /\ the_sec w secs ".dynstr" sd /\
    (filesz ds <= 24 * 7 -> forall n i, gnu_lookup (contents g) (is_name ds sd (string_bytes n)) (gnu_hash (string_bytes n)) = Some (Some i) <-> 1 <= i /\ dyn_name ds sd i = Some (string_bytes n)).
Proof.
  intros wd lo l fuel w secs G TL H. destruct (good_gnu G TL H) as (g & ds & sd & nb & Hg & Hds & Hsd & K). exists g, ds, sd. split; [exact Hg|]. split; [exact Hds|]. split; [exact Hsd|].
  intros Hsz n i. destruct K as (_ & _ & Hnb & K); [lia|].
  assert (E1 : nb = 1) by (rewrite Hnb; rewrite (N.div_small (filesz ds / 24) 8); [reflexivity|]; apply N.div_lt_upper_bound; lia).
  destruct (K n) as (r & Er & K1 & K2). rewrite Er. split.
  - intros E. injection E as ->. exact (K1 i eq_refl).
  - intros [H1 H2]. f_equal. apply K2; [|exact H1|exact H2]. rewrite E1. intros ? ? ? a b c _ _ _ _ _ _ _. rewrite !N.mod_1_r. reflexivity.
Qed.
Print Assumptions C09_link_small_partial.

(** ** The theorems on demo links *)
Definition lookup_b (w : writer) (secs : list section) (hn : string) (f : section -> section -> section -> bool) : bool :=
  any secs (fun h => if bool_decide (sec_name w h = Some hn) then any secs (fun ds => if bool_decide (sec_name w ds = Some ".dynsym") then
    any secs (fun sd => if bool_decide (sec_name w sd = Some ".dynstr") then f h ds sd else false) else false) else false).
Lemma lookup_intro w secs hn f h ds sd : lookup_b w secs hn f = true -> the_sec w secs hn h -> the_sec w secs ".dynsym" ds -> the_sec w secs ".dynstr" sd -> f h ds sd = true.
Proof.
  unfold lookup_b. intros H (_ & _ & U1) (_ & _ & U2) (_ & _ & U3). apply any_spec in H as (h' & Hh & H). case_bool_decide as E1; [|discriminate H]. apply any_spec in H as (ds' & Hds & H). case_bool_decide as E2; [|discriminate H].
  apply any_spec in H as (sd' & Hsd & H). case_bool_decide as E3; [|discriminate H]. rewrite <- (U1 _ Hh E1), <- (U2 _ Hds E2), <- (U3 _ Hsd E3). exact H.
Qed.

(** [foo] and [bar] of the demo link are found, [baz] is not. *)
Definition demo_found (h ds sd : section) : bool :=
  let look n := sysv_lookup (contents h) (is_name ds sd (string_bytes n)) (gabi_hash (string_bytes n)) in
  bool_decide (look "foo" = Some 2) && bool_decide (look "bar" = Some 1) && bool_decide (look "baz" = None) && (filesz ds =? 72).
Example C07_link_case : exists w secs h ds sd, main_good w secs /\ tidy_libs (demo_world demo_files []) (demo_linker ["a.o"] ["/l/libfoo.so"]) /\
  the_sec w secs ".hash" h /\ the_sec w secs ".dynsym" ds /\ the_sec w secs ".dynstr" sd /\ filesz ds = 72 /\
  sysv_lookup (contents h) (is_name ds sd (string_bytes "foo")) (gabi_hash (string_bytes "foo")) = Some 2 /\ dyn_name ds sd 2 = Some (string_bytes "foo") /\
  sysv_lookup (contents h) (is_name ds sd (string_bytes "bar")) (gabi_hash (string_bytes "bar")) = Some 1 /\ dyn_name ds sd 1 = Some (string_bytes "bar") /\
  sysv_lookup (contents h) (is_name ds sd (string_bytes "baz")) (gabi_hash (string_bytes "baz")) = None.
Proof.
  destruct (main_good_check (fun w secs => lookup_b w secs ".hash" demo_found)) as (w & secs & G & E); [vm_compute; reflexivity|].
  assert (TL : tidy_libs (demo_world demo_files []) (demo_linker ["a.o"] ["/l/libfoo.so"])) by (apply tidy_intro; vm_compute; reflexivity).
  destruct (C07_link _ _ _ _ _ _ G TL) as (h & ds & sd & Hh & Hds & Hsd & _ & K); [discriminate|]. pose proof (lookup_intro _ _ _ _ _ _ _ E Hh Hds Hsd) as F. clear E. unfold demo_found in F. cbv zeta in F.
  apply andb_true_iff in F as [F F4]. apply andb_true_iff in F as [F F3]. apply andb_true_iff in F as [F1 F2]. apply bool_decide_eq_true_1 in F1. apply bool_decide_eq_true_1 in F2. apply bool_decide_eq_true_1 in F3. apply N.eqb_eq in F4.
  exists w, secs, h, ds, sd. split; [exact G|]. split; [exact TL|]. split; [exact Hh|]. split; [exact Hds|]. split; [exact Hsd|]. split; [exact F4|].
  split; [exact F1|]. split; [exact (proj2 (proj1 (K "foo" 2) F1))|]. split; [exact F2|]. split; [exact (proj2 (proj1 (K "bar" 1) F2))|]. exact F3.
Qed.
Definition demo_gnu (g ds sd : section) : bool :=
  let look n := gnu_lookup (contents g) (is_name ds sd (string_bytes n)) (gnu_hash (string_bytes n)) in
  bool_decide (look "foo" = Some (Some 2)) && bool_decide (look "bar" = Some (Some 1)) && bool_decide (look "baz" = Some None) && (filesz ds =? 72).
Example C09_link_case : exists w secs g ds sd, main_good w secs /\ tidy_libs (demo_world demo_files []) (demo_linker ["a.o"] ["/l/libfoo.so"]) /\
  the_sec w secs ".gnu.hash" g /\ the_sec w secs ".dynsym" ds /\ the_sec w secs ".dynstr" sd /\ filesz ds = 72 /\
  gnu_lookup (contents g) (is_name ds sd (string_bytes "foo")) (gnu_hash (string_bytes "foo")) = Some (Some 2) /\
  gnu_lookup (contents g) (is_name ds sd (string_bytes "bar")) (gnu_hash (string_bytes "bar")) = Some (Some 1) /\
  gnu_lookup (contents g) (is_name ds sd (string_bytes "baz")) (gnu_hash (string_bytes "baz")) = Some None.
Proof.
  destruct (main_good_check (fun w secs => lookup_b w secs ".gnu.hash" demo_gnu)) as (w & secs & G & E); [vm_compute; reflexivity|].
  assert (TL : tidy_libs (demo_world demo_files []) (demo_linker ["a.o"] ["/l/libfoo.so"])) by (apply tidy_intro; vm_compute; reflexivity).
  destruct (C09_link_small_partial _ _ _ _ _ _ G TL) as (g & ds & sd & Hg & Hds & Hsd & _); [discriminate|]. pose proof (lookup_intro _ _ _ _ _ _ _ E Hg Hds Hsd) as F. clear E. unfold demo_gnu in F. cbv zeta in F.
  apply andb_true_iff in F as [F F4]. apply andb_true_iff in F as [F F3]. apply andb_true_iff in F as [F1 F2]. apply bool_decide_eq_true_1 in F1. apply bool_decide_eq_true_1 in F2. apply bool_decide_eq_true_1 in F3. apply N.eqb_eq in F4.
  exists w, secs, g, ds, sd. split; [exact G|]. split; [exact TL|]. split; [exact Hg|]. split; [exact Hds|]. split; [exact Hsd|]. split; [exact F4|].
  split; [exact F1|]. split; [exact F2|]. exact F3.
Qed.

(** A program calling eight functions of a library: [h] is in .dynsym, where
    .hash finds it, and .gnu.hash does not. *)
Definition many_names : list string := ["a"; "b"; "c"; "d"; "e"; "f"; "g"; "h"].
Definition many_main : elf_obj := demo_obj
  [progbits ".text" 6 16 (many_names ≫= fun _ => [0xe8; 0; 0; 0; 0]); relasec ".rela.text"]
  (("_start", dsym 0x12 1 0 40) :: ((fun n => (n, dsym 0x10 0 0 0)) <$> many_names))
  [(2, imap (fun i _ => mkGreloc (5 * N.of_nat i + 1) (Some (-4)%Z) (N.of_nat i + 2) 4) many_names)].
Definition many_files : list (string * elf_obj) := [("a.o", many_main); ("/l/libm.so", demo_lib ((fun n => (n, dsym 0x12 7 0x1000 6)) <$> many_names))].
Definition many_lost (g ds sd : section) : bool :=
  bool_decide (gnu_lookup (contents g) (is_name ds sd (string_bytes "h")) (gnu_hash (string_bytes "h")) = Some None) &&
  existsb (fun i => bool_decide (dyn_name ds sd (N.of_nat i) = Some (string_bytes "h"))) (seq 1 8) && (filesz ds =? 216).
Theorem C09_link_refuted : exists wd lo l fuel w secs g ds sd n i, good_link wd lo l fuel w secs /\ tidy_libs wd l /\
  the_sec w secs ".gnu.hash" g /\ the_sec w secs ".dynsym" ds /\ the_sec w secs ".dynstr" sd /\ filesz ds = 216 /\ 1 <= i /\ dyn_name ds sd i = Some (string_bytes n) /\
  gnu_lookup (contents g) (is_name ds sd (string_bytes n)) (gnu_hash (string_bytes n)) = Some None.
Proof.
  destruct (good_demo many_files ["a.o"] ["/l/libm.so"] (fun w secs => lookup_b w secs ".gnu.hash" many_lost)) as (w & secs & evs & G & _ & E); [vm_compute; reflexivity..|].
  assert (TL : tidy_libs (demo_world many_files []) (demo_linker ["a.o"] ["/l/libm.so"])) by (apply tidy_intro; vm_compute; reflexivity).
  destruct (C09_link_small_partial _ _ _ _ _ _ G TL) as (g & ds & sd & Hg & Hds & Hsd & _); [discriminate|]. pose proof (lookup_intro _ _ _ _ _ _ _ E Hg Hds Hsd) as F. clear E. unfold many_lost in F.
  apply andb_true_iff in F as [F F3]. apply andb_true_iff in F as [F1 F2]. apply bool_decide_eq_true_1 in F1. apply N.eqb_eq in F3. apply existsb_exists in F2 as (i & Hi & F2). apply bool_decide_eq_true_1 in F2. apply in_seq in Hi.
  eexists _, demo_lib_oracle, _, _, w, secs, g, ds, sd, "h", (N.of_nat i). split; [exact G|]. split; [exact TL|]. split; [exact Hg|]. split; [exact Hds|]. split; [exact Hsd|]. split; [exact F3|]. split; [clear -Hi; lia|]. split; [exact F2|exact F1].
Qed.
Print Assumptions C09_link_refuted.
