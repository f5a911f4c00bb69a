(** Input sections and the output sections they end up in (C40, C45). *)
From Verif Require Import ProofBase DemoLink PropLayout PropFile PropGot ProofMerge.

(** Every link loads some objects; those of the command line come first. *)
Theorem C40_loading : forall wd lo l fuel w secs, links wd lo l fuel w secs -> exists es evs, loading wd lo l fuel es evs.
Proof.
  intros wd lo l fuel w secs H. destruct (links_outcome _ _ _ _ _ _ H) as (w0 & wr & ws & w1 & extra & null & rest & rest' & st & w3 & w4 & w5 & w6 & w7 & null' & out & O).
  destruct (resolve_trace _ _ _ _ _ (oc_resolve O)) as (es & evs & R). exists es, evs, wr. split; [exact (oc_resolve O)|exact R].
Qed.
Print Assumptions C40_loading.

(** Without archives the objects loaded are those of the command line. *)
Lemma demo_loading files objs libs w secs : links (demo_world files []) demo_lib_oracle (demo_linker objs libs) 10 w secs ->
  exists evs, loading (demo_world files []) demo_lib_oracle (demo_linker objs libs) 10 (cmd_objs (demo_world files []) (demo_linker objs libs)) evs.
Proof.
  intros H. destruct (C40_loading _ _ _ _ _ _ H) as (es & evs & wr & Hr & R). exists evs, wr. split; [exact Hr|].
  destruct (ld_cmd _ _ _ _ _ R) as (ms & E & HF). destruct ms as [|m ms]; [rewrite app_nil_r in E; rewrite E in R; exact R|].
  apply Forall_cons in HF as [(ar & m' & Ha & _) _]. exfalso. exact (proj1 (elem_of_nil _) Ha).
Qed.

(** * C40 *)

(** For ordinary inputs the output section of a name holds the sections of that
    name, one after the other in the order loaded, each unchanged except for the
    fields of its relocations; its size is the sum of their sizes, its alignment
    the largest of theirs and it has the type and flags of the first.
    Not in general: see [C40_refuted]. *)
Theorem C40_partial : forall wd lo l fuel w secs es evs n, good_link wd lo l fuel w secs -> loading wd lo l fuel es evs ->
  n <> "" -> contribs n (all_secs es) <> [] ->
  exists s, the_sec w secs n s /\
    memsz s = ntotal (si_size <$> contribs n (all_secs es)) /\ align s = nmax (si_align <$> contribs n (all_secs es)) /\
    (exists x, head (contribs n (all_secs es)) = Some x /\ sh_type (sc_sh s) = sh_type (si_sh x) /\ flags s = sh_flags (si_sh x)) /\
    if is_nobits s then contents s = [] /\ (forall x, x ∈ contribs n (all_secs es) -> si_data x = None)
    else exists ds, contents s = concat ds /\ Forall2 (built_from (all_rels es)) (contribs n (all_secs es)) ds.
Proof. intros wd lo l fuel w secs es evs n G L. exact (good_merge G L n). Qed.
Print Assumptions C40_partial.

(** Output sections that are not the linker's own come from input sections. *)
Theorem C40_only : forall wd lo l fuel w secs es evs s n, good_link wd lo l fuel w secs -> loading wd lo l fuel es evs ->
  s ∈ secs -> sec_name w s = Some n -> n <> "" -> n ∉ reserved -> contribs n (all_secs es) <> [].
Proof. intros wd lo l fuel w secs es evs s n G L. exact (good_only G L s n). Qed.
Print Assumptions C40_only.

(** Two objects: a call between them, data and zero-fill in both. *)
Definition twin_a : elf_obj := demo_obj
  [progbits ".text" 6 4 [0xe8; 0; 0; 0; 0; 0xc3; 0x90]; relasec ".rela.text"; progbits ".data" 3 2 [1; 2]; nobits ".bss" 3 8 16]
  [("_start", dsym 0x12 1 0 6); ("f", dsym 0x10 0 0 0); ("x", dsym 0x11 3 1 1); ("za", dsym 0x11 4 8 8)]
  [(2, [mkGreloc 1 (Some (-4)%Z) 2 2])].
Definition twin_b : elf_obj := demo_obj
  [progbits ".data" 3 8 [3; 4; 5]; progbits ".text" 6 16 [0x90; 0xc3]; nobits ".bss" 3 4 4]
  [("f", dsym 0x12 2 1 1); ("y", dsym 0x11 1 2 1); ("zb", dsym 0x11 3 0 4)] [].
Definition twin_files : list (string * elf_obj) := [("a.o", twin_a); ("b.o", twin_b)].
Definition twin_wd : world := demo_world twin_files [].
Definition twin_l : linker := demo_linker ["a.o"; "b.o"] [].
Definition twin_good (w : writer) (secs : list section) : Prop := good_link twin_wd demo_lib_oracle twin_l 10 w secs.
Lemma twin_check f : demo_check twin_files ["a.o"; "b.o"] [] (fun w secs => good_b w secs && f w secs) = true ->
  exists w secs evs, twin_good w secs /\ loading twin_wd demo_lib_oracle twin_l 10 twin_files evs /\ f w secs = true.
Proof.
  intros H. destruct (demo_links _ _ _ _ H) as (w & secs & HL & E). apply andb_true_iff in E as [E1 E2].
  destruct (demo_loading _ _ _ _ _ HL) as (evs & Hl). exists w, secs, evs. split; [|split; [exact Hl|exact E2]].
  apply good_intro; [exact HL|vm_compute; reflexivity|vm_compute; reflexivity|exact E1].
Qed.
Example C40_case : exists w secs evs s b, twin_good w secs /\ loading twin_wd demo_lib_oracle twin_l 10 twin_files evs /\
  si_bytes <$> contribs ".text" (all_secs twin_files) = [[0xe8; 0; 0; 0; 0; 0xc3; 0x90]; [0x90; 0xc3]] /\ si_size <$> contribs ".bss" (all_secs twin_files) = [16; 4] /\
  s ∈ secs /\ sec_name w s = Some ".text" /\ contents s = [0xe8; 2; 0; 0; 0; 0xc3; 0x90; 0x90; 0xc3] /\ align s = 16 /\ b ∈ secs /\ sec_name w b = Some ".bss" /\ memsz b = 20 /\ align b = 8.
Proof.
  destruct (twin_check (fun w secs => any secs (fun s => bool_decide (sec_name w s = Some ".text" /\ contents s = [0xe8; 2; 0; 0; 0; 0xc3; 0x90; 0x90; 0xc3] /\ align s = 16)) &&
    any secs (fun s => bool_decide (sec_name w s = Some ".bss" /\ memsz s = 20 /\ align s = 8)))) as (w & secs & evs & G & L & E); [vm_compute; reflexivity|].
  apply andb_true_iff in E as [E1 E2]. apply any_spec in E1 as (s & Hs & E1). apply any_spec in E2 as (b & Hb & E2).
  apply bool_decide_eq_true_1 in E1 as (A1 & A2 & A3). apply bool_decide_eq_true_1 in E2 as (B1 & B2 & B3).
  exists w, secs, evs, s, b. split_and!; [exact G|exact L|vm_compute; reflexivity|vm_compute; reflexivity|exact Hs|exact A1|exact A2|exact A3|exact Hb|exact B1|exact B2|exact B3].
Qed.

(** Zero-fill followed by contents of the same name: the bytes are placed as if
    the zero-fill were not there, though the size counts it. *)
Definition mixed_a : elf_obj := demo_obj [progbits ".text" 6 1 [0xc3]; nobits ".mix" 3 1 4; nobits ".mix" 3 1 2] [("_start", dsym 0x12 1 0 1)] [].
Definition mixed_b : elf_obj := demo_obj [progbits ".mix" 3 1 [7; 8]] [] [].
Definition mixed_files : list (string * elf_obj) := [("a.o", mixed_a); ("b.o", mixed_b)].
Theorem C40_refuted : exists wd lo l fuel w secs es evs s, valid_oracle (lo_writer lo) /\ links wd lo l fuel w secs /\ loading wd lo l fuel es evs /\ all_rels es = [] /\
  s ∈ secs /\ sec_name w s = Some ".mix" /\ si_size <$> contribs ".mix" (all_secs es) = [4; 2; 2] /\ memsz s = 8 /\ contents s = [7; 8] /\ is_nobits s = true.
Proof.
  destruct (demo_links mixed_files ["a.o"; "b.o"] [] (fun w secs => any secs (fun s => bool_decide (sec_name w s = Some ".mix" /\ memsz s = 8 /\ contents s = [7; 8] /\ is_nobits s = true)))) as (w & secs & H & E); [vm_compute; reflexivity|].
  apply any_spec in E as (s & Hs & E). apply bool_decide_eq_true_1 in E as (A1 & A2 & A3 & A4). destruct (demo_loading _ _ _ _ _ H) as (evs & L).
  eexists _, demo_lib_oracle, _, _, w, secs, _, evs, s. split; [exact demo_valid|]. split; [exact H|]. split; [exact L|].
  split_and!; [vm_compute; reflexivity|exact Hs|exact A1|vm_compute; reflexivity|exact A2|exact A3|exact A4].
Qed.
Print Assumptions C40_refuted.

(** * C45 *)

(** For ordinary inputs: the bytes of an input section are found in the output
    section of its name, after those of the sections loaded before it. *)
Theorem C45_partial : forall wd lo l fuel w secs es evs n j x, good_link wd lo l fuel w secs -> loading wd lo l fuel es evs ->
  n <> "" -> contribs n (all_secs es) !! j = Some x -> si_data x <> None ->
  exists s, the_sec w secs n s /\ forall k, k < si_size x ->
    (forall r, r ∈ all_rels es -> about x r -> k < (rel_span (ri_rel r)).1 \/ (rel_span (ri_rel r)).2 <= k) ->
    contents s !! N.to_nat (ntotal (si_size <$> take j (contribs n (all_secs es))) + k) = si_bytes x !! N.to_nat k.
Proof.
  intros wd lo l fuel w secs es evs n j x G L Hn Hj Hd. destruct (good_merge G L n Hn) as (s & Hs & _ & _ & _ & HC); [by intros E; rewrite E in Hj|].
  exists s. split; [exact Hs|]. intros k Hk Hr. destruct (is_nobits s).
  { destruct HC as [_ HC]. destruct Hd. apply HC. by eapply elem_of_list_lookup_2. }
  destruct HC as (ds & -> & HF). destruct (Forall2_lookup_l _ _ _ _ _ HF Hj) as (d & Hdj & Hb & Hk').
  rewrite <- (ntotal_take_F2 _ ds j); [|eapply Forall2_impl; [exact HF|]; intros ? ? H; exact (proj1 H)].
  rewrite (concat_at _ _ d) by (done || by rewrite Hb). by apply Hk'.
Qed.
Print Assumptions C45_partial.
Example C45_case : exists w secs evs x y, twin_good w secs /\ loading twin_wd demo_lib_oracle twin_l 10 twin_files evs /\ contribs ".data" (all_secs twin_files) = [x; y] /\
  si_bytes y = [3; 4; 5] /\ ntotal (si_size <$> take 1 (contribs ".data" (all_secs twin_files))) = 2 /\ exists s, s ∈ secs /\ sec_name w s = Some ".data" /\ contents s = [1; 2; 3; 4; 5].
Proof.
  destruct (twin_check (fun w secs => any secs (fun s => bool_decide (sec_name w s = Some ".data" /\ contents s = [1; 2; 3; 4; 5])))) as (w & secs & evs & G & L & E); [vm_compute; reflexivity|].
  apply any_spec in E as (s & Hs & E). apply bool_decide_eq_true_1 in E as [A1 A2]. eexists w, secs, evs, _, _. split; [exact G|]. split; [exact L|].
  split; [vm_compute; reflexivity|]. split; [reflexivity|]. split; [vm_compute; reflexivity|]. exists s. split_and!; assumption.
Qed.

(** For all inputs: additions under any name other than .copyrel, .hash and
    .gnu.hash go to the output section of that name. *)
Theorem C45_ids_partial : forall wd lo l fuel w secs es evs wr x sr, links wd lo l fuel w secs -> valid_oracle (lo_writer lo) -> names_fit w ->
  resolve wd lo l fuel = Ok wr -> reads wd l es evs wr -> EvSec x sr ∈ evs -> sr_section sr <> 0%nat -> si_name x ∉ [".copyrel"; ".hash"; ".gnu.hash"] ->
  exists s, s ∈ secs /\ sc_id s = sr_section sr /\ sec_name w s = Some (si_name x).
Proof. exact sec_ids. Qed.
Print Assumptions C45_ids_partial.

(** An input section called .copyrel ends up in .gnu.hash. *)
Definition copyrel_a : elf_obj := demo_obj [progbits ".text" 6 16 [0xc3]; progbits ".copyrel" 3 1 [0xca; 0xfe; 0xba; 0xbe]] [("_start", dsym 0x12 1 0 1)] [].
Theorem C45_refuted : exists wd lo l fuel w secs es evs s t, valid_oracle (lo_writer lo) /\ links wd lo l fuel w secs /\ loading wd lo l fuel es evs /\
  si_bytes <$> contribs ".copyrel" (all_secs es) = [[0xca; 0xfe; 0xba; 0xbe]] /\ s ∈ secs /\ sec_name w s = Some ".copyrel" /\ contents s = [] /\
  t ∈ secs /\ sec_name w t = Some ".gnu.hash" /\ take 4 (contents t) = [0xca; 0xfe; 0xba; 0xbe].
Proof.
  destruct (demo_links [("a.o", copyrel_a)] ["a.o"] [] (fun w secs => any secs (fun s => bool_decide (sec_name w s = Some ".copyrel" /\ contents s = [])) &&
    any secs (fun t => bool_decide (sec_name w t = Some ".gnu.hash" /\ take 4 (contents t) = [0xca; 0xfe; 0xba; 0xbe])))) as (w & secs & H & E); [vm_compute; reflexivity|].
  apply andb_true_iff in E as [E1 E2]. apply any_spec in E1 as (s & Hs & E1). apply any_spec in E2 as (t & Ht & E2). apply bool_decide_eq_true_1 in E1 as [A1 A2]. apply bool_decide_eq_true_1 in E2 as [B1 B2].
  destruct (demo_loading _ _ _ _ _ H) as (evs & L). eexists _, demo_lib_oracle, _, _, w, secs, _, evs, s, t. split; [exact demo_valid|]. split; [exact H|]. split; [exact L|].
  split_and!; [vm_compute; reflexivity|exact Hs|exact A1|exact A2|exact Ht|exact B1|exact B2].
Qed.
Print Assumptions C45_refuted.
