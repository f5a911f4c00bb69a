(** Headers of the linker's own sections (C77). *)
From Verif Require Import DemoLink PropLayout PropFile PropGot PropMerge PropSyms PropFields ProofHeaders.

(** Whatever the inputs: each of the linker's own sections is there, is the only
    one of its name, and has the prescribed type, flags and entry size. *)
Theorem C77_own_headers : forall wd lo l fuel w secs n ty fl es, links wd lo l fuel w secs -> valid_oracle (lo_writer lo) -> names_fit w ->
  (n, ty, fl, es) ∈ prescribed -> (n = ".hash" -> opt_hash_style (lk_options l) <> HGnu) -> (n = ".gnu.hash" -> opt_hash_style (lk_options l) <> HSysv) ->
  exists s, the_sec w secs n s /\ sh_type (sc_sh s) = ty /\ flags s = fl /\ sh_entsize (sc_sh s) = es.
Proof. intros wd lo l fuel w secs n ty fl es L V NF Hp Hh Hg. exact (links_headers n ty fl es L V NF Hp Hh Hg). Qed.
Print Assumptions C77_own_headers.

(** An object brings a read-only note section called .got: the header of the
    output's .got stays as it is. *)
Definition got_a : elf_obj := demo_obj [progbits ".text" 6 16 [0xc3]; mkDsec ".got" 7 2 4 4 [1; 2; 3; 4]] [("_start", dsym 0x12 1 0 1)] [].
Definition got_files : list (string * elf_obj) := [("a.o", got_a)].
Example C77_case : exists w secs s, links (demo_world got_files []) demo_lib_oracle (demo_linker ["a.o"] []) 10 w secs /\ valid_oracle (lo_writer demo_lib_oracle) /\ names_fit w /\
  (".got", 1, 2 + 1, 0) ∈ prescribed /\ the_sec w secs ".got" s /\ sh_type (sc_sh s) = 1 /\ flags s = 3 /\ contents s = [1; 2; 3; 4; 0; 0; 0; 0; 0; 0; 0; 0].
Proof.
  destruct (demo_links got_files ["a.o"] [] (fun w secs => bool_decide (names_fit w) && reads_b w secs ".got" (fun s => bool_decide (contents s = [1; 2; 3; 4; 0; 0; 0; 0; 0; 0; 0; 0])))) as (w & secs & L & E); [vm_compute; reflexivity|].
  apply andb_true_iff in E as [NF E]. apply bool_decide_eq_true_1 in NF. assert (Hp : (".got", 1, 2 + 1, 0) ∈ prescribed) by (apply (elem_of_list_lookup_2 _ 4%nat); reflexivity).
  destruct (C77_own_headers _ _ _ _ _ _ _ _ _ _ L demo_valid NF Hp) as (s & T & H1 & H2 & _); [discriminate..|]. exists w, secs, s. pose proof (reads_intro _ _ _ _ _ E T) as K. cbv beta in K. apply bool_decide_eq_true_1 in K.
  split; [exact L|]. split; [exact demo_valid|]. split; [exact NF|]. split; [exact Hp|]. split; [exact T|]. split; [exact H1|]. split; [exact H2|exact K].
Qed.
