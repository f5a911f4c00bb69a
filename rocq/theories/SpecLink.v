(** Specification vocabulary for a whole link: which files take part, what a
    finished link is, and what is assumed about inputs and iteration orders. *)
From Verif Require Export SpecLayout ModelLinker.

(** * Inputs *)

(** Object files: named on the command line, or a member of a named archive. *)
Definition is_input (wd : world) (l : linker) (e : elf_obj) : Prop :=
  (exists p, p ∈ lk_objects l /\ wd_elf wd p = Some (Some e)) \/
  (exists p ar m, p ∈ lk_archives l /\ wd_archive wd p = Some (Some ar) /\ ar_get ar m = Some (Some e)).
(** Shared libraries. *)
Definition is_lib (wd : world) (l : linker) (path : string) (e : elf_obj) : Prop :=
  path ∈ (opt_shared_libs (lk_options l)).*1 /\ wd_elf wd path = Some (Some e).

(** Sections copied to the output: all but those of type SYMTAB 2, DYNSYM 11,
    STRTAB 3, RELA 4, DYNAMIC 6, REL 9 and SHLIB 10. *)
Definition input_section (wd : world) (l : linker) (e : elf_obj) (name : string) (sh : Shdr) : Prop :=
  is_input wd l e /\ sh ∈ eo_shdrs e /\ sh_type sh ∉ [2; 11; 3; 4; 6; 9; 10] /\
  eo_shstr e (sh_name sh) = Some name.

(** The names of the sections the linker makes itself. *)
Definition reserved : list string :=
  [".shstrtab"; ".strtab"; ".dynstr"; ".interp"; ".got"; ".got.plt"; ".plt"; ".symtab"; ".dynsym";
   ".dynamic"; ".rela.dyn"; ".rela.plt"; ".hash"; ".gnu.hash"; ".copyrel"].

(** Ordinary inputs: no section uses a reserved name, nameless sections (the
    null section) are empty, and sections of one name are either all zero-fill
    or all have contents. *)
Record plain_inputs (wd : world) (l : linker) : Prop := {
  pi_names : forall e name sh, input_section wd l e name sh -> name ∉ reserved;
  pi_null : forall e sh, input_section wd l e "" sh -> sh_size sh = 0;
  pi_nobits : forall e sh e' sh' name, input_section wd l e name sh -> input_section wd l e' name sh' ->
    (sh_type sh = 8 <-> sh_type sh' = 8) }.

(** * Iteration orders *)
Record valid_oracle (o : oracle) : Prop := {
  vo_sym : forall k, o_sym o k ≡ₚ k;
  vo_dyn : forall k, o_dyn o k ≡ₚ k;
  vo_sort : sorts (o_sort o) }.

(** * A finished link *)

(** The writer when the file is written, and the sections as written. *)
Definition links (wd : world) (lo : lib_oracle) (l : linker) (fuel : nat) (w : writer) (secs : list section) : Prop :=
  link_writer wd lo l fuel = Ok w /\ mapM_res (sec_finalize (lo_writer lo) w) (w_sections w) = Ok secs.
