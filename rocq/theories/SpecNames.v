(** The symbol table of the output, name by name (C10-C15, C58). *)
From Verif Require Export SpecFields.

(** A tentative definition: SHN_COMMON (gABI). Its value is the alignment. *)
Definition common (y : sym_in) : Prop := st_shndx (yi_sym y) = 0xfff2.

(** No symbol of a name first seen as a local has another binding. *)
Definition locals_stay (es : list (string * elf_obj)) : Prop :=
  forall n y y', head (named n (all_syms es)) = Some y -> binding (yi_sym y) = 0 -> y' ∈ named n (all_syms es) -> binding (yi_sym y') = 0.

(** Bindings are standard, and symbols without a name are local. *)
Definition sane_bindings (es : list (string * elf_obj)) : Prop :=
  (forall y, y ∈ all_syms es -> standard (yi_sym y)) /\ (forall y, y ∈ named "" (all_syms es) -> binding (yi_sym y) = 0).
