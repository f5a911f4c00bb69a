(** What a name reported as undefined should be. *)
From Verif Require Export SpecSyms SpecMerge.

(** No more sections than a 16-bit index can tell apart. *)
Definition few_outputs (wd : world) (lo : lib_oracle) (l : linker) (fuel : nat) : Prop :=
  forall w, resolve wd lo l fuel = Ok w -> N.of_nat (length (w_sections w)) <= 2^16.
(** A loaded object mentions the name and none has a global definition of it;
    no library of the command line lists it and no archive of the command line
    has it in its index. *)
Record unprovided (wd : world) (l : linker) (es : list (string * elf_obj)) (n : string) : Prop := {
  up_mentioned : exists y, y ∈ all_syms es /\ yi_name y = n;
  up_objects : forall y, y ∈ all_syms es -> yi_name y = n -> typ (yi_sym y) <> 3 -> binding (yi_sym y) = 1 -> st_shndx (yi_sym y) = 0;
  up_libraries : forall sym, ~ library_lists wd l n sym;
  up_archives : forall p ar, p ∈ lk_archives l -> wd_archive wd p = Some (Some ar) -> ar_member_of_symbol ar n = None }.
(** The names fit tables that are addressed by 32 bits. *)
Definition short_names (wd : world) (lo : lib_oracle) (l : linker) (fuel : nat) : Prop :=
  forall w, resolve wd lo l fuel = Ok w -> names_fit w.
(** Some input provides the name: an object defines it, the linker itself does,
    or a library lists it. *)
Definition provided (wd : world) (l : linker) (es : list (string * elf_obj)) (n : string) : Prop :=
  object_defines es n \/ linker_defines es n \/ exists sym, library_lists wd l n sym.
(** Every definition of the name outside the sections is global. *)
Definition firm (es : list (string * elf_obj)) (n : string) : Prop :=
  forall y, y ∈ named n (all_syms es) -> st_shndx (yi_sym y) <> 0 -> binding (yi_sym y) = 1 \/ exists x, x ∈ all_secs es /\ si_name x <> "" /\ lies_in x y.
