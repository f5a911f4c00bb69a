(** Libraries that have nothing to do with the inputs. *)
From Verif Require Export SpecTotal SpecSyms.

(** The same link with other libraries. *)
Definition with_libs (l : linker) (libs : list (string * bool)) : linker :=
  mkLinker (lk_options l <| opt_shared_libs := libs |>) (lk_objects l) (lk_archives l).
(** A library that can be read, whose dynamic symbols all have a name, and which
    has no named symbol in common with the inputs. *)
Record unrelated (wd : world) (l : linker) (path : string) (e : elf_obj) : Prop := {
  ul_read : wd_elf wd path = Some (Some e);
  ul_names : forall sym, sym ∈ eo_dynsyms e -> eo_dynstr e (st_name sym) <> None;
  ul_apart : forall sym e' sym' n, sym ∈ eo_dynsyms e -> eo_dynstr e (st_name sym) = Some n -> n <> "" ->
    is_input wd l e' -> sym' ∈ eo_syms e' -> eo_strtab e' (st_name sym') <> Some n }.
(** Symbols without a name are local (but for those of sections). *)
Definition unnamed_local (wd : world) (l : linker) : Prop :=
  forall e sym, is_input wd l e -> sym ∈ eo_syms e -> eo_strtab e (st_name sym) = Some "" -> typ sym <> 3 -> binding sym = 0.
