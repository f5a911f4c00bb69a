(** Libraries that look the same from outside. *)
From Verif Require Export ModelLinker.

(** Two dynamic symbols that differ at most in where their library puts them:
    same name, binding and type, visibility, and size. *)
Definition alike_sym (a b : elf_obj) (s t : Sym) : Prop :=
  eo_dynstr a (st_name s) = eo_dynstr b (st_name t) /\ st_info s = st_info t /\ st_other s = st_other t /\ st_size s = st_size t.
(** Their dynamic symbols are the same, in the same order; all else is free. *)
Definition stub_of (a b : elf_obj) : Prop := Forall2 (alike_sym a b) (eo_dynsyms a) (eo_dynsyms b).
(** Two file systems that have the same objects and archives, and libraries that
    are stubs of each other or cannot be read alike; other files are free. *)
Record stubbed (wd wd' : world) (l : linker) : Prop := {
  sb_objects : forall p, p ∈ lk_objects l -> wd_elf wd' p = wd_elf wd p;
  sb_archives : forall p, p ∈ lk_archives l -> wd_archive wd' p = wd_archive wd p;
  sb_create : wd_can_create wd' = wd_can_create wd;
  sb_libs : forall p, p ∈ (opt_shared_libs (lk_options l)).*1 ->
    wd_elf wd' p = wd_elf wd p \/ exists a b, wd_elf wd p = Some (Some a) /\ wd_elf wd' p = Some (Some b) /\ stub_of a b }.
