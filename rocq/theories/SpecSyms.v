(** Where the symbols of a link end up (C16, C41-C46). *)
From Verif Require Export SpecMerge.

(** The symbols of that name (section symbols have none of their own), in the
    order they are read. *)
Definition named (n : string) (l : list sym_in) : list sym_in := filter (fun y => typ (yi_sym y) <> 3 /\ yi_name y = n) l.
(** The first of the strongest of them. *)
Definition top_rank (n : string) (l : list sym_in) : N := nmax ((fun y => rank (yi_sym y)) <$> named n l).
Definition winner (n : string) (l : list sym_in) : option sym_in := head (filter (fun y => rank (yi_sym y) = top_rank n l) (named n l)).
Definition all_standard (n : string) (l : list sym_in) : Prop := forall y, y ∈ named n l -> standard (yi_sym y).

(** The symbol is defined in that input section: the one of its file it names,
    unless it is absolute. *)
Definition lies_in (x : sec_in) (y : sym_in) : Prop :=
  si_obj x = yi_obj y /\ N.of_nat (si_idx x) = st_shndx (yi_sym y) /\ st_shndx (yi_sym y) <> 0xfff1.
(** That section is the only one in which a symbol of that name is defined. *)
Definition sole_home (es : list (string * elf_obj)) (n : string) (x : sec_in) : Prop :=
  x ∈ all_secs es /\ si_name x <> "" /\ (exists y, y ∈ named n (all_syms es) /\ lies_in x y) /\
  forall x' y, x' ∈ all_secs es -> si_name x' <> "" -> y ∈ named n (all_syms es) -> lies_in x' y -> x' = x.
(** Where a section's contents are in the output section of its name. *)
Definition offset_of (es : list (string * elf_obj)) (x : sec_in) (off : N) : Prop :=
  exists j, contribs (si_name x) (all_secs es) !! j = Some x /\ off = ntotal (si_size <$> take j (contribs (si_name x) (all_secs es))).

(** The only entry of .symtab with that name. *)
Definition symtab_entry (w : writer) (secs : list section) (n : string) (sym : Sym) : Prop :=
  exists t s i, the_sec w secs ".symtab" t /\ the_sec w secs ".strtab" s /\ rd_sym (contents t) (24 * i) = Some sym /\
    cstr_at (contents s) (st_name sym) = Some (string_bytes n) /\
    forall j sym', rd_sym (contents t) (24 * j) = Some sym' -> cstr_at (contents s) (st_name sym') = Some (string_bytes n) -> j = i.

(** Names the linker gives a meaning of its own. *)
Definition linker_names : list string :=
  ["_GLOBAL_OFFSET_TABLE_"; "__init_array_start"; "__init_array_end"; "__fini_array_start"; "__fini_array_end"].

(** An ordinary name: not one of those, all symbols of that name have standard
    bindings; and no name of the inputs contains a NUL. *)
Definition ordinary (es : list (string * elf_obj)) (n : string) : Prop :=
  n <> "" /\ n ∉ linker_names /\ all_standard n (all_syms es) /\ forall y, y ∈ all_syms es -> nonul (yi_name y).
(** Section indices fit their 16-bit fields. *)
Definition few_sections (secs : list section) : Prop := N.of_nat (length secs) <= 2^16.
(** A name no input section defines: symbols of that name are there, but they
    are undefined or absolute. *)
Definition only_referenced (es : list (string * elf_obj)) (n : string) : Prop :=
  named n (all_syms es) <> [] /\ forall x y, x ∈ all_secs es -> si_name x <> "" -> y ∈ named n (all_syms es) -> ~ lies_in x y.

(** The arrays of initialisation and termination functions, and the symbols at
    their start and their end. *)
Definition array_marks : list (string * string * string) :=
  [(".init_array", "__init_array_start", "__init_array_end"); (".fini_array", "__fini_array_start", "__fini_array_end")].

(** Who defines a name: an input object (in a section, or with an absolute or
    common symbol), the linker itself, a library with that dynamic symbol. *)
Definition object_defines (es : list (string * elf_obj)) (n : string) : Prop :=
  exists y, y ∈ named n (all_syms es) /\ (defined (yi_sym y) \/ exists x, x ∈ all_secs es /\ si_name x <> "" /\ lies_in x y).
Definition linker_defines (es : list (string * elf_obj)) (n : string) : Prop :=
  n = "_GLOBAL_OFFSET_TABLE_" \/ exists a s e, (a, s, e) ∈ array_marks /\ n ∈ [s; e] /\ contribs a (all_secs es) <> [].
Definition library_lists (wd : world) (l : linker) (n : string) (sym : Sym) : Prop :=
  exists path e, is_lib wd l path e /\ sym ∈ eo_dynsyms e /\ eo_dynstr e (st_name sym) = Some n.
(** An object named on the command line has a global definition of the name. *)
Definition main_defines (wd : world) (l : linker) (n : string) : Prop :=
  exists p e sym, p ∈ lk_objects l /\ wd_elf wd p = Some (Some e) /\ eo_is_object e = true /\ sym ∈ eo_syms e /\ eo_strtab e (st_name sym) = Some n /\
    typ sym <> 3 /\ binding sym = 1 /\ st_shndx sym <> 0.
(** The name is not for a library to define: no library lists it, or an object
    of the command line defines it. (In the second case the undefined names of
    each round have to be walked in some order, as a hash set is.) *)
Definition stays_in (wd : world) (lo : lib_oracle) (l : linker) (n : string) : Prop :=
  (forall d, ~ library_lists wd l n d) \/ ((forall i k, lo_undef lo i k ≡ₚ k) /\ main_defines wd l n).
