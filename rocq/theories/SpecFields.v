(** What the relocated fields of an output file must hold (C59, C66, C67). *)
From Verif Require Export SpecLinks.

(** The relocation is against a symbol of that name (section symbols have none). *)
Definition rel_against (es : list (string * elf_obj)) (q : rel_in) (n : string) : Prop :=
  exists p e, es !! ri_obj q = Some (p, e) /\ eo_strtab e (st_name (ri_sym q)) = Some n /\ typ (ri_sym q) <> 3.
(** The relocation is against the section symbol of [x']. *)
Definition rel_section (q : rel_in) (x' : sec_in) : Prop :=
  typ (ri_sym q) = 3 /\ si_obj x' = ri_obj q /\ N.of_nat (si_idx x') = st_shndx (ri_sym q) /\ st_shndx (ri_sym q) <> 0xfff1.
(** A relocation of the input for section [x] ([A] says which are); no other one
    for that section changes any of its bytes. *)
Definition lone_by (A : sec_in -> rel_in -> Prop) (es : list (string * elf_obj)) (x : sec_in) (q : rel_in) : Prop :=
  A x q /\ exists pre post, all_rels es = pre ++ q :: post /\
    forall q', q' ∈ pre ++ post -> A x q' -> SpecReloc.apart (rel_span (ri_rel q')) (rel_span (ri_rel q)).
Definition lone_rel : list (string * elf_obj) -> sec_in -> rel_in -> Prop := lone_by SpecMerge.about.
(** The relocation's own section names [x] in its [sh_info]. *)
Definition aimed (es : list (string * elf_obj)) (x : sec_in) (q : rel_in) : Prop :=
  exists p e sh, es !! ri_obj q = Some (p, e) /\ eo_shdrs e !! N.to_nat (ri_idx q) = Some sh /\ si_obj x = ri_obj q /\ N.of_nat (si_idx x) = sh_info sh.
(** Every relocation section comes right after the section it names. *)
Definition adjacent (es : list (string * elf_obj)) : Prop :=
  forall q, q ∈ all_rels es -> 0 < ri_idx q /\ exists p e sh, es !! ri_obj q = Some (p, e) /\ eo_shdrs e !! N.to_nat (ri_idx q) = Some sh /\ sh_info sh = ri_idx q - 1.
(** The bytes of [x] but for the fields of the relocations for [x]. *)
Definition built_by (A : sec_in -> rel_in -> Prop) (rels : list rel_in) (x : sec_in) (d : bytes) : Prop :=
  blen d = si_size x /\
  forall k, (forall r, r ∈ rels -> A x r -> k < (rel_span (ri_rel r)).1 \/ (rel_span (ri_rel r)).2 <= k) -> d !! N.to_nat k = si_bytes x !! N.to_nat k.

(** Its addend. *)
Definition rel_addend (q : rel_in) : Z := default 0%Z (gr_addend (ri_rel q)).
(** Where the field is: in the output section [s] in which [x] starts at [off]. *)
Definition field_off (off : N) (q : rel_in) : N := off + gr_offset (ri_rel q).
(** The field holds the value the psABI prescribes for type [ty]. *)
Definition field_is (s : section) (at_ : N) (ty : N) (S A : Z) (slot entry : option Z) : Prop :=
  exists wd v, psabi ty S A (Z.of_N (addr s + at_)) slot entry = Some (wd, v) /\ rd wd (contents s) at_ = Some (wrap wd v).

(** The types that need no table: 64, PC32, 32, 32S. *)
Definition direct : list N := [1; 2; 10; 11].
(** PLT32 asks for a PLT entry only if the function is in another file. *)
Definition near_type (ty : N) : N := if decide (ty = 4) then 2 else ty.
(** Entry [j] of .dynsym, and its name. *)
Definition dynsym_entry (w : writer) (secs : list section) (n : string) (j : N) (d : Sym) : Prop :=
  exists ds sd, the_sec w secs ".dynsym" ds /\ the_sec w secs ".dynstr" sd /\ rd_sym (contents ds) (24 * j) = Some d /\ cstr_at (contents sd) (st_name d) = Some (string_bytes n).
(** The names in the inputs are C strings. *)
Definition no_nuls (es : list (string * elf_obj)) : Prop := forall y, y ∈ all_syms es -> nonul (yi_name y).
(** A relocation in contents that start at [off] in their output section. *)
Definition rel_site (es : list (string * elf_obj)) (x : sec_in) (q : rel_in) (off : N) : Prop :=
  x ∈ all_secs es /\ si_name x <> "" /\ si_data x <> None /\ lone_rel es x q /\ offset_of es x off.
(** A name that is left to the shared libraries. *)
Definition left_to_libraries (es : list (string * elf_obj)) (q : rel_in) (n : string) : Prop :=
  n <> "" /\ all_standard n (all_syms es) /\ binding (ri_sym q) <> 0 /\ ~ object_defines es n /\ ~ linker_defines es n.
