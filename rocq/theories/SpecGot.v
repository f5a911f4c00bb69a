(** What the lazy-binding tables of an output file must say (C24-C27). *)
From Verif Require Export SpecStr SpecFile SpecReloc SpecElf SpecSym.

(** No shared library of the link exports a section symbol. *)
Definition plain_libs (wd : world) (l : linker) : Prop :=
  forall path e sym, is_lib wd l path e -> sym ∈ eo_dynsyms e -> typ sym <> 3.
(** Every section ends below the top of the address space. *)
Definition addresses_fit (secs : list section) : Prop := forall s, s ∈ secs -> addr s + memsz s < 2^64.
(** String tables are small enough for 32-bit name offsets. *)
Definition names_fit (w : writer) : Prop :=
  stt_total_len (w_shstrtab w) < 2^32 /\ stt_total_len (w_strtab w) < 2^32 /\ stt_total_len (w_dynstr w) < 2^32.
(** Every symbol of .symtab and .dynsym fits its fields. *)
Definition symbols_fit (w : writer) : Prop :=
  (forall n s, syt_symbols (w_symtab w) !! n = Some s -> sym_fits (s_sym s)) /\ (forall n s, syt_symbols (w_dynsym w) !! n = Some s -> sym_fits (s_sym s)).
Definition reloc_type (r : Rela) : N := r_info r mod 2^32.
Definition reloc_sym (r : Rela) : N := r_info r / 2^32.
(** The record of type [ty] for dynamic symbol [i] at address [a]. *)
Definition dyn_record (a i ty : N) : Rela := mkRela a (2^32 * i + ty) 0.
(** The two names are the same string: [n] is where it is in the first table,
    [m] in the second. *)
Definition same_string (a b : bytes) (n m : N) : Prop := exists name, cstr_at a n = Some name /\ cstr_at b m = Some name.
(** The one section of that name. *)
Definition the_sec (w : writer) (secs : list section) (n : string) (s : section) : Prop :=
  s ∈ secs /\ sec_name w s = Some n /\ forall s', s' ∈ secs -> sec_name w s' = Some n -> s' = s.

(** What the processor finds in the PLT [p] with the table [g] (.got.plt):
    entry 0 pushes word 1 and jumps through word 2; entry [i + 1] jumps through
    word [i + 3], which at first points just behind that jump, where [k] is
    pushed and entry 0 is entered. *)
Definition head_for (p g : section) : Prop :=
  decode_at (Z.of_N (addr p)) (contents p) 0 = Some (PushMem (Z.of_N (addr g + 8)), 6) /\
  decode_at (Z.of_N (addr p)) (contents p) 6 = Some (JmpInd (Z.of_N (addr g + 16)), 6).
Definition stub_for (p g : section) (i k : N) : Prop :=
  let e := 16 * (i + 1) in
  decode_at (Z.of_N (addr p)) (contents p) e = Some (JmpInd (Z.of_N (addr g + 8 * (i + 3))), 6) /\
  decode_at (Z.of_N (addr p)) (contents p) (e + 6) = Some (PushImm (Z.of_N k), 5) /\
  decode_at (Z.of_N (addr p)) (contents p) (e + 11) = Some (JmpRel (Z.of_N (addr p)), 5) /\
  rd 8 (contents g) (8 * (i + 3)) = Some (addr p + e + 6).

(** A finished link of ordinary inputs whose numbers fit the file format. *)
Record good_link (wd : world) (lo : lib_oracle) (l : linker) (fuel : nat) (w : writer) (secs : list section) : Prop := {
  gl_links : links wd lo l fuel w secs;
  gl_oracle : valid_oracle (lo_writer lo);
  gl_inputs : plain_inputs wd l;
  gl_libs : plain_libs wd l;
  gl_names : names_fit w;
  gl_addr : addresses_fit secs;
  gl_syms : symbols_fit w }.
(** All records of a relocation section. *)
Definition rd_relas (data : bytes) : option (list Rela) := rd_table rd_rela 24 (length data / 24) data 0.
(** Symbol number [j] of .dynsym is the one [n] of .symtab names. *)
Definition dyn_entry (symstr dynsym dynstr : section) (n j : N) : Prop :=
  exists d, rd_sym (contents dynsym) (24 * j) = Some d /\ same_string (contents symstr) (contents dynstr) n (st_name d).
