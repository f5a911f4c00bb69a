(** What the ABI says about groups, excluded sections, visibility, indirect
    functions and the arrays run before all others (C91-C95). *)
From Verif Require Export SpecRun.

(** A COMDAT group of an object: a section of type SHT_GROUP (17) whose words
    are flags with GRP_COMDAT (bit 0) and the indices of the members; its
    signature is the name of the symbol sh_info. *)
Definition group_words (bs : bytes) : option (list N) := rd_table (fun d o => le_val <$> rd_bytes 4 d o) 4 (length bs / 4) bs 0.
Definition comdat (e : elf_obj) (sig : string) (members : list N) : Prop :=
  exists sh bs f y, sh ∈ eo_shdrs e /\ sh_type sh = 17 /\ file_data (eo_data e) sh = Some bs /\ group_words bs = Some (f :: members) /\ N.testbit f 0 = true /\
    eo_syms e !! N.to_nat (sh_info sh) = Some y /\ eo_strtab e (st_name y) = Some sig.
(** A member of a group an object loaded before has too: it is to be left out. *)
Definition superseded (es : list (string * elf_obj)) (x : sec_in) : Prop :=
  exists i p e p' e' sig ms ms', es !! si_obj x = Some (p, e) /\ es !! i = Some (p', e') /\ (i < si_obj x)%nat /\ comdat e sig ms /\ N.of_nat (si_idx x) ∈ ms /\ comdat e' sig ms'.
(** SHF_EXCLUDE is 0x80000000: the section is not for the output. *)
Definition excluded (x : sec_in) : Prop := N.testbit (sh_flags (si_sh x)) 31 = true.
(** The section is not among those an output section is made of. *)
Definition left_out (w : writer) (secs : list section) (es : list (string * elf_obj)) (x : sec_in) : Prop :=
  forall s, the_sec w secs (si_name x) s -> exists kept, sublist kept (contribs (si_name x) (all_secs es)) /\ x ∉ kept /\ memsz s = ntotal (si_size <$> kept).

(** STV_INTERNAL 1 and STV_HIDDEN 2: the name is to be found in the program. *)
Definition hidden (y : Sym) : Prop := st_other y mod 4 = 1 \/ st_other y mod 4 = 2.
(** STT_GNU_IFUNC is 10, R_X86_64_IRELATIVE 37. *)
Definition resolved_at_start (w : writer) (secs : list section) : Prop :=
  exists s r recs, (the_sec w secs ".rela.dyn" s \/ the_sec w secs ".rela.plt" s) /\ rd_relas (contents s) = Some recs /\ r ∈ recs /\ reloc_type r = 37.
(** SHT_PREINIT_ARRAY is 16, DT_PREINIT_ARRAY 32: .dynamic has the tag. *)
Definition preinit_found (secs : list section) : Prop :=
  exists d es v, d ∈ secs /\ sh_type (sc_sh d) = 6 /\ rd_dynamic (contents d) = Some es /\ (32, v) ∈ es.

(** A relocation of section [x] without a symbol (index 0): its symbol's value
    is 0, so a field of type R_X86_64_64 (1) is to hold the addend. *)
Definition symbolless (es : list (string * elf_obj)) (x : sec_in) (r : greloc) : Prop :=
  exists p e idx rs, es !! si_obj x = Some (p, e) /\ (idx, rs) ∈ eo_relocs e /\ N.to_nat (idx - 1) = si_idx x /\ r ∈ rs /\ gr_sym r = 0.
Definition holds_addend (w : writer) (secs : list section) (es : list (string * elf_obj)) (x : sec_in) (r : greloc) : Prop :=
  forall s off, the_sec w secs (si_name x) s -> offset_of es x off -> rd 8 (contents s) (off + gr_offset r) = Some (addr_of (default 0%Z (gr_addend r))).
