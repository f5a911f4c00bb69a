(** The consumer's side of the ELF64 records: decoders following the field
    tables of the gABI (offsets and widths), written without reference to the
    serializers of the model. *)
From Verif Require Export SpecBase.

(** Elf64_Sym: 24 bytes. *)
Definition rd_sym (data : bytes) (off : N) : option Sym :=
  name ← rd 4 data off; info ← rd 1 data (off + 4); other ← rd 1 data (off + 5);
  shndx ← rd 2 data (off + 6); value ← rd 8 data (off + 8); size ← rd 8 data (off + 16);
  Some (mkSym name info other shndx value size).
Definition sym_fits (s : Sym) : Prop :=
  st_name s < 2^32 /\ st_info s < 2^8 /\ st_other s < 2^8 /\ st_shndx s < 2^16 /\
  st_value s < 2^64 /\ st_size s < 2^64.

(** Elf64_Rela: 24 bytes, signed addend. *)
Definition rd_rela (data : bytes) (off : N) : option Rela :=
  offset ← rd 8 data off; info ← rd 8 data (off + 8); addend ← rd_z 8 data (off + 16);
  Some (mkRela offset info addend).
Definition rela_fits (r : Rela) : Prop :=
  r_offset r < 2^64 /\ r_info r < 2^64 /\ (- 2^63 <= r_addend r < 2^63)%Z.

(** Elf64_Dyn: 16 bytes. *)
Definition rd_dyn (data : bytes) (off : N) : option (N * N) :=
  tag ← rd 8 data off; v ← rd 8 data (off + 8); Some (tag, v).
Definition dyn_fits (d : N * N) : Prop := d.1 < 2^64 /\ d.2 < 2^64.

(** Elf64_Phdr: 56 bytes. *)
Definition rd_phdr (data : bytes) (off : N) : option Phdr :=
  ty ← rd 4 data off; fl ← rd 4 data (off + 4); o ← rd 8 data (off + 8);
  va ← rd 8 data (off + 16); pa ← rd 8 data (off + 24); fs ← rd 8 data (off + 32);
  ms ← rd 8 data (off + 40); al ← rd 8 data (off + 48);
  Some (mkPhdr ty fl o va pa fs ms al).
Definition phdr_fits (p : Phdr) : Prop :=
  p_type p < 2^32 /\ p_flags p < 2^32 /\ p_offset p < 2^64 /\ p_vaddr p < 2^64 /\
  p_paddr p < 2^64 /\ p_filesz p < 2^64 /\ p_memsz p < 2^64 /\ p_align p < 2^64.

(** Elf64_Shdr: 64 bytes. *)
Definition rd_shdr (data : bytes) (off : N) : option Shdr :=
  nm ← rd 4 data off; ty ← rd 4 data (off + 4); fl ← rd 8 data (off + 8);
  ad ← rd 8 data (off + 16); o ← rd 8 data (off + 24); sz ← rd 8 data (off + 32);
  lk ← rd 4 data (off + 40); inf ← rd 4 data (off + 44); al ← rd 8 data (off + 48);
  es ← rd 8 data (off + 56);
  Some (mkShdr nm ty fl ad o sz lk inf al es).
Definition shdr_fits (s : Shdr) : Prop :=
  sh_name s < 2^32 /\ sh_type s < 2^32 /\ sh_flags s < 2^64 /\ sh_addr s < 2^64 /\
  sh_offset s < 2^64 /\ sh_size s < 2^64 /\ sh_link s < 2^32 /\ sh_info s < 2^32 /\
  sh_addralign s < 2^64 /\ sh_entsize s < 2^64.

(** Elf64_Ehdr: 64 bytes, the first 16 are e_ident. *)
Definition rd_bytes (n : nat) (data : bytes) (off : N) : option bytes :=
  let s := take n (drop (N.to_nat off) data) in
  if decide (length s = n) then Some s else None.
Definition rd_ehdr (data : bytes) (off : N) : option Ehdr :=
  id ← rd_bytes 16 data off; ty ← rd 2 data (off + 16); ma ← rd 2 data (off + 18);
  ve ← rd 4 data (off + 20); en ← rd 8 data (off + 24); ph ← rd 8 data (off + 32);
  sh ← rd 8 data (off + 40); fl ← rd 4 data (off + 48); es ← rd 2 data (off + 52);
  pe ← rd 2 data (off + 54); pn ← rd 2 data (off + 56); se ← rd 2 data (off + 58);
  sn ← rd 2 data (off + 60); ss ← rd 2 data (off + 62);
  Some (mkEhdr id ty ma ve en ph sh fl es pe pn se sn ss).
Definition ehdr_fits (h : Ehdr) : Prop :=
  length (e_ident h) = 16%nat /\ e_type h < 2^16 /\ e_machine h < 2^16 /\ e_version h < 2^32 /\
  e_entry h < 2^64 /\ e_phoff h < 2^64 /\ e_shoff h < 2^64 /\ e_flags h < 2^32 /\
  e_ehsize h < 2^16 /\ e_phentsize h < 2^16 /\ e_phnum h < 2^16 /\ e_shentsize h < 2^16 /\
  e_shnum h < 2^16 /\ e_shstrndx h < 2^16.

(** The records of a table of equally sized entries starting at [off]. *)
Fixpoint rd_table {A} (rd1 : bytes -> N -> option A) (sz : N) (n : nat) (data : bytes) (off : N)
  : option (list A) :=
  match n with
  | O => Some []
  | S n' => x ← rd1 data off; xs ← rd_table rd1 sz n' data (off + sz); Some (x :: xs)
  end.
