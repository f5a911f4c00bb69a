(** Basic vocabulary of the model: results with explicit panics, machine
    words, little-endian encodings, ELF constants and on-disk records.

    Everything here models Rust language behaviour or constants/structs that
    /repo imports from the crates [goblin] and [byteorder]; the uses in /repo
    are cited at each definition. *)
From stdpp Require Export prelude list gmap strings.
From RecordUpdate Require Export RecordUpdate.
From Coq Require Export NArith ZArith Ascii.
From Coq Require String.
Export RecordSetNotations.
Global Open Scope N_scope.
Global Arguments N.add : simpl never.
Global Arguments N.sub : simpl never.
Global Arguments N.mul : simpl never.
Global Arguments N.div : simpl never.
Global Arguments N.modulo : simpl never.
Global Arguments N.pow : simpl never.
Global Arguments N.of_nat : simpl never.
Global Arguments N.to_nat : simpl never.
Global Arguments Z.add : simpl never.
Global Arguments Z.sub : simpl never.
Global Arguments Z.mul : simpl never.
Global Arguments Z.pow : simpl never.
Global Arguments Z.modulo : simpl never.

(** * Results *)

(** The recoverable errors of src/error.rs:4-14 (only the information the
    properties need: the cases of [ErrorType::Other] built in src/elf.rs:447,
    src/elf.rs:540-543, src/lib.rs:268 and src/lib.rs:277/281/285, and
    failures of reading/parsing a file, [Io]/[ElfWrite]). *)
Inductive lerror :=
| EAlreadyDefined (sym first_path : string)  (* src/elf.rs:447 + symbol_table.rs:42 *)
| ENotAbi (r_type : N)                       (* src/elf.rs:540 *)
| EUndefined (names : list string)           (* src/lib.rs:268 *)
| ENoName                                    (* src/lib.rs:277,281,285 *)
| EIo                                        (* Io / ElfWrite *)
| EUsage (msg : string).                     (* the String errors of src/main.rs *)

(** Why the process would abort; every one is a Rust panic. *)
Inductive panic :=
| PUnwrap        (* Option/Result unwrap on None/Err *)
| PIndex         (* slice or vector index out of range *)
| POverflow      (* arithmetic overflow with overflow checks (debug profile) *)
| PUnreachable   (* unreachable!() / unimplemented!() / assert! *)
| PFuel.         (* model only: loop fuel exhausted; proved not to happen where used *)

Inductive res (A : Type) :=
| Ok (a : A)
| Err (e : lerror)
| Panic (p : panic).
Arguments Ok {_} _.
Arguments Err {_} _.
Arguments Panic {_} _.

Global Instance res_ret : MRet res := @Ok.
Global Instance res_bind : MBind res := fun A B f m =>
  match m with Ok a => f a | Err e => Err e | Panic p => Panic p end.

(** [opt.unwrap()] *)
Definition unwrap {A} (o : option A) : res A :=
  match o with Some a => Ok a | None => Panic PUnwrap end.

(** [v[i]] *)
Definition index {A} (l : list A) (i : nat) : res A :=
  match l !! i with Some a => Ok a | None => Panic PIndex end.

(** Monadic left fold: a [for] loop over a sequence whose body may stop early. *)
Fixpoint foldM {S A} (f : S -> A -> res S) (l : list A) (s : S) : res S :=
  match l with
  | [] => Ok s
  | a :: l' => s' ← f s a; foldM f l' s'
  end.

(** * Machine words: the [as] casts of Rust truncate *)
Definition u8 (x : N) : N := x mod 2^8.
Definition u16 (x : N) : N := x mod 2^16.
Definition u32 (x : N) : N := x mod 2^32.
Definition u64 (x : N) : N := x mod 2^64.

(** [u64 -> i64] by [try_into().unwrap()] (e.g. src/elf/chunk.rs:106). *)
Definition to_i64 (x : N) : res Z :=
  if x <? 2^63 then Ok (Z.of_N x) else Panic PUnwrap.

(** An [i64] intermediate result: overflow panics (overflow checks on). *)
Definition chk_i64 (z : Z) : res Z :=
  if ((- 2^63 <=? z) && (z <? 2^63))%Z then Ok z else Panic POverflow.

(** [i64 -> i32] by [try_into().unwrap()]. *)
Definition to_i32 (z : Z) : res Z :=
  if ((- 2^31 <=? z) && (z <? 2^31))%Z then Ok z else Panic PUnwrap.

(** [i64 as i32]: truncating cast. *)
Definition as_i32 (z : Z) : Z :=
  let m := (z mod 2^32)%Z in if (m <? 2^31)%Z then m else (m - 2^32)%Z.

(** * Bytes; a byte is an [N] below 256. *)
Notation bytes := (list N).

(** byteorder's [write_uN::<LittleEndian>]: the [n] low bytes, least significant first. *)
Fixpoint le_bytes (n : nat) (v : N) : bytes :=
  match n with
  | O => []
  | S n' => v mod 256 :: le_bytes n' (v / 256)
  end.

(** byteorder's [write_iN::<LittleEndian>]: two's complement. *)
Definition le_bytes_z (n : nat) (v : Z) : bytes :=
  le_bytes n (Z.to_N (v mod 2 ^ (8 * Z.of_nat n))%Z).

Definition blen {A} (l : list A) : N := N.of_nat (length l).

(** [(&mut data[off..]).write_all(bs).unwrap()]: panics if the slice start is
    out of range or the remaining slice is too short. *)
Definition write_at (data : bytes) (off : N) (bs : bytes) : res bytes :=
  if (off + blen bs <=? blen data)
  then Ok (take (N.to_nat off) data ++ bs ++ drop (N.to_nat off + length bs)%nat data)
  else Panic PIndex.

(** Rust strings as byte sequences ([as_bytes()], src/name.rs:52, src/serialize.rs:79). *)
Fixpoint string_bytes (s : string) : bytes :=
  match s with
  | EmptyString => []
  | String c s' => N_of_ascii c :: string_bytes s'
  end.

Definition zeros (n : N) : bytes := replicate (N.to_nat n) 0.

(** * ELF constants (values from goblin's elf64 modules, as imported at
    src/elf.rs:4-14, src/symbol.rs:8-11, src/elf/*.rs) *)
Definition SHN_UNDEF : N := 0.
Definition SHN_ABS : N := 0xfff1.
Definition SHN_COMMON : N := 0xfff2.
Definition STB_LOCAL : N := 0.
Definition STB_GLOBAL : N := 1.
Definition STB_WEAK : N := 2.
Definition STT_OBJECT : N := 1.
Definition STT_FUNC : N := 2.
Definition STT_SECTION : N := 3.
Definition STT_TLS : N := 6.
Definition SHT_NULL : N := 0.
Definition SHT_PROGBITS : N := 1.
Definition SHT_SYMTAB : N := 2.
Definition SHT_STRTAB : N := 3.
Definition SHT_RELA : N := 4.
Definition SHT_HASH : N := 5.
Definition SHT_DYNAMIC : N := 6.
Definition SHT_NOBITS : N := 8.
Definition SHT_REL : N := 9.
Definition SHT_SHLIB : N := 10.
Definition SHT_DYNSYM : N := 11.
Definition SHT_INIT_ARRAY : N := 14.
Definition SHT_FINI_ARRAY : N := 15.
Definition SHT_GNU_HASH : N := 0x6ffffff6.
Definition SHF_WRITE : N := 1.
Definition SHF_ALLOC : N := 2.
Definition SHF_EXECINSTR : N := 4.
Definition PT_LOAD : N := 1.
Definition PT_DYNAMIC : N := 2.
Definition PT_INTERP : N := 3.
Definition PT_PHDR : N := 6.
Definition PF_X : N := 1.
Definition PF_W : N := 2.
Definition PF_R : N := 4.
Definition ET_EXEC : N := 2.
Definition ET_DYN : N := 3.
Definition EM_X86_64 : N := 62.
Definition EV_CURRENT : N := 1.
Definition R_X86_64_NONE : N := 0.
Definition R_X86_64_64 : N := 1.
Definition R_X86_64_PC32 : N := 2.
Definition R_X86_64_GOT32 : N := 3.
Definition R_X86_64_PLT32 : N := 4.
Definition R_X86_64_COPY : N := 5.
Definition R_X86_64_GLOB_DAT : N := 6.
Definition R_X86_64_JUMP_SLOT : N := 7.
Definition R_X86_64_GOTPCREL : N := 9.
Definition R_X86_64_32 : N := 10.
Definition R_X86_64_32S : N := 11.
Definition R_X86_64_16 : N := 12.
Definition R_X86_64_PC16 : N := 13.
Definition R_X86_64_8 : N := 14.
Definition R_X86_64_PC8 : N := 15.
Definition R_X86_64_TLSGD : N := 19.
Definition R_X86_64_GOTTPOFF : N := 22.
Definition R_X86_64_TPOFF32 : N := 23.
Definition R_X86_64_GOTOFF64 : N := 25.
Definition R_X86_64_GOTPC32 : N := 26.
Definition R_X86_64_GOTPCRELX : N := 41.
Definition R_X86_64_REX_GOTPCRELX : N := 42.

(** DynTag discriminants, src/elf.rs:74-140 (the variants the code uses). *)
Definition DT_NULL : N := 0.
Definition DT_NEEDED : N := 1.
Definition DT_PLTRELSZ : N := 2.
Definition DT_PLTGOT : N := 3.
Definition DT_HASH : N := 4.
Definition DT_STRTAB : N := 5.
Definition DT_SYMTAB : N := 6.
Definition DT_RELA : N := 7.
Definition DT_RELASZ : N := 8.
Definition DT_RELAENT : N := 9.
Definition DT_STRSZ : N := 10.
Definition DT_SYMENT : N := 11.
Definition DT_INIT : N := 12.
Definition DT_FINI : N := 13.
Definition DT_PLTREL : N := 20.
Definition DT_JMPREL : N := 23.
Definition DT_INIT_ARRAY : N := 25.
Definition DT_FINI_ARRAY : N := 26.
Definition DT_INIT_ARRAYSZ : N := 27.
Definition DT_FINI_ARRAYSZ : N := 28.
Definition DT_GNU_HASH : N := 0x6ffffef5.
Definition DT_RELACOUNT : N := 0x6ffffff9.

(** [size_of::<T>()] for the repr(C) structs of goblin (src/elf.rs:187-190 etc.). *)
Definition EHDR_SIZE : N := 64.
Definition PHDR_SIZE : N := 56.
Definition SHDR_SIZE : N := 64.
Definition SYM_SIZE : N := 24.
Definition RELA_SIZE : N := 24.

(** * On-disk records (goblin elf64 structs; field order as serialized in src/serialize.rs) *)

(** goblin elf64::header::Header *)
Record Ehdr := mkEhdr {
  e_ident : bytes; e_type : N; e_machine : N; e_version : N; e_entry : N;
  e_phoff : N; e_shoff : N; e_flags : N; e_ehsize : N; e_phentsize : N;
  e_phnum : N; e_shentsize : N; e_shnum : N; e_shstrndx : N }.
Global Instance eta_Ehdr : Settable _ :=
  settable! mkEhdr <e_ident; e_type; e_machine; e_version; e_entry; e_phoff; e_shoff;
    e_flags; e_ehsize; e_phentsize; e_phnum; e_shentsize; e_shnum; e_shstrndx>.

(** goblin elf64::program_header::ProgramHeader *)
Record Phdr := mkPhdr {
  p_type : N; p_flags : N; p_offset : N; p_vaddr : N; p_paddr : N;
  p_filesz : N; p_memsz : N; p_align : N }.
Global Instance eta_Phdr : Settable _ :=
  settable! mkPhdr <p_type; p_flags; p_offset; p_vaddr; p_paddr; p_filesz; p_memsz; p_align>.

(** goblin elf64::section_header::SectionHeader *)
Record Shdr := mkShdr {
  sh_name : N; sh_type : N; sh_flags : N; sh_addr : N; sh_offset : N;
  sh_size : N; sh_link : N; sh_info : N; sh_addralign : N; sh_entsize : N }.
Global Instance eta_Shdr : Settable _ :=
  settable! mkShdr <sh_name; sh_type; sh_flags; sh_addr; sh_offset; sh_size; sh_link;
    sh_info; sh_addralign; sh_entsize>.

(** [SectionHeader::default()] *)
Definition shdr0 : Shdr := mkShdr 0 0 0 0 0 0 0 0 0 0.

(** goblin elf64::sym::Sym *)
Record Sym := mkSym {
  st_name : N; st_info : N; st_other : N; st_shndx : N; st_value : N; st_size : N }.
Global Instance eta_Sym : Settable _ :=
  settable! mkSym <st_name; st_info; st_other; st_shndx; st_value; st_size>.

(** [Sym::default()] *)
Definition sym0 : Sym := mkSym 0 0 0 0 0 0.

(** goblin elf64::reloc::Rela *)
Record Rela := mkRela { r_offset : N; r_info : N; r_addend : Z }.
Global Instance eta_Rela : Settable _ := settable! mkRela <r_offset; r_info; r_addend>.

(** goblin [r_type(info)] = info & 0xffffffff (used at src/elf.rs:537,738; also
    [reloc.r_info as u32], src/elf.rs:764). *)
Definition r_type (info : N) : N := info mod 2^32.

(** src/elf.rs:1102-1104 [rela]; [index << 32] is a usize shift (no overflow check in Rust shifts of value bits). *)
Definition rela (offset index ty : N) : Rela :=
  mkRela offset (u64 (index * 2^32) + ty) 0.

(** * Serialization, src/serialize.rs *)

(** src/serialize.rs:15-33 *)
Definition ser_ehdr (h : Ehdr) : bytes :=
  e_ident h ++ le_bytes 2 (e_type h) ++ le_bytes 2 (e_machine h) ++ le_bytes 4 (e_version h) ++
  le_bytes 8 (e_entry h) ++ le_bytes 8 (e_phoff h) ++ le_bytes 8 (e_shoff h) ++
  le_bytes 4 (e_flags h) ++ le_bytes 2 (e_ehsize h) ++ le_bytes 2 (e_phentsize h) ++
  le_bytes 2 (e_phnum h) ++ le_bytes 2 (e_shentsize h) ++ le_bytes 2 (e_shnum h) ++
  le_bytes 2 (e_shstrndx h).

(** src/serialize.rs:35-47 *)
Definition ser_phdr (p : Phdr) : bytes :=
  le_bytes 4 (p_type p) ++ le_bytes 4 (p_flags p) ++ le_bytes 8 (p_offset p) ++
  le_bytes 8 (p_vaddr p) ++ le_bytes 8 (p_paddr p) ++ le_bytes 8 (p_filesz p) ++
  le_bytes 8 (p_memsz p) ++ le_bytes 8 (p_align p).

(** src/serialize.rs:49-63 *)
Definition ser_shdr (s : Shdr) : bytes :=
  le_bytes 4 (sh_name s) ++ le_bytes 4 (sh_type s) ++ le_bytes 8 (sh_flags s) ++
  le_bytes 8 (sh_addr s) ++ le_bytes 8 (sh_offset s) ++ le_bytes 8 (sh_size s) ++
  le_bytes 4 (sh_link s) ++ le_bytes 4 (sh_info s) ++ le_bytes 8 (sh_addralign s) ++
  le_bytes 8 (sh_entsize s).

(** src/serialize.rs:65-75 *)
Definition ser_sym (s : Sym) : bytes :=
  le_bytes 4 (st_name s) ++ le_bytes 1 (st_info s) ++ le_bytes 1 (st_other s) ++
  le_bytes 2 (st_shndx s) ++ le_bytes 8 (st_value s) ++ le_bytes 8 (st_size s).

(** src/serialize.rs:77-83 *)
Definition ser_name (s : string) : bytes := string_bytes s ++ [0].

(** src/serialize.rs:85-92 *)
Definition ser_rela (r : Rela) : bytes :=
  le_bytes 8 (r_offset r) ++ le_bytes 8 (r_info r) ++ le_bytes_z 8 (r_addend r).

(** src/serialize.rs:104-110: one dynamic entry (tag, value) *)
Definition ser_dyn (d : N * N) : bytes := le_bytes 8 d.1 ++ le_bytes 8 d.2.

(** src/serialize.rs:94-102: a vector serializes its elements in order *)
Definition ser_dyns (l : list (N * N)) : bytes := l ≫= ser_dyn.
