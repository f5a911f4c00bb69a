(** What the dynamic section has to say, by the tag numbers of the gABI. *)
From Verif Require Export SpecElf SpecLink.

(** The name of an output section. *)
Definition sec_name (w : writer) (s : section) : option string := st_name_at (w_shstrtab w) (sh_name (sc_sh s)).

(** Entry [e] states a fact about section [s]: DT_INIT 12, DT_FINI 13,
    DT_PLTGOT 3, DT_RELA 7, DT_RELASZ 8, DT_RELAENT 9, DT_RELACOUNT,
    DT_JMPREL 23, DT_PLTRELSZ 2, DT_PLTREL 20, DT_SYMTAB 6, DT_SYMENT 11,
    DT_STRTAB 5, DT_STRSZ 10, DT_INIT_ARRAY 25, DT_INIT_ARRAYSZ 27,
    DT_FINI_ARRAY 26, DT_FINI_ARRAYSZ 28, DT_HASH 4, DT_GNU_HASH. *)
Definition states (w : writer) (s : section) (e : N * N) : Prop :=
  let n := sec_name w s in
  let ty := sh_type (sc_sh s) in
  match e.1 with
  | 12 => n = Some ".init" /\ e.2 = addr s
  | 13 => n = Some ".fini" /\ e.2 = addr s
  | 3 => n = Some ".got.plt" /\ e.2 = addr s
  | 7 => n = Some ".rela.dyn" /\ e.2 = addr s
  | 8 => n = Some ".rela.dyn" /\ e.2 = memsz s
  | 9 => n = Some ".rela.dyn" /\ e.2 = 24
  | 0x6ffffff9 => n = Some ".rela.dyn" /\ e.2 = 0
  | 23 => n = Some ".rela.plt" /\ e.2 = addr s
  | 2 => n = Some ".rela.plt" /\ e.2 = memsz s
  | 20 => n = Some ".rela.plt" /\ e.2 = 7
  | 6 => ty = 11 /\ e.2 = addr s
  | 11 => ty = 11 /\ e.2 = 24
  | 5 => ty = 3 /\ alloc s = true /\ e.2 = addr s
  | 10 => ty = 3 /\ alloc s = true /\ e.2 = memsz s
  | 25 => ty = 14 /\ e.2 = addr s
  | 27 => ty = 14 /\ e.2 = memsz s
  | 26 => ty = 15 /\ e.2 = addr s
  | 28 => ty = 15 /\ e.2 = memsz s
  | 4 => ty = 5 /\ e.2 = addr s
  | 0x6ffffef5 => ty = 0x6ffffff6 /\ e.2 = addr s
  | _ => False
  end.
(** Sections whose name decides their entries. *)
Definition entry_names : list string := [".init"; ".fini"; ".got.plt"; ".rela.dyn"; ".rela.plt"].
(** The table as a loader reads it, and a tag that occurs exactly once. *)
Definition rd_dynamic (data : bytes) : option (list (N * N)) := rd_table rd_dyn 16 (length data / 16) data 0.
Definition once (es : list (N * N)) (tag v : N) : Prop := filter (fun e => e.1 = tag) es = [(tag, v)].

(** The tags every executable with dynamic linking has exactly once. *)
Definition once_tags : list N := [3; 5; 10; 6; 11; 7; 8; 9; 0x6ffffff9; 23; 2; 20].

(** The file name of a shared library of the link, and the name of one of its symbols. *)
Definition lib_name (wd : world) (l : linker) (so : string) : Prop := exists path e, is_lib wd l path e /\ file_name path = Some so.
Definition lib_symbol (wd : world) (l : linker) (n : string) : Prop :=
  exists path e sym, is_lib wd l path e /\ sym ∈ eo_dynsyms e /\ eo_dynstr e (st_name sym) = Some n.

(** Every number of the headers fits its field of the file format. *)
Definition headers_fit (w : writer) (secs : list section) : Prop :=
  ehdr_fits (w_eh w) /\ Forall phdr_fits (w_program_headers w) /\ Forall shdr_fits (sc_sh <$> secs) /\
  blen (w_program_headers w) < 2^16 /\ blen secs < 2^16.
(** What a consumer of the file finds: the headers of [w], the section headers
    of [secs], and at each section's offset its contents. *)
Definition reads_back (data : bytes) (w : writer) (secs : list section) : Prop :=
  rd_ehdr data 0 = Some (w_eh w) /\
  rd_table rd_phdr (e_phentsize (w_eh w)) (N.to_nat (e_phnum (w_eh w))) data (e_phoff (w_eh w)) = Some (w_program_headers w) /\
  rd_table rd_shdr (e_shentsize (w_eh w)) (N.to_nat (e_shnum (w_eh w))) data (e_shoff (w_eh w)) = Some (sc_sh <$> secs) /\
  forall s, s ∈ secs -> rd_bytes (N.to_nat (filesz s)) data (offset s) = Some (contents s).
