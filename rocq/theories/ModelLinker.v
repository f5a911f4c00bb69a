(** The linking driver (src/lib.rs). *)
From Verif Require Export ModelWriter.

(** * Inputs: what goblin hands to the linker *)

(** A relocation as parsed by goblin ([elf::reloc::Reloc]; REL entries have no addend). *)
Record greloc := mkGreloc {
  gr_offset : N; gr_addend : option Z; gr_sym : N; gr_type : N }.

(** goblin's [Elf] together with the bytes it was parsed from ([Input],
    src/lib.rs:53-56): the fields src/lib.rs reads. String tables are the
    lookup functions [Strtab::get_at]. *)
Record elf_obj := mkElfObj {
  eo_is_object : bool;                        (* is_object_file(), src/lib.rs:68 *)
  eo_data : bytes;
  eo_shdrs : list Shdr;
  eo_shstr : N -> option string;
  eo_syms : list Sym;
  eo_strtab : N -> option string;
  eo_dynsyms : list Sym;
  eo_dynstr : N -> option string;
  eo_relocs : list (N * list greloc) }.       (* shdr_relocs *)

(** goblin's [Archive]: the symbol index and member extraction. [ar_get m] is
    [None] when there is no such member, [Some None] when the member does not
    parse as ELF. *)
Record archive := mkArchive {
  ar_member_of_symbol : string -> option string;
  ar_get : string -> option (option elf_obj) }.

(** The file system as seen by [read] followed by parsing: [None] when reading
    fails, [Some None] when parsing fails. [wd_can_create]: whether
    [File::create] of the output succeeds. *)
Record world := mkWorld {
  wd_elf : string -> option (option elf_obj);
  wd_archive : string -> option (option archive);
  wd_can_create : bool }.

(** Iteration orders of the HashMaps/HashSets local to src/lib.rs: each map
    instance has its own, so they take a counter. *)
Record lib_oracle := mkLibOracle {
  lo_writer : oracle;
  lo_undef : nat -> list symref -> list symref;
  lo_members : nat -> string -> list string -> list string }.

(** * ElfObject (src/lib.rs:58-145) *)

(** src/lib.rs:26-27 *)
Definition SKIPPED_SECTIONS : list N :=
  [SHT_SYMTAB; SHT_DYNSYM; SHT_STRTAB; SHT_RELA; SHT_DYNAMIC; SHT_REL; SHT_SHLIB].

(** src/lib.rs:31-39: the fields [Symbol]'s equality looks at (not st_value) *)
Definition sym_key (s : Sym) : N * N * N * N * N :=
  (st_name s, st_info s, st_other s, st_shndx s, st_size s).

(** src/lib.rs:58-63 *)
Record elf_state := mkElfState {
  es_sections : gmap nat section_ref;               (* section_relocations *)
  es_symbols : list ((N * N * N * N * N) * symref) }.   (* newest first *)

Definition es_empty : elf_state := mkElfState ∅ [].

Fixpoint kassoc (k : N * N * N * N * N) (l : list ((N * N * N * N * N) * symref)) : option symref :=
  match l with
  | [] => None
  | (k', v) :: l' => if decide (k = k') then Some v else kassoc k l'
  end.

(** goblin [file_range()] and the slice at src/lib.rs:90 *)
Definition section_data (data : bytes) (sh : Shdr) : res (option bytes) :=
  if sh_type sh =? SHT_NOBITS then Ok None
  else d ← slice data (sh_offset sh) (sh_size sh); Ok (Some d).

(** src/lib.rs:84-100, one section header *)
Definition process_section (e : elf_obj) (st : writer * gmap nat section_ref) (x : nat * Shdr)
  : res (writer * gmap nat section_ref) :=
  let '(w, m) := st in
  let '(i, sh) := x in
  if bool_decide (sh_type sh ∈ SKIPPED_SECTIONS) then Ok (w, m)
  else match eo_shstr e (sh_name sh) with
       | None => Err ENoName
       | Some name =>
           data ← section_data (eo_data e) sh;
           '(w, r) ← add_section w name sh data;
           Ok (w, <[i := r]> m)
       end.

(** src/lib.rs:77-102 *)
Definition process_sections (e : elf_obj) (w : writer) : res (writer * elf_state) :=
  '(w, m) ← foldM (process_section e) (imap pair (eo_shdrs e)) (w, ∅);
  Ok (w, mkElfState m []).

(** src/lib.rs:107-116, one symbol *)
Definition process_symbol (e : elf_obj) (path : string) (st : writer * elf_state) (sym : Sym)
  : res (writer * elf_state) :=
  let '(w, es) := st in
  match eo_strtab e (st_name sym) with
  | None => Err ENoName
  | Some name =>
      let sec_ref := es_sections es !! N.to_nat (st_shndx sym) in
      '(w, r) ← add_symbol w sym sec_ref name path;
      Ok (w, mkElfState (es_sections es) ((sym_key sym, r) :: es_symbols es))
  end.

(** src/lib.rs:104-118 *)
Definition process_symbols (e : elf_obj) (path : string) (w : writer) (es : elf_state)
  : res (writer * elf_state) :=
  foldM (process_symbol e path) (eo_syms e) (w, es).

(** src/lib.rs:123-141, one relocation of relocation section [section_index] *)
Definition process_relocation (e : elf_obj) (es : elf_state) (section_index : N) (w : writer) (rel : greloc)
  : res writer :=
  if gr_sym rel =? 0 then Ok w
  else
    sym ← unwrap (eo_syms e !! N.to_nat (gr_sym rel));
    target ← usub section_index 1;
    match es_sections es !! N.to_nat target with
    | None => Ok w
    | Some sref =>
        match kassoc (sym_key sym) (es_symbols es) with
        | None => Ok w
        | Some r =>
            add_relocation w
              (mkRela (gr_offset rel) (u64 (gr_sym rel * 2^32) + gr_type rel)
                      (default 0%Z (gr_addend rel))) r sref
        end
    end.

(** src/lib.rs:120-144 *)
Definition process_relocations (e : elf_obj) (es : elf_state) (w : writer) : res writer :=
  foldM (fun w '(section_index, rels) => foldM (process_relocation e es section_index) rels w)
    (eo_relocs e) w.

(** * Linker (src/lib.rs:147-274) *)

(** src/lib.rs:147-151; [archives] is a HashSet: its listing is arbitrary but
    fixed for the run, and free of duplicates. *)
Record linker := mkLinker {
  lk_options : options;
  lk_objects : list string;
  lk_archives : list string }.

(** src/lib.rs:171-180: the dynsyms of one library against one wanted name *)
Fixpoint match_dynsyms (e : elf_obj) (path name : string) (syms : list Sym) (found : bool) (w : writer)
  : res (writer * bool) :=
  match syms with
  | [] => Ok (w, found)
  | sym :: syms' =>
      match eo_dynstr e (st_name sym) with
      | None => Err ENoName
      | Some inner_name =>
          if decide (name = inner_name) then
            '(w, _) ← add_dyn_symbol w sym None inner_name path;
            so ← unwrap (file_name path);
            match_dynsyms e path name syms' true (add_needed w so)
          else match_dynsyms e path name syms' found w
      end
  end.

(** src/lib.rs:165-182: all entries not found so far against one library *)
Fixpoint match_undefines (e : elf_obj) (path : string) (undefines : list symref) (w : writer)
  : res (writer * list symref) :=
  match undefines with
  | [] => Ok (w, [])
  | r :: rest =>
      name ← symbol_name w r;
      '(w, found) ← match name with
                    | None => Ok (w, false)
                    | Some name => match_dynsyms e path name (eo_dynsyms e) false w
                    end;
      '(w, rest) ← match_undefines e path rest w;
      Ok (w, if (found : bool) then rest else r :: rest)
  end.

(** src/lib.rs:161-183: one library *)
Definition search_lib (wd : world) (st : writer * list symref) (lib : string * bool)
  : res (writer * list symref) :=
  let '(w, undefines) := st in
  match wd_elf wd lib.1 with
  | None => Err EIo
  | Some None => Panic PUnwrap                    (* Elf::parse(..).unwrap(), line 166 *)
  | Some (Some e) => match_undefines e lib.1 undefines w
  end.

(** src/lib.rs:154-185; [symbols] already in the iteration order of the map *)
Definition find_undefined_symbols_in_libs (wd : world) (l : linker) (symbols : list symref) (w : writer)
  : res (writer * list symref) :=
  foldM (search_lib wd) (opt_shared_libs (lk_options l)) (w, symbols).

(** src/lib.rs:199-209: members to load, and the entries they answer *)
Fixpoint wanted_members (w : writer) (ar : archive) (undefines : list symref)
  : res (list string * list symref) :=
  match undefines with
  | [] => Ok ([], [])
  | r :: rest =>
      name ← symbol_name w r;
      '(ms, unanswered) ← wanted_members w ar rest;
      Ok match (name ≫= ar_member_of_symbol ar) with
         | Some m => (m :: ms, unanswered)
         | None => (ms, r :: unanswered)
         end
  end.

(** src/lib.rs:210-219: one member *)
Definition load_member (ar : archive) (path : string) (w : writer) (member : string) : res writer :=
  o ← unwrap (ar_get ar member);
  match o with
  | None => Err EIo
  | Some e =>
      if eo_is_object e then
        '(w, es) ← process_sections e w;
        '(w, es) ← process_symbols e path w es;
        process_relocations e es w
      else Panic PUnwrap
  end.

(** src/lib.rs:194-221: one archive *)
Definition search_archive (wd : world) (lo : lib_oracle) (round : nat) (st : writer * list symref) (path : string)
  : res (writer * list symref) :=
  let '(w, undefines) := st in
  match wd_archive wd path with
  | None | Some None => Err EIo
  | Some (Some ar) =>
      '(members, unanswered) ← wanted_members w ar undefines;
      w ← foldM (load_member ar path) (lo_members lo round path (remove_dups members)) w;
      Ok (w, unanswered)
  end.

(** src/lib.rs:187-223 *)
Definition process_archives_containing (wd : world) (lo : lib_oracle) (round : nat) (l : linker)
    (symbols : list symref) (w : writer) : res (writer * list symref) :=
  foldM (search_archive wd lo round) (lk_archives l) (w, symbols).

(** src/lib.rs:251-260: the resolution loop. [undefined] is the list from the
    previous round. The Rust loop has no bound; running out of [fuel] means it
    is still running. *)
Fixpoint resolve_loop (wd : world) (lo : lib_oracle) (l : linker) (fuel : nat) (round : nat)
    (undefined : list symref) (w : writer) : res writer :=
  match fuel with
  | O => Panic PFuel
  | S fuel' =>
      '(w, next) ← find_undefined_symbols_in_libs wd l (lo_undef lo (2 * round) undefined) w;
      '(w, next) ← process_archives_containing wd lo round l (lo_undef lo (2 * round + 1) next) w;
      if (length undefined =? length next)%nat then Ok w
      else resolve_loop wd lo l fuel' (S round) (undefined_symbols (lo_writer lo) w) w
  end.

(** src/lib.rs:228-245: reading and parsing the objects, adding their sections *)
Definition read_object (wd : world) (path : string) : res (string * option elf_obj) :=
  match wd_elf wd path with None => Err EIo | Some e => Ok (path, e) end.
Definition add_object_sections (st : writer * list (string * elf_obj * elf_state)) (x : string * option elf_obj)
  : res (writer * list (string * elf_obj * elf_state)) :=
  let '(w, elfs) := st in
  match x.2 with
  | None => Err EIo
  | Some e =>
      if eo_is_object e then
        '(w, es) ← process_sections e w;
        Ok (w, elfs ++ [(x.1, e, es)])
      else Ok (w, elfs)
  end.
(** src/lib.rs:246-249 *)
Definition add_object_symbols (w : writer) (x : string * elf_obj * elf_state) : res writer :=
  let '(path, e, es) := x in
  '(w, es) ← process_symbols e path w es;
  process_relocations e es w.

(** src/lib.rs:228-249 *)
Definition load_objects (wd : world) (l : linker) (w : writer) : res writer :=
  inputs ← mapM_res (read_object wd) (lk_objects l);
  '(w, elfs) ← foldM add_object_sections inputs (w, []);
  foldM add_object_symbols elfs w.

(** src/lib.rs:226-260: everything before the output is laid out *)
Definition resolve (wd : world) (lo : lib_oracle) (l : linker) (fuel : nat) : res writer :=
  w ← writer_new (lk_options l);
  w ← load_objects wd l w;
  resolve_loop wd lo l fuel 0 (undefined_symbols (lo_writer lo) w) w.

(** src/lib.rs:262-270 *)
Fixpoint symbol_names_of (w : writer) (l : list symref) : res (list string) :=
  match l with
  | [] => Ok []
  | r :: l' => n ← symbol_name w r; ns ← symbol_names_of w l';
               Ok match n with Some n => n :: ns | None => ns end
  end.
Definition check_undefined (o : oracle) (w : writer) : res unit :=
  match undefined_symbols o w with
  | [] => Ok tt
  | us => names ← symbol_names_of w us; Err (EUndefined names)
  end.

(** src/lib.rs:226-270: the writer as it is when the file is written, and the bytes *)
Definition link_writer (wd : world) (lo : lib_oracle) (l : linker) (fuel : nat) : res writer :=
  w ← resolve wd lo l fuel;
  w ← compute_sections (lo_writer lo) w;
  _ ← check_undefined (lo_writer lo) w;
  Ok w.
Definition link_bytes (wd : world) (lo : lib_oracle) (l : linker) (fuel : nat) : res bytes :=
  w ← link_writer wd lo l fuel;
  write_to_disk (lo_writer lo) w.

(** Effects on the file system, in order. *)
Inductive effect :=
| ECreate (path : string)                  (* File::create: creates or truncates, src/elf.rs:174 *)
| EWrite (path : string) (data : bytes)    (* the write_all calls of src/elf.rs:953-997 *)
| EChmod (path : string) (mode : N).       (* src/elf.rs:998-1000 *)

(** src/lib.rs:225-273. Simplification: the writes of [write_to_disk] are one
    effect (a panic between two writes would leave a prefix). *)
Definition link (wd : world) (lo : lib_oracle) (l : linker) (fuel : nat) : list effect * res unit :=
  let out := opt_output (lk_options l) in
  if wd_can_create wd then
    match link_bytes wd lo l fuel with
    | Ok data => ([ECreate out; EWrite out data; EChmod out 493], Ok tt)
    | Err e => ([ECreate out], Err e)
    | Panic p => ([ECreate out], Panic p)
    end
  else ([], Err EIo).
