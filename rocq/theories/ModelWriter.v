(** The output writer (src/elf.rs). *)
From Verif Require Export ModelSection.

(** * Options (src/elf/options.rs) *)

(** src/elf/options.rs:34-38 *)
Inductive hash_style := HSysv | HGnu | HBoth.
Global Instance hash_style_eq_dec : EqDecision hash_style.
Proof. solve_decision. Defined.

(** src/elf/options.rs:4-9 *)
Inductive build_id := BUuid | BSha1 | BMd5 | BHex (s : string).
(** src/elf/options.rs:60-62 *)
Inductive emulation := ElfX86_64.

(** src/elf/options.rs:82-91; paths are strings *)
Record options := mkOptions {
  opt_output : string;
  opt_build_id : option build_id;
  opt_hash_style : hash_style;
  opt_eh_frame_hdr : bool;
  opt_emulation : emulation;
  opt_dynamic_linker : string;
  opt_shared_libs : list (string * bool) }.
Global Instance eta_options : Settable _ :=
  settable! mkOptions <opt_output; opt_build_id; opt_hash_style; opt_eh_frame_hdr;
    opt_emulation; opt_dynamic_linker; opt_shared_libs>.

(** src/elf/options.rs:93-105 *)
Definition options_default : options :=
  mkOptions "./out" None HBoth false ElfX86_64 "/lib64/ld-linux-x86-64.so.2" [].

(** [Path::file_name] (std), used at src/elf.rs:216 and src/lib.rs:178:
    the last path component, ignoring empty and [.] components; [None] for
    paths without one or ending in [..]. *)
Fixpoint path_components (acc : string) (p : string) : list string :=
  match p with
  | EmptyString => [acc]
  | String c p' =>
      if Ascii.eqb c "/"%char then acc :: path_components EmptyString p'
      else path_components (String.append acc (String c EmptyString)) p'
  end.
Definition file_name (p : string) : option string :=
  match last (filter (fun c => c ≠ "" ∧ c ≠ ".") (path_components "" p)) with
  | Some c => if decide (c = "..") then None else Some c
  | None => None
  end.

(** * Sources of nondeterminism *)

(** Iteration orders of the two symbol HashMaps (std's RandomState) and the
    result of [sort_unstable_by] (src/elf.rs:752). *)
Record oracle := mkOracle {
  o_sym : list N -> list N;         (* .symtab's HashMap<u32, Symbol> *)
  o_dyn : list N -> list N;         (* .dynsym's HashMap<u32, Symbol> *)
  o_sort : list section -> list section }.

(** * Writer state *)

(** src/elf.rs:52-57 *)
Record section_ref := mkSref { sr_section : sid; sr_chunk : nat }.

(** src/elf.rs:142-170. [out] is not part of the state: the bytes written are
    the result of [write_to_disk]. The synthesized tables are fields here
    (see [synth]). Handles to sections are the fixed ids below. *)
Record writer := mkWriter {
  w_eh : Ehdr;
  w_dyn_rels : list Rela;
  w_plt_rels : list Rela;
  w_sections : list section;
  w_got_len : N;
  w_got_plt : list (symref * N);
  w_dyn_entries : list (N * N);
  w_program_headers : list Phdr;
  w_p_vaddr : N;
  w_start_p_vaddr : N;
  w_file_offset : N;
  w_shstrtab : strtab;
  w_strtab : strtab;
  w_dynstr : strtab;
  w_symtab : symtab;
  w_dynsym : symtab;
  w_plt : plt;
  w_copyrel : copyrel;
  w_hash : option hashtab;
  w_gnu_hash : option gnutab;
  w_hash_id : option sid;
  w_gnu_hash_id : option sid }.
Global Instance eta_writer : Settable _ :=
  settable! mkWriter <w_eh; w_dyn_rels; w_plt_rels; w_sections; w_got_len; w_got_plt;
    w_dyn_entries; w_program_headers; w_p_vaddr; w_start_p_vaddr; w_file_offset;
    w_shstrtab; w_strtab; w_dynstr; w_symtab; w_dynsym; w_plt; w_copyrel; w_hash;
    w_gnu_hash; w_hash_id; w_gnu_hash_id>.

(** Handles (src/elf.rs:155-169): creation order = position in the vector built
    at src/elf.rs:324-346. *)
Definition id_shstr : sid := 1%nat.
Definition id_symstr : sid := 2%nat.
Definition id_dynstr : sid := 3%nat.
Definition id_interp : sid := 4%nat.
Definition id_got : sid := 5%nat.
Definition id_got_plt : sid := 6%nat.
Definition id_plt : sid := 7%nat.
Definition id_sym : sid := 8%nat.
Definition id_dynsym : sid := 9%nat.
Definition id_dynamic : sid := 10%nat.
Definition id_dynrel : sid := 11%nat.
Definition id_pltrel : sid := 12%nat.
Definition id_copyrel : sid := 13%nat.

(** Dereferencing a handle. *)
Fixpoint get_section (id : sid) (l : list section) : option section :=
  match l with
  | [] => None
  | s :: l' => if Nat.eqb (sc_id s) id then Some s else get_section id l'
  end.
(** Writing through a handle. *)
Definition upd_section (id : sid) (f : section -> section) (l : list section) : list section :=
  (fun s => if Nat.eqb (sc_id s) id then f s else s) <$> l.
(** [section.write().chunk_mut(i)] as read-modify-write; indexing panics. *)
Definition mod_chunk (id : sid) (i : nat) (f : chunk -> chunk) (l : list section) : res (list section) :=
  s ← unwrap (get_section id l);
  _ ← index (sc_chunks s) i;
  Ok (upd_section id (fun s => s <| sc_chunks := alter f i (sc_chunks s) |>) l).

Definition hdr_of (id : sid) (l : list section) : Shdr :=
  match get_section id l with Some s => sc_sh s | None => shdr0 end.

(** src/elf.rs:1243-1245 *)
Definition section_with_name (name : N) : Shdr := shdr0 <| sh_name := name |>.

(** ** fill_header implementations *)

(** src/elf/string_table.rs:95-101 *)
Definition fill_strtab (t : strtab) (sh : Shdr) : Shdr :=
  let sh := sh <| sh_type := SHT_STRTAB |> <| sh_addralign := 1 |> in
  match stt_section_strtab t with
  | Some i => sh <| sh_name := u32 i |>
  | None => sh
  end.
(** src/elf/symbol_table.rs:209-217 *)
Definition fill_symtab (t : symtab) (sh : Shdr) : Shdr :=
  sh <| sh_type := if syt_is_dynamic t then SHT_DYNSYM else SHT_SYMTAB |>
     <| sh_entsize := SYM_SIZE |>
     <| sh_flags := if syt_is_dynamic t then SHF_ALLOC else 0 |>
     <| sh_addralign := 8 |>.
(** src/elf/symbol_table.rs:315-324 *)
Definition fill_hash (sh : Shdr) : Shdr :=
  sh <| sh_type := SHT_HASH |> <| sh_entsize := 4 |> <| sh_flags := SHF_ALLOC |>
     <| sh_addralign := 4 |>.
(** src/elf/symbol_table.rs:430-438 *)
Definition fill_gnu_hash (sh : Shdr) : Shdr :=
  sh <| sh_type := SHT_GNU_HASH |> <| sh_entsize := 4 |> <| sh_flags := SHF_ALLOC |>
     <| sh_addralign := 4 |>.
(** src/elf/plt.rs:24-28 *)
Definition fill_plt (sh : Shdr) : Shdr :=
  sh <| sh_flags := SHF_ALLOC + SHF_EXECINSTR |> <| sh_type := SHT_PROGBITS |>
     <| sh_addralign := 8 |>.
(** src/elf/copy_rel.rs:28-35 *)
Definition fill_copyrel (sh : Shdr) : Shdr :=
  sh <| sh_type := SHT_NOBITS |> <| sh_flags := SHF_ALLOC + SHF_WRITE |> <| sh_addralign := 64 |>.

(** ** Writer::new *)

(** src/elf.rs:175-197 *)
Definition initial_ehdr : Ehdr :=
  mkEhdr [0x7f; 0x45; 0x4c; 0x46; 2; 1; EV_CURRENT; 0; 0; 0; 0; 0; 0; 0; 0; 0]
    ET_EXEC EM_X86_64 EV_CURRENT 0 EHDR_SIZE 0 0 EHDR_SIZE PHDR_SIZE 0 SHDR_SIZE 0 0.

Definition wants_sysv (h : hash_style) : bool := bool_decide (h = HSysv) || bool_decide (h = HBoth).
Definition wants_gnu (h : hash_style) : bool := bool_decide (h = HGnu) || bool_decide (h = HBoth).

(** src/elf.rs:173-377. Creating the output file (line 174) is an effect of
    [link]. [get_or_create(..).offset as u32] for each section name, in the
    order of the source. *)
Definition writer_new (opts : options) : res writer :=
  let names := st_with_name ".shstrtab" in                                   (* 198 *)
  let '(names, e_strtab) := st_get_or_create names ".strtab" in              (* 199 *)
  let '(names, e_dynstr) := st_get_or_create names ".dynstr" in              (* 201 *)
  let dyn_names := st_default in                                             (* 205 *)
  let loader := string_bytes (opt_dynamic_linker opts) ++ [0] in             (* 206-214 *)
  interp_name ← unwrap (file_name (opt_dynamic_linker opts));                (* 216 *)
  let '(dyn_names, interp_entry) := st_get_or_create dyn_names interp_name in
  let '(names, e_interp) := st_get_or_create names ".interp" in              (* 219 *)
  let interp_sh := mkShdr (u32 (en_offset e_interp)) SHT_PROGBITS SHF_ALLOC 0 0
                     (blen loader) 0 0 1 0 in
  let section := shdr0 <| sh_type := SHT_PROGBITS |> <| sh_flags := SHF_ALLOC + SHF_WRITE |>
                       <| sh_addralign := 8 |> in                             (* 228-233 *)
  let '(names, e_got) := st_get_or_create names ".got" in                    (* 235 *)
  let '(names, e_got_plt) := st_get_or_create names ".got.plt" in            (* 237 *)
  let '(names, e_plt) := st_get_or_create names ".plt" in                    (* 239 *)
  let '(names, e_symtab) := st_get_or_create names ".symtab" in              (* 245 *)
  let '(names, e_dynsym) := st_get_or_create names ".dynsym" in              (* 253 *)
  let '(names, e_dynamic) := st_get_or_create names ".dynamic" in            (* 259 *)
  let '(names, e_rela_dyn) := st_get_or_create names ".rela.dyn" in          (* 268 *)
  let '(names, e_rela_plt) := st_get_or_create names ".rela.plt" in          (* 277 *)
  let style := opt_hash_style opts in
  let '(names, o_hash) :=                                                    (* 288-296 *)
    if wants_sysv style
    then let '(names, e) := st_get_or_create names ".hash" in (names, Some (u32 (en_offset e)))
    else (names, None) in
  let '(names, o_gnu) :=                                                     (* 297-305 *)
    if wants_gnu style
    then let '(names, e) := st_get_or_create names ".gnu.hash" in (names, Some (u32 (en_offset e)))
    else (names, None) in
  let '(names, e_copyrel) := st_get_or_create names ".copyrel" in            (* 308 *)
  let off e := u32 (en_offset e) in
  let rel_sh nm := mkShdr nm SHT_RELA SHF_ALLOC 0 0 0 0 0 8 RELA_SIZE in      (* 267-283 *)
  let base := [                                                              (* 324-339 *)
    section_new 0 shdr0;
    mkSection id_shstr 0 None (Some KShstr) (fill_strtab names shdr0) [];
    mkSection id_symstr 0 None (Some KStr) (fill_strtab st_default (section_with_name (off e_strtab))) [];
    mkSection id_dynstr 0 None (Some KDynstr)
      (fill_strtab dyn_names (shdr0 <| sh_name := off e_dynstr |> <| sh_flags := SHF_ALLOC |>)) [];
    mkSection id_interp 0 None None interp_sh [chunk_new loader];
    section_new id_got (section <| sh_name := off e_got |>);
    section_new id_got_plt (section <| sh_name := off e_got_plt |>);
    mkSection id_plt 0 None (Some KPlt) (fill_plt (section <| sh_name := off e_plt |>)) [];
    mkSection id_sym 0 (Some id_symstr) (Some KSym)
      (fill_symtab (syt_new false) (section_with_name (off e_symtab))) [];
    mkSection id_dynsym 0 (Some id_dynstr) (Some KDynsym)
      (fill_symtab (syt_new true) (section_with_name (off e_dynsym))) [];
    mkSection id_dynamic 0 (Some id_dynstr) None
      (mkShdr (off e_dynamic) SHT_DYNAMIC (SHF_ALLOC + SHF_WRITE) 0 0 0 0 0 8 16) [];
    mkSection id_dynrel 0 (Some id_dynsym) None (rel_sh (off e_rela_dyn)) [];
    mkSection id_pltrel 0 (Some id_dynsym) None (rel_sh (off e_rela_plt)) [];
    mkSection id_copyrel 0 None (Some KCopyRel) (fill_copyrel (section_with_name (off e_copyrel))) []
  ] in
  let hash_id := match o_hash with Some _ => Some 14%nat | None => None end in
  let secs := match o_hash with                                              (* 341-343 *)
    | Some nm => base ++ [mkSection 14 0 (Some id_dynsym) (Some KHash)
                           (fill_hash (section_with_name nm)) []]
    | None => base end in
  let gnu_id := match o_gnu with Some _ => Some (length secs) | None => None end in
  let secs := match o_gnu with                                               (* 344-346 *)
    | Some nm => secs ++ [mkSection (length secs) 0 (Some id_dynsym) (Some KGnuHash)
                           (fill_gnu_hash (section_with_name nm)) []]
    | None => secs end in
  Ok (mkWriter initial_ehdr [] [] secs 1 [] [(DT_NEEDED, en_offset interp_entry)] []
        0x200000 0x200000 0 names st_default dyn_names (syt_new false) (syt_new true)
        [] (mkCopyrel 0 []) (if o_hash then Some ht_default else None)
        (if o_gnu then Some gt_default else None) hash_id gnu_id).

(** ** Adding input *)

(** src/elf.rs:381-419 *)
Definition add_section (w : writer) (name : string) (sh : Shdr) (data : option bytes)
  : res (writer * section_ref) :=
  let '(names, entry) := st_get_or_create (w_shstrtab w) name in
  let w := w <| w_shstrtab := names |> in
  if en_new entry then
    let id := length (w_sections w) in
    let hdr := sh <| sh_name := u32 (en_offset entry) |> <| sh_addr := 0 |> <| sh_offset := 0 |> in
    let s := section_new id hdr <| sc_chunks := [chunk_new (default [] data)] |> in
    Ok (w <| w_sections := w_sections w ++ [s] |>, mkSref id 0)
  else
    let i := N.to_nat (en_index entry) in
    s ← index (w_sections w) i;
    let s := s <| sc_sh := sc_sh s
                 <| sh_size := sh_size (sc_sh s) + sh_size sh |>
                 <| sh_addralign := N.max (sh_addralign (sc_sh s)) (sh_addralign sh) |> |> in
    match data with
    | Some d =>
        Ok (w <| w_sections := <[i := sec_add_chunk (chunk_new d) s]> (w_sections w) |>,
            mkSref (sc_id s) (length (sc_chunks s)))
    | None =>
        match sc_chunks s with
        | [] => Panic POverflow                                 (* len() - 1, section.rs:171 *)
        | _ => Ok (w <| w_sections := <[i := s]> (w_sections w) |>,
                   mkSref (sc_id s) (length (sc_chunks s) - 1)%nat)
        end
    end.

(** src/elf.rs:431-454. Returns the new string table, symbol table and
    sections, and the reference. *)
Definition add_symbol_inner (elf_sym : Sym) (sec : option section_ref) (name reference : string)
    (symbol_names : strtab) (symbols : symtab) (secs : list section)
  : res (strtab * symtab * list section * symref) :=
  let hash := elf_hash name in
  let gnu_hash := elf_gnu_hash name in
  let '(symbol_names, entry) := st_get_or_create symbol_names name in
  let elf_sym := elf_sym <| st_name := u32 (en_offset entry) |> in
  match syt_add_symbol symbols elf_sym hash gnu_hash reference with
  | inr p => Err (EAlreadyDefined name p)
  | inl (symbols, r) =>
      match sec with
      | Some sr =>
          if st_shndx elf_sym =? SHN_ABS then Ok (symbol_names, symbols, secs, r)
          else
            secs ← mod_chunk (sr_section sr) (sr_chunk sr) (chunk_add_symbol r) secs;
            Ok (symbol_names, symbols, secs, r)
      | None => Ok (symbol_names, symbols, secs, r)
      end
  end.

(** src/elf.rs:456-472 *)
Definition add_symbol (w : writer) (elf_sym : Sym) (sec_ref : option section_ref)
    (name reference : string) : res (writer * symref) :=
  '(names, symbols, secs, r) ← add_symbol_inner elf_sym sec_ref name reference
      (w_strtab w) (w_symtab w) (w_sections w);
  Ok (w <| w_strtab := names |> <| w_symtab := symbols |> <| w_sections := secs |>, r).

(** src/elf.rs:474-505 (callers pass no section, src/lib.rs:176) *)
Definition add_dyn_symbol (w : writer) (elf_sym : Sym) (sec_ref : option section_ref)
    (name reference : string) : res (writer * symref) :=
  let elf_sym := elf_sym <| st_shndx := SHN_UNDEF |> <| st_value := 0 |> in
  '(names, symbols, secs, r) ← add_symbol_inner elf_sym sec_ref name reference
      (w_dynstr w) (w_dynsym w) (w_sections w);
  let w := w <| w_dynstr := names |> <| w_dynsym := symbols |> <| w_sections := secs |> in
  match st_get (w_strtab w) name with
  | Some entry =>
      let sref := RNamed (u32 (en_offset entry)) in
      _ ← unwrap (syt_get (w_symtab w) sref);
      Ok (w <| w_symtab := syt_modify (w_symtab w) sref
                 (fun s => s <| s_dynamic := Some r |>) |>, r)
  | None => Ok (w, r)
  end.

(** src/elf.rs:507-515 *)
Definition symbol_name (w : writer) (r : symref) : res (option string) :=
  match r with
  | RNamed n => s ← unwrap (st_name_at (w_strtab w) n); Ok (Some s)
  | RSection _ _ => Ok None
  end.

(** src/elf.rs:517-529 *)
Definition is_unresolved (s : symbol) : bool :=
  (st_shndx (s_sym s) =? SHN_UNDEF) && (is_global s || is_weak s) && bool_decide (s_dynamic s = None).
Definition undefined_symbols (o : oracle) (w : writer) : list symref :=
  RNamed <$> filter (fun n => default false (is_unresolved <$> syt_symbols (w_symtab w) !! n) = true)
               (o_sym o (keys (syt_symbols (w_symtab w)))).

(** src/elf.rs:531-549 *)
Definition add_relocation (w : writer) (reloc : Rela) (r : symref) (sr : section_ref) : res writer :=
  let ty := r_type (r_info reloc) in
  if (ty =? R_X86_64_8) || (ty =? R_X86_64_16) || (ty =? R_X86_64_PC16) || (ty =? R_X86_64_PC8)
  then Err (ENotAbi ty)
  else
    secs ← mod_chunk (sr_section sr) (sr_chunk sr) (chunk_add_relocation reloc r) (w_sections w);
    Ok (w <| w_sections := secs |>).

(** src/elf.rs:563-573 *)
Definition add_needed (w : writer) (so_name : string) : writer :=
  let '(names, entry) := st_get_or_create (w_dynstr w) so_name in
  let w := w <| w_dynstr := names |> in
  if en_new entry
  then w <| w_dyn_entries := w_dyn_entries w ++ [(DT_NEEDED, en_offset entry)] |>
  else w.

(** ** Scanning relocations *)

Record scan_state := mkScan {
  sn_symbols : symtab; sn_got_len : N; sn_got_plt : list (symref * N); sn_plt : plt }.
Global Instance eta_scan : Settable _ :=
  settable! mkScan <sn_symbols; sn_got_len; sn_got_plt; sn_plt>.

(** src/elf.rs:766-773 *)
Definition needs_got (ty : N) : bool :=
  (ty =? R_X86_64_GOT32) || (ty =? R_X86_64_GOTPCREL) || (ty =? R_X86_64_GOTOFF64) ||
  (ty =? R_X86_64_GOTPC32) || (ty =? R_X86_64_GOTPCRELX) || (ty =? R_X86_64_REX_GOTPCRELX) ||
  (ty =? R_X86_64_TLSGD) || (ty =? R_X86_64_GOTTPOFF).

(** src/elf.rs:763-804, one relocation: returns the possibly rewritten relocation *)
Definition scan_reloc (st : scan_state) (x : Rela * symref) : res (scan_state * (Rela * symref)) :=
  let '(reloc, r) := x in
  let ty := r_type (r_info reloc) in
  if needs_got ty then
    sym ← unwrap (syt_get (sn_symbols st) r);
    match s_in_got sym with
    | Some _ => Ok (st, x)
    | None =>
        let off := sn_got_len st * 8 in
        let n := if is_tls sym && (ty =? R_X86_64_TLSGD) then 2 else 1 in
        Ok (st <| sn_symbols := syt_modify (sn_symbols st) r (fun s => s <| s_in_got := Some off |>) |>
               <| sn_got_len := sn_got_len st + n |>, x)
    end
  else if ty =? R_X86_64_PLT32 then
    sym ← unwrap (syt_get (sn_symbols st) r);
    match s_dynamic sym with
    | Some _ =>
        let len := blen (sn_got_plt st) + 3 in
        let '(got_plt, offset) := or_insert (sn_got_plt st) r (len * 8) in
        let '(plt, idx) := plt_insert (sn_plt st) r in
        Ok (mkScan (syt_modify (sn_symbols st) r
                     (fun s => s <| s_in_got_plt := Some offset |> <| s_in_plt := Some idx |>))
                   (sn_got_len st) got_plt plt, x)
    | None =>
        Ok (st, (reloc <| r_info := r_info reloc - ty + R_X86_64_PC32 |>, r))
    end
  else Ok (st, x).

(** Loops that update each element while threading a state. *)
Fixpoint mapM_st {S A} (f : S -> A -> res (S * A)) (l : list A) (s : S) : res (S * list A) :=
  match l with
  | [] => Ok (s, [])
  | a :: l' =>
      '(s, a) ← f s a;
      '(s, l') ← mapM_st f l' s;
      Ok (s, a :: l')
  end.

Definition scan_chunk (st : scan_state) (c : chunk) : res (scan_state * chunk) :=
  '(st, rels) ← mapM_st scan_reloc (c_relocations c) st;
  Ok (st, c <| c_relocations := rels |>).
Definition scan_section (st : scan_state) (s : section) : res (scan_state * section) :=
  '(st, cs) ← mapM_st scan_chunk (sc_chunks s) st;
  Ok (st, s <| sc_chunks := cs |>).

(** src/elf.rs:759-807 *)
Definition scan_relocations (w : writer) : res writer :=
  '(st, secs) ← mapM_st scan_section (w_sections w)
      (mkScan (w_symtab w) (w_got_len w) (w_got_plt w) (w_plt w));
  Ok (w <| w_sections := secs |> <| w_symtab := sn_symbols st |> <| w_got_len := sn_got_len st |>
        <| w_got_plt := sn_got_plt st |> <| w_plt := sn_plt st |>).

(** ** Sizing sections *)

(** src/elf.rs:575-580 *)
Definition resize_got_section (w : writer) : writer :=
  let data := zeros (8 * w_got_len w) in
  w <| w_sections := upd_section id_got (fun s =>
        sec_add_chunk (chunk_new data) (s <| sc_sh := sc_sh s <| sh_size := blen data |> |>))
        (w_sections w) |>.

(** src/elf.rs:582-589 *)
Definition resize_got_plt_section (w : writer) : writer :=
  let data := zeros (8 * (blen (w_got_plt w) + 3)) in
  w <| w_sections := upd_section id_got_plt (fun s =>
        sec_add_chunk (chunk_new data) (s <| sc_sh := sc_sh s <| sh_size := blen data |> |>))
        (w_sections w) |>.

Definition set_size (n : N) (s : section) : section := s <| sc_sh := sc_sh s <| sh_size := n |> |>.

(** [Section::expand] (src/elf/section.rs:245-250) dispatched to
    string_table.rs:103-105, symbol_table.rs:219-223, 326-331, 440-445,
    plt.rs:30-54 and copy_rel.rs:37-39. *)
Definition sec_expand (o : oracle) (w : writer) (s : section) : section :=
  match sc_synth s with
  | None => s
  | Some KShstr => set_size (stt_total_len (w_shstrtab w)) s
  | Some KStr => set_size (stt_total_len (w_strtab w)) s
  | Some KDynstr => set_size (stt_total_len (w_dynstr w)) s
  | Some KSym =>
      let s := sec_add_chunk (chunk_new (syt_chunk_data (o_sym o) (w_symtab w))) s in
      set_size (syt_total_len (w_symtab w))
        (s <| sc_sh := sc_sh s <| sh_info := u32 (syt_num_locals (w_symtab w)) |> |>)
  | Some KDynsym =>
      let s := sec_add_chunk (chunk_new (syt_chunk_data (o_dyn o) (w_dynsym w))) s in
      set_size (syt_total_len (w_dynsym w))
        (s <| sc_sh := sc_sh s <| sh_info := u32 (syt_num_locals (w_dynsym w)) |> |>)
  | Some KHash =>
      let data := ser_hashtab (default ht_default (w_hash w)) in
      sec_add_chunk (chunk_new data) (set_size (blen data) s)
  | Some KGnuHash =>
      let data := ser_gnutab (default gt_default (w_gnu_hash w)) in
      sec_add_chunk (chunk_new data) (set_size (blen data) s)
  | Some KPlt =>
      sec_add_chunk (chunk_new (plt_data (w_plt w))) (set_size ((blen (w_plt w) + 1) * 16) s)
  | Some KCopyRel => set_size (cr_size (w_copyrel w)) s
  end.

(** ** Dynamic relocations *)

Record dynrel_state := mkDynrel {
  dr_symbols : gmap N symbol;   (* .symtab names *)
  dr_dynsym : symtab; dr_copyrel : copyrel;
  dr_dyn_rels : list Rela; dr_plt_rels : list Rela }.
Global Instance eta_dynrel : Settable _ :=
  settable! mkDynrel <dr_symbols; dr_dynsym; dr_copyrel; dr_dyn_rels; dr_plt_rels>.

(** src/elf.rs:833-837: st_name -> position in the sorted dynamic symbols
    (collecting into a HashMap: the last position wins for equal names). *)
Definition dyn_sym_indices (sorted : list symbol) : gmap N nat :=
  list_to_map (reverse (imap (fun i s => (st_name (s_sym s), i)) sorted)).

(** src/elf.rs:844-867, loop body for the symbol with key [n] *)
Definition dynrel_step (indices : gmap N nat) (st : dynrel_state) (n : N) : res dynrel_state :=
  match dr_symbols st !! n with
  | None => Ok st
  | Some sym =>
      match s_dynamic sym with
      | None => Ok st
      | Some dyn_sym =>
          i ← unwrap (indices !! ref_st_name dyn_sym);
          let index := N.of_nat i in
          let st := match s_in_got sym with
                    | Some offset => st <| dr_dyn_rels := dr_dyn_rels st ++ [rela offset index R_X86_64_GLOB_DAT] |>
                    | None => st
                    end in
          dyn_symbol ← unwrap (syt_get (dr_dynsym st) dyn_sym);
          let st :=
            if is_object dyn_symbol then
              let '(cr, offset) := cr_insert (dr_copyrel st) dyn_sym (st_size (s_sym dyn_symbol)) in
              st <| dr_copyrel := cr |>
                 <| dr_dyn_rels := dr_dyn_rels st ++ [rela offset index R_X86_64_COPY] |>
                 <| dr_dynsym := syt_modify (dr_dynsym st) dyn_sym
                      (fun s => s <| s_sym := s_sym s <| st_value := offset |> |>) |>
            else st in
          Ok match s_in_got_plt sym with
             | Some offset =>
                 st <| dr_symbols := alter (fun s => s <| s_relocation_offset := Some (blen (dr_plt_rels st)) |>)
                                       n (dr_symbols st) |>
                    <| dr_plt_rels := dr_plt_rels st ++ [rela offset index R_X86_64_JUMP_SLOT] |>
             | None => st
             end
      end
  end.

(** src/elf.rs:1154-1168 *)
Definition dyn_entries (names : strtab) (sh : Shdr) : res N :=
  name ← unwrap (st_name_at names (sh_name sh));
  Ok (if bool_decide (name = ".init") || bool_decide (name = ".fini") || bool_decide (name = ".got.plt") then 1
      else if bool_decide (name = ".rela.dyn") then 4
      else if bool_decide (name = ".rela.plt") then 3
      else
        let ty := sh_type sh in
        if (ty =? SHT_DYNSYM) || (ty =? SHT_INIT_ARRAY) || (ty =? SHT_FINI_ARRAY) then 2
        else if (ty =? SHT_STRTAB) && (N.land (sh_flags sh) SHF_ALLOC =? SHF_ALLOC) then 2
        else if (ty =? SHT_HASH) || (ty =? SHT_GNU_HASH) then 1
        else 0).

(** src/elf.rs:1170-1204: the entries pushed for one section *)
Definition section_dyn_entries (names : strtab) (sh : Shdr) : res (list (N * N)) :=
  name ← unwrap (st_name_at names (sh_name sh));
  Ok (if bool_decide (name = ".init") then [(DT_INIT, sh_addr sh)]
      else if bool_decide (name = ".fini") then [(DT_FINI, sh_addr sh)]
      else if bool_decide (name = ".rela.dyn") then
        [(DT_RELA, sh_addr sh); (DT_RELAENT, sh_entsize sh); (DT_RELASZ, sh_size sh); (DT_RELACOUNT, 0)]
      else if bool_decide (name = ".rela.plt") then
        [(DT_JMPREL, sh_addr sh); (DT_PLTREL, DT_RELA); (DT_PLTRELSZ, sh_size sh)]
      else if bool_decide (name = ".got.plt") then [(DT_PLTGOT, sh_addr sh)]
      else
        let ty := sh_type sh in
        if ty =? SHT_DYNSYM then [(DT_SYMTAB, sh_addr sh); (DT_SYMENT, sh_entsize sh)]
        else if (ty =? SHT_STRTAB) && (N.land (sh_flags sh) SHF_ALLOC =? SHF_ALLOC) then
          [(DT_STRTAB, sh_addr sh); (DT_STRSZ, sh_size sh)]
        else if ty =? SHT_INIT_ARRAY then [(DT_INIT_ARRAY, sh_addr sh); (DT_INIT_ARRAYSZ, sh_size sh)]
        else if ty =? SHT_FINI_ARRAY then [(DT_FINI_ARRAY, sh_addr sh); (DT_FINI_ARRAYSZ, sh_size sh)]
        else if ty =? SHT_HASH then [(DT_HASH, sh_addr sh)]
        else if ty =? SHT_GNU_HASH then [(DT_GNU_HASH, sh_addr sh)]
        else []).

(** src/elf.rs:1090-1099 *)
Definition add_dyn_entries (w : writer) : res writer :=
  entries ← foldM (fun es s => new ← section_dyn_entries (w_shstrtab w) (sc_sh s); Ok (es ++ new))
              (w_sections w) (w_dyn_entries w);
  Ok (w <| w_dyn_entries := entries ++ [(DT_NULL, 0)] |>).

(** ** Ordering sections *)

(** src/elf.rs:1220-1236 *)
Definition section_cmp (s1 s2 : section) : comparison :=
  match sh_flags (sc_sh s1) ?= sh_flags (sc_sh s2) with
  | Eq => CompOpp (sh_addralign (sc_sh s1) ?= sh_addralign (sc_sh s2))
  | o => if sh_flags (sc_sh s1) =? 0 then Gt
         else if sh_flags (sc_sh s2) =? 0 then Lt
         else o
  end.

(** src/elf.rs:754-756 *)
Definition set_indices (l : list section) : list section :=
  imap (fun i s => s <| sc_index := N.of_nat i |>) l.

(** src/elf.rs:750-757 ([remove(0)] panics on an empty vector) *)
Definition sort_sections (o : oracle) (l : list section) : res (list section) :=
  match l with
  | [] => Panic PIndex
  | null_sect :: rest => Ok (set_indices (null_sect :: o_sort o rest))
  end.

(** ** Program headers *)

(** src/elf.rs:1106-1112 *)
Definition round_to (val multiple : N) : N :=
  if multiple =? 0 then val
  else let rem := val mod multiple in
       val + (if rem =? 0 then 0 else multiple - rem).

(** src/elf.rs:1114 *)
Definition PAGE_ALIGNMENT : N := 0x1000.

Definition has_flag (flags f : N) : bool := N.land (u32 flags) f =? f.

(** src/elf.rs:1116-1152. u64 additions are unbounded here. *)
Definition get_load_program_header (s : section) (file_offset p_vaddr : N) (extra : option N)
  : section * N * N * option N * option Phdr :=
  let flags := sh_flags (sc_sh s) in
  if has_flag flags SHF_ALLOC then
    let first_load := bool_decide (is_Some extra) in
    let extra_data := default 0 extra in
    let write := if has_flag flags SHF_WRITE then PF_W else 0 in
    let exec := if has_flag flags SHF_EXECINSTR then PF_X else 0 in
    let p_vaddr := round_to p_vaddr PAGE_ALIGNMENT in
    let s := sec_set_address (p_vaddr + extra_data) s in
    let file_offset := round_to file_offset PAGE_ALIGNMENT in
    let sh_size_on_disk := size_on_disk s + extra_data in
    let sh_off := if first_load then file_offset + extra_data else file_offset in
    let p_offset := if first_load then 0 else file_offset in
    let s := s <| sc_sh := sc_sh s <| sh_offset := sh_off |> |> in
    let size := sh_size (sc_sh s) + extra_data in
    (s, file_offset + sh_size_on_disk, p_vaddr + size, None,
     Some (mkPhdr PT_LOAD (N.lor (N.lor PF_R write) exec) p_offset p_vaddr p_vaddr
                  sh_size_on_disk size PAGE_ALIGNMENT))
  else (s, file_offset, p_vaddr, extra, None).

(** src/elf.rs:1206-1212 *)
Definition p_type_of (names : strtab) (sh : Shdr) : res (option N) :=
  if sh_type sh =? SHT_DYNAMIC then Ok (Some PT_DYNAMIC)
  else name ← unwrap (st_name_at names (sh_name sh));
       Ok (if bool_decide (name = ".interp") then Some PT_INTERP else None).

(** src/elf.rs:1002-1016 *)
Fixpoint count_load_headers (flags : N) (l : list section) : N :=
  match l with
  | [] => 0
  | s :: l' =>
      let f := sh_flags (sc_sh s) in
      if f =? flags then count_load_headers flags l'
      else (if has_flag f SHF_ALLOC then 1 else 0) + count_load_headers f l'
  end.
Definition count_program_headers (l : list section) : N := count_load_headers 0 (drop 1 l) + 3.

(** Loop state of src/elf.rs:1018-1074 *)
Record layout := mkLayout {
  ly_file_offset : N; ly_p_vaddr : N; ly_first : option N; ly_flags : N;
  ly_cur : option Phdr; ly_phs : list Phdr }.
Global Instance eta_layout : Settable _ :=
  settable! mkLayout <ly_file_offset; ly_p_vaddr; ly_first; ly_flags; ly_cur; ly_phs>.

(** src/elf.rs:1025-1053: placing one section *)
Definition layout_place (st : layout) (s : section) : layout * section :=
  let flags := sh_flags (sc_sh s) in
  if negb (flags =? ly_flags st) then
    let phs := match ly_cur st with Some ph => ly_phs st ++ [ph] | None => ly_phs st end in
    let '(s, fo, va, first, ph) :=
      get_load_program_header s (ly_file_offset st) (ly_p_vaddr st) (ly_first st) in
    match ph with
    | Some _ => (mkLayout fo va first flags ph phs, s)
    | None =>
        (mkLayout (fo + size_on_disk s) va first flags ph phs,
         s <| sc_sh := sc_sh s <| sh_offset := fo |> |>)
    end
  else
    let s := s <| sc_sh := sc_sh s <| sh_offset := ly_file_offset st |> |> in
    let st := st <| ly_file_offset := ly_file_offset st + size_on_disk s |> in
    match ly_cur st with
    | Some ph =>
        let ph := ph <| p_filesz := p_filesz ph + size_on_disk s |>
                     <| p_memsz := p_memsz ph + sh_size (sc_sh s) |> in
        (st <| ly_cur := Some ph |> <| ly_p_vaddr := ly_p_vaddr st + sh_size (sc_sh s) |>,
         sec_set_address (ly_p_vaddr st) s)
    | None => (st, s)
    end.

(** src/elf.rs:1024-1074: one iteration *)
Definition layout_step (names : strtab) (st : layout) (s : section) : res (layout * section) :=
  let old_p_vaddr := ly_p_vaddr st in
  let '(st, s) := layout_place st s in
  ty ← p_type_of names (sc_sh s);
  match ty with
  | Some t =>
      let write := if has_flag (sh_flags (sc_sh s)) SHF_WRITE then PF_W else 0 in
      let ph := mkPhdr t (N.lor PF_R write) (sh_offset (sc_sh s)) old_p_vaddr old_p_vaddr
                  (size_on_disk s) (sh_size (sc_sh s)) (sh_addralign (sc_sh s)) in
      Ok (st <| ly_phs := ph :: ly_phs st |>, s)
  | None => Ok (st, s)
  end.

(** src/elf.rs:1018-1088. A load header still open at the end of the loop is
    dropped, as in the code. *)
Definition generate_program_headers (w : writer) : res writer :=
  let program_headers_size := count_program_headers (w_sections w) * e_phentsize (w_eh w) in
  match w_sections w with
  | [] => Ok (w <| w_program_headers := mkPhdr PT_PHDR PF_R 0 0 0 0 0 8 :: w_program_headers w |>)
  | null_sect :: rest =>
      '(st, rest) ← mapM_st (layout_step (w_shstrtab w)) rest
         (mkLayout (w_file_offset w) (w_p_vaddr w) (Some (program_headers_size + EHDR_SIZE)) 0 None
                   (w_program_headers w));
      Ok (w <| w_sections := null_sect :: rest |>
            <| w_file_offset := ly_file_offset st |>
            <| w_p_vaddr := ly_p_vaddr st |>
            <| w_program_headers := mkPhdr PT_PHDR PF_R 0 0 0 0 0 8 :: ly_phs st |>)
  end.

(** ** Patching the PLT *)

(** src/elf.rs:623-663, one entry: state is (.plt chunk 0, .got.plt chunk 0).
    Addresses are below 2^63, so [as i64]/[as isize] are the identity. *)
Definition patch_plt_step (symbols : symtab) (plt_address got_plt_address : N)
    (st : bytes * bytes) (x : symref * N) : res (bytes * bytes) :=
  let '(plt_data, got_plt_data) := st in
  let '(r, offset) := x in
  sym ← unwrap (syt_get symbols r);
  pi ← unwrap (s_in_plt sym);
  entry ← plt_entry_addr plt_address pi;
  got_plt_data ← write_at got_plt_data offset (le_bytes_z 8 (entry + 6));
  let plt_entry_offset := Z.to_N (entry - Z.of_N plt_address) in
  let got_plt_entry_addr := Z.of_N (offset + got_plt_address) in
  rel ← to_i32 (got_plt_entry_addr - entry - 6);
  plt_data ← write_i32 plt_data (plt_entry_offset + 2) rel;
  relocation_offset ← unwrap (s_relocation_offset sym);
  plt_data ← write_at plt_data (plt_entry_offset + 6 + 1) (le_bytes 4 (u32 relocation_offset));
  plt0 ← to_i32 (Z.of_N plt_address - (entry + 16));
  plt_data ← write_i32 plt_data (plt_entry_offset + 6 + 5 + 1) plt0;
  Ok (plt_data, got_plt_data).

(** src/elf.rs:594-619: the PLT header *)
Definition patch_plt_header (plt_address got_plt_address : N) (plt_data : bytes) : res bytes :=
  let relative_got_plt := (Z.of_N got_plt_address - Z.of_N plt_address)%Z in
  v1 ← to_i32 (relative_got_plt + 8 - 6);
  plt_data ← write_i32 plt_data 2 v1;
  v2 ← to_i32 (relative_got_plt + 2 * 8 - 2 * 6);
  write_i32 plt_data (6 + 2) v2.

Definition set_chunk_data (i : nat) (d : bytes) (s : section) : section :=
  s <| sc_chunks := alter (fun c => c <| c_data := d |>) i (sc_chunks s) |>.

(** src/elf.rs:591-664, for a listing [entries] of the got_plt map *)
Definition patch_plt_and_got_plt_in (entries : list (symref * N)) (w : writer) : res writer :=
  plt_sec ← unwrap (get_section id_plt (w_sections w));
  got_plt_sec ← unwrap (get_section id_got_plt (w_sections w));
  let plt_address := sh_addr (sc_sh plt_sec) in
  let got_plt_address := sh_addr (sc_sh got_plt_sec) in
  plt_chunk ← index (sc_chunks plt_sec) 0;
  plt_data ← patch_plt_header plt_address got_plt_address (c_data plt_chunk);
  match entries with
  | [] => Ok (w <| w_sections := upd_section id_plt (set_chunk_data 0 plt_data) (w_sections w) |>)
  | _ =>
      got_chunk ← index (sc_chunks got_plt_sec) 0;
      '(plt_data, got_plt_data) ← foldM (patch_plt_step (w_symtab w) plt_address got_plt_address)
                                    entries (plt_data, c_data got_chunk);
      Ok (w <| w_sections := upd_section id_got_plt (set_chunk_data 0 got_plt_data)
                 (upd_section id_plt (set_chunk_data 0 plt_data) (w_sections w)) |>)
  end.
Definition patch_plt_and_got_plt (w : writer) : res writer :=
  patch_plt_and_got_plt_in (w_got_plt w) w.

(** ** Assigning addresses *)

(** src/elf.rs:819-824 *)
Definition fill_hash_tables (sorted : list symbol) (w : writer) : res writer :=
  w ← match w_hash w with
      | Some _ => h ← ht_add_symbols (s_hash <$> sorted); Ok (w <| w_hash := Some h |>)
      | None => Ok w
      end;
  match w_gnu_hash w with
  | Some _ => g ← gt_add_symbols (s_gnu_hash <$> sorted); Ok (w <| w_gnu_hash := Some g |>)
  | None => Ok w
  end.

(** src/elf.rs:844-867 *)
Definition build_dynrels (o : oracle) (sorted : list symbol) (w : writer) : res writer :=
  let names := syt_symbols (w_symtab w) in
  st ← foldM (dynrel_step (dyn_sym_indices sorted)) (o_sym o (keys names))
        (mkDynrel names (w_dynsym w) (w_copyrel w) (w_dyn_rels w) (w_plt_rels w));
  Ok (w <| w_symtab := w_symtab w <| syt_symbols := dr_symbols st |> |>
        <| w_dynsym := dr_dynsym st |> <| w_copyrel := dr_copyrel st |>
        <| w_dyn_rels := dr_dyn_rels st |> <| w_plt_rels := dr_plt_rels st |>).

(** src/elf.rs:875-878 *)
Definition size_dynamic (w : writer) : res writer :=
  extra ← foldM (fun n s => k ← dyn_entries (w_shstrtab w) (sc_sh s); Ok (n + k)) (w_sections w) 0;
  Ok (w <| w_sections := upd_section id_dynamic
        (set_size ((blen (w_dyn_entries w) + (extra + 1)) * 2 * 8)) (w_sections w) |>).

(** src/elf.rs:809-879: everything before sorting *)
Definition assign_sizes (o : oracle) (w : writer) : res writer :=
  w ← scan_relocations w;
  let w := resize_got_section w in
  let w := resize_got_plt_section w in
  let w := w <| w_sections := upd_section id_dynsym (sec_expand o w) (w_sections w) |> in
  let sorted := syt_sorted (o_dyn o) (w_dynsym w) in
  w ← fill_hash_tables sorted w;
  let w := w <| w_sections := (fun s => if sh_type (sc_sh s) =? SHT_DYNSYM then s else sec_expand o w s)
                              <$> w_sections w |> in
  w ← build_dynrels o sorted w;
  let w := w <| w_sections := upd_section id_pltrel (set_size (blen (w_plt_rels w) * RELA_SIZE))
                 (upd_section id_dynrel (set_size (blen (w_dyn_rels w) * RELA_SIZE)) (w_sections w)) |> in
  size_dynamic w.

(** src/elf.rs:881-887 *)
Definition assign_layout (o : oracle) (w : writer) : res writer :=
  secs ← sort_sections o (w_sections w);
  w ← generate_program_headers (w <| w_sections := secs |>);
  w ← add_dyn_entries w;
  patch_plt_and_got_plt w.

(** src/elf.rs:809-888 *)
Definition assign_section_addresses (o : oracle) (w : writer) : res writer :=
  w ← assign_sizes o w;
  assign_layout o w.

(** ** Special symbols *)

(** src/elf.rs:684-693 and 695-704: start/end symbols of one array section.
    State: the symbol table; the section is returned updated. *)
Definition bound_symbols (symbol_names : strtab) (start_name end_name : string)
    (t : symtab) (s : section) : res (symtab * section) :=
  s ← match st_get symbol_names start_name with
      | Some e =>
          _ ← index (sc_chunks s) 0;
          Ok (s <| sc_chunks := alter (chunk_add_symbol (RNamed (u32 (en_offset e)))) 0%nat (sc_chunks s) |>)
      | None => Ok s
      end;
  match st_get symbol_names end_name with
  | Some e =>
      let r := RNamed (u32 (en_offset e)) in
      _ ← unwrap (syt_get t r);
      let t := syt_modify t r (fun y => y <| s_sym := s_sym y <| st_value := size_on_disk s |> |>) in
      match sc_chunks s with
      | [] => Panic POverflow
      | cs => Ok (t, s <| sc_chunks := alter (chunk_add_symbol r) (length cs - 1)%nat cs |>)
      end
  | None => Ok (t, s)
  end.

(** src/elf.rs:680-706, one section *)
Definition special_step (symbol_names section_names : strtab) (skip : list N) (t : symtab) (s : section)
  : res (symtab * section) :=
  if bool_decide (sh_name (sc_sh s) ∈ skip) then Ok (t, s)
  else if bool_decide (st_sh_name section_names ".init_array" = Some (sh_name (sc_sh s))) then
    bound_symbols symbol_names "__init_array_start" "__init_array_end" t s
  else if bool_decide (st_sh_name section_names ".fini_array" = Some (sh_name (sc_sh s))) then
    bound_symbols symbol_names "__fini_array_start" "__fini_array_end" t s
  else Ok (t, s).

(** src/elf.rs:673-679 *)
Definition set_got_symbol (w : writer) : writer :=
  match st_get (w_strtab w) "_GLOBAL_OFFSET_TABLE_" with
  | Some e =>
      let gp := get_section id_got_plt (w_sections w) in
      let idx := match gp with Some s => u16 (sc_index s) | None => 0 end in
      let addr := sh_addr (hdr_of id_got_plt (w_sections w)) in
      w <| w_symtab := syt_modify (w_symtab w) (RNamed (u32 (en_offset e)))
             (fun s => s <| s_sym := s_sym s <| st_shndx := idx |> <| st_value := addr |> |>) |>
  | None => w
  end.

(** src/elf.rs:666-712 *)
Definition handle_special_symbols (w : writer) : res writer :=
  let w := set_got_symbol w in
  let skip := [sh_name (hdr_of id_symstr (w_sections w)); sh_name (hdr_of id_shstr (w_sections w))] in
  '(t, secs) ← mapM_st (special_step (w_strtab w) (w_shstrtab w) skip) (w_sections w) (w_symtab w);
  let w := w <| w_symtab := t |> <| w_sections := secs |> in
  let idx := match get_section id_copyrel (w_sections w) with Some s => sc_index s | None => 0 end in
  Ok (w <| w_dynsym := syt_update_object_symbols (w_dynsym w)
             (sh_addr (hdr_of id_copyrel (w_sections w))) idx |>).

(** ** Applying relocations *)

(** src/elf.rs:893-898: sections whose name is neither .symtab nor .dynsym *)
Definition relocatable (w : writer) (s : section) : bool :=
  negb (bool_decide (sh_name (sc_sh s) ∈
     [sh_name (hdr_of id_sym (w_sections w)); sh_name (hdr_of id_dynsym (w_sections w))])).

(** A fallible map over a list. *)
Fixpoint mapM_res {A B} (f : A -> res B) (l : list A) : res (list B) :=
  match l with
  | [] => Ok []
  | a :: l' => b ← f a; bs ← mapM_res f l'; Ok (b :: bs)
  end.

(** src/elf.rs:890-911 *)
Definition handle_relocations (w : writer) : res writer :=
  let got_address := sh_addr (hdr_of id_got (w_sections w)) in
  let plt_address := sh_addr (hdr_of id_plt (w_sections w)) in
  let t := fold_left (fun t s => if relocatable w s then patch_symbol_values s t else t)
             (drop 1 (w_sections w)) (w_symtab w) in
  let w := w <| w_symtab := t |> in
  secs ← mapM_res (fun s =>
      if relocatable w s then
        cs ← mapM_res (chunk_apply_relocations got_address plt_address (w_symtab w) (w_dynsym w)) (sc_chunks s);
        Ok (s <| sc_chunks := cs |>)
      else Ok s) (drop 1 (w_sections w));
  Ok (w <| w_sections := take 1 (w_sections w) ++ secs |>).

(** ** Final tables *)

(** src/elf.rs:738-743 *)
Definition adjust_rel (got_addr got_plt_addr copy_rel_addr : N) (rel : Rela) : Rela :=
  let ty := r_type (r_info rel) in
  if ty =? R_X86_64_GLOB_DAT then rel <| r_offset := r_offset rel + got_addr |>
  else if ty =? R_X86_64_JUMP_SLOT then rel <| r_offset := r_offset rel + got_plt_addr |>
  else if ty =? R_X86_64_COPY then rel <| r_offset := r_offset rel + copy_rel_addr |>
  else rel.

(** src/elf.rs:714-748 *)
Definition compute_tables (w : writer) : writer :=
  let add id data := upd_section id (sec_add_chunk (chunk_new data)) in
  let got_addr := sh_addr (hdr_of id_got (w_sections w)) in
  let got_plt_addr := sh_addr (hdr_of id_got_plt (w_sections w)) in
  let copy_rel_addr := sh_addr (hdr_of id_copyrel (w_sections w)) in
  let adj := adjust_rel got_addr got_plt_addr copy_rel_addr in
  let dyn_rels := adj <$> w_dyn_rels w in
  let plt_rels := adj <$> w_plt_rels w in
  let secs := add id_shstr (st_chunk_data (w_shstrtab w)) (w_sections w) in
  let secs := add id_symstr (st_chunk_data (w_strtab w)) secs in
  let secs := add id_dynstr (st_chunk_data (w_dynstr w)) secs in
  let secs := add id_dynamic (ser_dyns (w_dyn_entries w)) secs in
  let secs := add id_dynrel (dyn_rels ≫= ser_rela) secs in
  let secs := add id_pltrel (plt_rels ≫= ser_rela) secs in
  w <| w_sections := secs |> <| w_dyn_rels := dyn_rels |> <| w_plt_rels := plt_rels |>.

(** src/elf.rs:930-947 *)
Definition finish_header (w : writer) : res writer :=
  entry ← match st_get (w_strtab w) "_start" with
          | Some e => s ← unwrap (syt_get (w_symtab w) (RNamed (u32 (en_offset e))));
                      Ok (st_value (s_sym s))
          | None => Ok (e_entry (w_eh w))
          end;
  let shstrndx := match get_section id_shstr (w_sections w) with Some s => u16 (sc_index s) | None => 0 end in
  let eh := w_eh w <| e_entry := entry |>
                   <| e_shnum := u16 (blen (w_sections w)) |>
                   <| e_phnum := u16 (blen (w_program_headers w)) |>
                   <| e_shstrndx := shstrndx |>
                   <| e_shoff := w_file_offset w |> in
  match w_program_headers w with
  | [] => Panic PIndex
  | ph :: phs =>
      let sz := e_phnum eh * e_phentsize eh in
      if 2^16 <=? sz then Panic POverflow      (* u16 multiplication, line 944 *)
      else
        let va := e_phoff eh + w_start_p_vaddr w in
        let ph := ph <| p_offset := e_phoff eh |> <| p_memsz := sz |> <| p_filesz := sz |>
                     <| p_vaddr := va |> <| p_paddr := va |> in
        Ok (w <| w_eh := eh |> <| w_program_headers := ph :: phs |>)
  end.

(** src/elf.rs:921-948 *)
Definition compute_sections (o : oracle) (w : writer) : res writer :=
  w ← assign_section_addresses o w;
  w ← handle_special_symbols w;
  w ← handle_relocations w;
  finish_header (compute_tables w).

(** ** Writing the file *)

(** [Section::finalize] (src/elf/section.rs:252-263) with
    symbol_table.rs:225-229 and section.rs:132 ([CopyRel] expands). *)
Definition sec_finalize (o : oracle) (w : writer) (s : section) : res section :=
  s ← match sc_synth s with
      | Some KSym =>
          _ ← index (sc_chunks s) 0;
          Ok (s <| sc_chunks := <[0%nat := chunk_new (syt_chunk_data (o_sym o) (w_symtab w))]> (sc_chunks s) |>)
      | Some KDynsym =>
          _ ← index (sc_chunks s) 0;
          Ok (s <| sc_chunks := <[0%nat := chunk_new (syt_chunk_data (o_dyn o) (w_dynsym w))]> (sc_chunks s) |>)
      | Some KCopyRel => Ok (set_size (cr_size (w_copyrel w)) s)
      | _ => Ok s
      end;
  match sc_link s with
  | Some id =>
      l ← unwrap (get_section id (w_sections w));
      Ok (s <| sc_sh := sc_sh s <| sh_link := u32 (sc_index l) |> |>)
  | None => Ok s
  end.

(** src/elf.rs:958-986: the bytes written and the tracked offset *)
Fixpoint write_sections (l : list section) (out : bytes) (offset : N) : bytes * N :=
  match l with
  | [] => (out, offset)
  | s :: l' =>
      let '(out, offset) :=
        if offset <? sh_offset (sc_sh s)
        then (out ++ zeros (sh_offset (sc_sh s) - offset), sh_offset (sc_sh s))
        else (out, offset) in
      let out := out ++ (sc_chunks s ≫= c_data) in
      write_sections l' out (offset + size_on_disk s)
  end.

(** src/elf.rs:950-1000, the contents of the file. Finalizing all sections
    first is the same as finalizing each just before it is written: it reads
    only section indices and tables, and changes none of them nor any offset. *)
Definition write_to_disk (o : oracle) (w : writer) : res bytes :=
  secs ← mapM_res (sec_finalize o w) (w_sections w);
  let out := ser_ehdr (w_eh w) ++ (w_program_headers w ≫= ser_phdr) in
  let offset := EHDR_SIZE + blen (w_program_headers w) * PHDR_SIZE in
  let '(out, _) := write_sections secs out offset in
  Ok (out ++ (secs ≫= fun s => ser_shdr (sc_sh s))).
