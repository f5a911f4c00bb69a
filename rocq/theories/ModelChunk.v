(** Chunks and relocation application (src/elf/chunk.rs). *)
From Verif Require Export ModelTables.

(** src/elf/chunk.rs:11-16. The HashSet of symbol references is a duplicate-free
    list in insertion order; its only iteration (patch_symbol_values) is shown
    independent of the order. *)
Record chunk := mkChunk {
  c_address : option N;
  c_data : bytes;
  c_symbols : list symref;
  c_relocations : list (Rela * symref) }.
Global Instance eta_chunk : Settable _ :=
  settable! mkChunk <c_address; c_data; c_symbols; c_relocations>.

(** src/elf/chunk.rs:19-21 *)
Definition chunk_new (data : bytes) : chunk := mkChunk None data [] [].

(** src/elf/chunk.rs:23-25: HashSet insertion *)
Definition chunk_add_symbol (r : symref) (c : chunk) : chunk :=
  if decide (r ∈ c_symbols c) then c else c <| c_symbols := c_symbols c ++ [r] |>.

(** src/elf/chunk.rs:27-29 *)
Definition chunk_add_relocation (rel : Rela) (r : symref) (c : chunk) : chunk :=
  c <| c_relocations := c_relocations c ++ [(rel, r)] |>.

(** src/elf/chunk.rs:63-65 *)
Definition chunk_set_address (addr : N) (c : chunk) : chunk := c <| c_address := Some addr |>.

(** src/elf.rs:1238-1241 (PLT_ENTRY_SIZE = 16, src/elf.rs:71) *)
Definition plt_entry_addr (base_addr index : N) : res Z :=
  to_i64 (base_addr + 16 * (1 + index)).

(** A value written with [write_i32::<LittleEndian>] at [off]. *)
Definition write_i32 (data : bytes) (off : N) (v : Z) : res bytes :=
  write_at data off (le_bytes_z 4 v).

(** src/elf/chunk.rs:164-182: the opcode rewriting table of REX_GOTPCRELX:
    [REX 8b ModRM] (mov) to [REX 8d ModRM] (lea) for the sixteen
    rip-relative register forms. *)
Definition rex_relax (i : bytes) : option bytes :=
  match i with
  | [r; 0x8b; m] =>
      if (((r =? 0x48) || (r =? 0x4c)) &&
          ((m =? 0x05) || (m =? 0x1d) || (m =? 0x0d) || (m =? 0x15) ||
           (m =? 0x35) || (m =? 0x3d) || (m =? 0x25) || (m =? 0x2d)))%bool
      then Some [r; 0x8d; m] else None
  | _ => None
  end.

(** [&data[off..off+n]]; panics when out of range. *)
Definition slice (data : bytes) (off n : N) : res bytes :=
  if off + n <=? blen data then Ok (take (N.to_nat n) (drop (N.to_nat off) data)) else Panic PIndex.

(** [usize] subtraction: underflow panics. *)
Definition usub (a b : N) : res N := if b <=? a then Ok (a - b) else Panic POverflow.

(** src/elf/chunk.rs:104-109: the value S. *)
Definition reloc_S (symbol : symbol) (dyn_table : symtab) : res Z :=
  match s_dynamic symbol with
  | Some d =>
      if is_undefined symbol then
        ds ← unwrap (syt_get dyn_table d);
        to_i64 (st_value (s_sym ds))
      else to_i64 (st_value (s_sym symbol))
  | None => to_i64 (st_value (s_sym symbol))
  end.

(** G + GOT + A - P written as i32 (src/elf/chunk.rs:130-133,157-159,187-189,194-196,200-202) *)
Definition apply_got (data : bytes) (offset : N) (symbol : symbol) (got a p : Z) : res bytes :=
  g0 ← unwrap (s_in_got symbol);
  g ← to_i64 g0;
  x ← chk_i64 (g + got);
  y ← chk_i64 (x + a);
  z ← chk_i64 (y - p);
  v ← to_i32 z;
  write_i32 data offset v.

(** src/elf/chunk.rs:92-215. Relocation types that the code does not handle
    reach [unimplemented!]. i64 additions are checked (debug profile); the
    [as i64] of a GOT offset at lines 195/201 is modelled by the checked
    conversion used elsewhere (GOT offsets are far below 2^63). *)
Definition apply_relocation (chunk_address : N) (data : bytes) (rel : Rela) (symbol : symbol)
    (dyn_table : symtab) (got_address plt_address : N) : res bytes :=
  s ← reloc_S symbol dyn_table;
  let a := r_addend rel in
  (if 2^64 <=? chunk_address + r_offset rel then Panic POverflow else Ok tt) ≫= fun _ =>
  p ← to_i64 (chunk_address + r_offset rel);
  got ← to_i64 got_address;
  let l := s_in_plt symbol in
  let offset := r_offset rel in
  let ty := r_type (r_info rel) in
  if ty =? R_X86_64_NONE then Ok data
  else if ty =? R_X86_64_64 then
    v ← chk_i64 (s + a);
    write_at data offset (le_bytes_z 8 v)
  else if ty =? R_X86_64_32 then
    v ← chk_i64 (s + a);
    v ← to_i32 v;
    write_i32 data offset v
  else if ty =? R_X86_64_32S then
    v ← chk_i64 (s + a);
    write_i32 data offset (as_i32 v)
  else if ty =? R_X86_64_PC32 then
    x ← chk_i64 (s + a);
    y ← chk_i64 (x - p);
    v ← to_i32 y;
    write_i32 data offset v
  else if ty =? R_X86_64_GOT32 then
    apply_got data offset symbol got a p
  else if (ty =? R_X86_64_GOTPCRELX) && bool_decide (s_dynamic symbol = None) then
    start ← usub offset 2;
    x ← chk_i64 (s + a);
    y ← chk_i64 (x - p);
    v ← to_i32 y;
    op ← slice data start 2;
    if bool_decide (op = [0xff; 0x15]) then
      data ← write_at data start [0xe8];
      data ← write_i32 data (start + 1) v;
      write_at data (start + 5) [0x90]
    else if bool_decide (op = [0xff; 0x25]) then
      data ← write_at data start [0xe9];
      data ← write_i32 data (start + 1) v;
      write_at data (start + 5) [0x90]
    else Panic PUnreachable
  else if ty =? R_X86_64_GOTPCRELX then
    apply_got data offset symbol got a p
  else if ty =? R_X86_64_REX_GOTPCRELX then
    if bool_decide (s_dynamic symbol = None) then
      start ← usub offset 3;
      op ← slice data start 3;
      match rex_relax op with
      | None => Panic PUnreachable
      | Some instr =>
          data ← write_at data start instr;
          x ← chk_i64 (s + a);
          y ← chk_i64 (x - p);
          v ← to_i32 y;
          write_i32 data (start + 3) v
      end
    else apply_got data offset symbol got a p
  else if (ty =? R_X86_64_TLSGD) || (ty =? R_X86_64_GOTTPOFF) then
    if is_tls symbol then apply_got data offset symbol got a p else Panic PUnreachable
  else if ty =? R_X86_64_TPOFF32 then
    v ← chk_i64 (s + a);
    v ← to_i32 v;
    write_i32 data offset v
  else if ty =? R_X86_64_PLT32 then
    i ← unwrap l;
    le ← plt_entry_addr plt_address i;
    x ← chk_i64 (le + a);
    y ← chk_i64 (x - p);
    v ← to_i32 y;
    write_i32 data offset v
  else Panic PUnreachable.

(** src/elf/chunk.rs:43-61. [self.address.unwrap()] is inside the loop, so a
    chunk without relocations needs no address. *)
Definition chunk_apply_relocations (got_address plt_address : N) (table dyn_table : symtab)
    (c : chunk) : res chunk :=
  data ← foldM (fun data '(rel, r) =>
      addr ← unwrap (c_address c);
      sym ← unwrap (syt_get table r);
      apply_relocation addr data rel sym dyn_table got_address plt_address)
    (c_relocations c) (c_data c);
  Ok (c <| c_data := data |>).
