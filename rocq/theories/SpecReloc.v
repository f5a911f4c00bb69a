(** Specification vocabulary for relocations: the formulas of the x86-64
    psABI (table "Relocation Types") and the few instructions relaxation
    rewrites, decoded from their bytes. *)
From Verif Require Export SpecElf ModelChunk.

(** The run-time value of the symbol a relocation refers to: the one of the
    shared library's symbol when this link leaves the name undefined. *)
Definition target_value (sym : symbol) (dyn_table : symtab) : option N :=
  if decide (st_shndx (s_sym sym) = 0) then
    match s_dynamic sym with
    | Some d => (fun ds => st_value (s_sym ds)) <$> syt_get dyn_table d
    | None => Some (st_value (s_sym sym))
    end
  else Some (st_value (s_sym sym)).

(** Width in bytes and value prescribed for the relocated field. [slot] is the
    address G + GOT of the symbol's GOT entry, [entry] the address L of its PLT
    entry (absent when it has none). *)
Definition psabi (ty : N) (S A P : Z) (slot entry : option Z) : option (nat * Z) :=
  match ty with
  | 1 => Some (8%nat, S + A)%Z                                (* 64 *)
  | 2 => Some (4%nat, S + A - P)%Z                            (* PC32 *)
  | 4 => l ← entry; Some (4%nat, l + A - P)%Z                 (* PLT32 *)
  | 10 | 11 => Some (4%nat, S + A)%Z                          (* 32, 32S *)
  | 9 | 41 | 42 => g ← slot; Some (4%nat, g + A - P)%Z        (* GOTPCREL, GOTPCRELX, REX_GOTPCRELX *)
  | 19 | 22 => g ← slot; Some (4%nat, g + A - P)%Z            (* TLSGD, GOTTPOFF *)
  | _ => None
  end.

(** When the value fits its field (psABI: 32 must zero-extend, 32S and the
    pc-relative ones sign-extend to the value). *)
Definition fits_field (ty : N) (v : Z) : Prop :=
  match ty with
  | 1 => (- 2^63 <= v < 2^64)%Z
  | 10 => (0 <= v < 2^32)%Z
  | _ => (- 2^31 <= v < 2^31)%Z
  end.

(** Two's complement in [w] bytes. *)
Definition wrap (w : nat) (v : Z) : N := Z.to_N (v mod 2 ^ (8 * Z.of_nat w)).

(** The types the linker implements. *)
Definition supported : list N := [1; 2; 4; 10; 11; 41; 42; 19; 22].
(** Relaxation replaces the access through the GOT for symbols of this link. *)
Definition relaxed (ty : N) (sym : symbol) : Prop := (ty = 41 \/ ty = 42) /\ s_dynamic sym = None.

(** Address of PLT entry number [i] of a PLT at [base]: 16 bytes each, after a 16 byte header. *)
Definition plt_entry_at (base i : N) : Z := (Z.of_N base + 16 + 16 * Z.of_N i)%Z.

(** G + GOT and L of a symbol, for a GOT at [got] and a PLT at [plt]. *)
Definition slot_of (sym : symbol) (got : N) : option Z := (fun g => Z.of_N g + Z.of_N got)%Z <$> s_in_got sym.
Definition entry_of (sym : symbol) (plt : N) : option Z := plt_entry_at plt <$> s_in_plt sym.

(** The bytes a relocation may touch: its field, and the opcode before it when relaxed. *)
Definition span (rel : Rela) (sym : symbol) : N * N :=
  let ty := r_type (r_info rel) in
  let lo := if decide (relaxed ty sym) then r_offset rel - (if decide (ty = 41) then 2 else 3)
            else r_offset rel in
  let w := if decide (ty = 0) then 0 else if decide (ty = 1) then 8 else 4 in
  (lo, r_offset rel + w).
Definition apart (a b : N * N) : Prop := a.2 <= b.1 \/ b.2 <= a.1.

Definition same_on (r : N * N) (d d' : bytes) : Prop :=
  length d = length d' /\ forall k, r.1 <= k < r.2 -> d !! N.to_nat k = d' !! N.to_nat k.
Definition same_off (r : N * N) (d d' : bytes) : Prop :=
  length d = length d' /\ forall k, k < r.1 \/ r.2 <= k -> d !! N.to_nat k = d' !! N.to_nat k.

(** ** Instructions (Intel SDM): addresses are [base] + offset. *)
Inductive insn :=
| MovLoad (reg : N) (ea : Z)    (* mov r64, [ea] *)
| Lea (reg : N) (ea : Z)        (* lea r64, [ea] *)
| CallInd (ea : Z)              (* call [ea] *)
| JmpInd (ea : Z)               (* jmp [ea] *)
| CallRel (target : Z)
| JmpRel (target : Z)
| PushMem (ea : Z)              (* push qword [ea] *)
| PushImm (imm : Z).
(** Instruction at [off] of [data] loaded at [base], with its length.
    Opcodes: REX.W 8B /r and 8D /r with ModRM mod = 00, rm = 101
    (rip-relative); FF /2, /4 and /6 rip-relative; E8, E9 and 68. *)
Definition decode_at (base : Z) (data : bytes) (off : N) : option (insn * N) :=
  b0 ← rd 1 data off;
  if decide (b0 = 0xe8) then d ← rd_z 4 data (off + 1); Some (CallRel (base + Z.of_N off + 5 + d), 5)
  else if decide (b0 = 0xe9) then d ← rd_z 4 data (off + 1); Some (JmpRel (base + Z.of_N off + 5 + d), 5)
  else if decide (b0 = 0x68) then d ← rd_z 4 data (off + 1); Some (PushImm d, 5)
  else if decide (b0 = 0xff) then
    m ← rd 1 data (off + 1); d ← rd_z 4 data (off + 2);
    let ea := (base + Z.of_N off + 6 + d)%Z in
    if decide (m = 0x15) then Some (CallInd ea, 6)
    else if decide (m = 0x25) then Some (JmpInd ea, 6)
    else if decide (m = 0x35) then Some (PushMem ea, 6)
    else None
  else if decide (0x48 <= b0 < 0x50) then
    op ← rd 1 data (off + 1); m ← rd 1 data (off + 2); d ← rd_z 4 data (off + 3);
    let ea := (base + Z.of_N off + 7 + d)%Z in
    let reg := 8 * ((b0 / 4) mod 2) + (m / 8) mod 8 in
    if decide (m / 64 = 0 /\ m mod 8 = 5) then
      if decide (op = 0x8b) then Some (MovLoad reg ea, 7)
      else if decide (op = 0x8d) then Some (Lea reg ea, 7)
      else None
    else None
  else None.
