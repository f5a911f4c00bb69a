(** Which relocations can be applied: by the number of the relocation type, the
    place, the addend, the value of the symbol, its slots and the instruction
    around the field. Plain arithmetic. *)
From Verif Require Export ModelChunk.

(** [v] is a signed number of [b] bits. *)
Definition signed (b : Z) (v : Z) : Prop := (- 2 ^ (b - 1) <= v < 2 ^ (b - 1))%Z.
(** The bytes [off..off+n] of [data]. *)
Definition bytes_at (data : bytes) (off n : N) : bytes := firstn (N.to_nat n) (skipn (N.to_nat off) data).
(** [mov foo@GOTPCREL(%rip), %reg] for a 64-bit register: REX.W or REX.WR, the
    opcode, a ModRM byte with mod 0 and r/m 5. *)
Definition mov_from_got (i : bytes) : Prop :=
  exists r m reg, i = [r; 0x8b; m] /\ (r = 0x48 \/ r = 0x4c) /\ reg < 8 /\ m = 8 * reg + 5.
(** The symbol's value: an imported symbol's is that of its dynamic entry. *)
Definition value_of (sym : symbol) (dyn : symtab) : option N :=
  match s_dynamic sym with
  | Some d => if N.eqb (st_shndx (s_sym sym)) 0 then match syt_get dyn d with Some s => Some (st_value (s_sym s)) | None => None end else Some (st_value (s_sym sym))
  | None => Some (st_value (s_sym sym))
  end.
(** [z] relative to [P] fits 32 bits, and [z] 64 bits. *)
Definition relative (z P : Z) : Prop := signed 64 z /\ signed 32 (z - P).
(** The symbol has a slot in the GOT and it is in reach. *)
Definition got_slot (sym : symbol) (got : N) (A P : Z) : Prop :=
  exists g, s_in_got sym = Some g /\ g < 2 ^ 63 /\ signed 64 (Z.of_N g + Z.of_N got) /\ relative (Z.of_N g + Z.of_N got + A) P.
(** The relocation can be applied to [data], placed at [addr]. *)
Definition can_apply (addr : N) (data : bytes) (rel : Rela) (sym : symbol) (dyn : symtab) (got plt : N) : Prop :=
  let off := r_offset rel in let A := r_addend rel in let P := Z.of_N (addr + off) in let room n := off + n <= N.of_nat (length data) in
  let ty := r_info rel mod 2 ^ 32 in
  exists S, value_of sym dyn = Some S /\ S < 2 ^ 63 /\ addr + off < 2 ^ 63 /\ got < 2 ^ 63 /\
   (ty = 0 \/
    ty = 1 /\ signed 64 (Z.of_N S + A) /\ room 8 \/
    room 4 /\
     (ty = 2 /\ relative (Z.of_N S + A) P \/
      ty = 3 /\ got_slot sym got A P \/
      ty = 4 /\ (exists i, s_in_plt sym = Some i /\ plt + 16 * (1 + i) < 2 ^ 63 /\ relative (Z.of_N (plt + 16 * (1 + i)) + A) P) \/
      ty = 10 /\ signed 32 (Z.of_N S + A) \/
      ty = 11 /\ signed 64 (Z.of_N S + A) \/
      (ty = 19 \/ ty = 22) /\ st_info (s_sym sym) mod 16 = 6 /\ got_slot sym got A P \/
      ty = 23 /\ signed 32 (Z.of_N S + A) \/
      (ty = 41 \/ ty = 42) /\ s_dynamic sym <> None /\ got_slot sym got A P \/
      ty = 41 /\ s_dynamic sym = None /\ 2 <= off /\ (bytes_at data (off - 2) 2 = [0xff; 0x15] \/ bytes_at data (off - 2) 2 = [0xff; 0x25]) /\ relative (Z.of_N S + A) P \/
      ty = 42 /\ s_dynamic sym = None /\ 3 <= off /\ mov_from_got (bytes_at data (off - 3) 3) /\ relative (Z.of_N S + A) P)).
