(** Specification vocabulary for string tables, independent of the model's
    bookkeeping: how a consumer reads a string table. *)
From Verif Require Export ModelTables.

(** The NUL-terminated string at the head of [l]; [None] if there is no NUL. *)
Fixpoint cstr (l : bytes) : option bytes :=
  match l with
  | [] => None
  | b :: l' => if b =? 0 then Some [] else (cons b) <$> cstr l'
  end.
(** The C string an ELF consumer reads at offset [off] of a string table. *)
Definition cstr_at (data : bytes) (off : N) : option bytes := cstr (drop (N.to_nat off) data).

(** Names as they occur in ELF files contain no NUL byte. *)
Definition nonul (name : string) : Prop := 0 ∉ string_bytes name.

(** Interning a sequence of names. *)
Definition intern (t : strtab) (name : string) : strtab := (st_get_or_create t name).1.
Definition intern_all (t : strtab) (names : list string) : strtab := fold_left intern names t.

(** The tables that occur: one of the two constructors followed by any
    sequence of interning. *)
Inductive st_reach : strtab -> Prop :=
| reach_default : st_reach st_default
| reach_with_name n : st_reach (st_with_name n)
| reach_intern t n : st_reach t -> st_reach (intern t n).

(** Distinct names in order of first occurrence. *)
Fixpoint first_occ (seen : list string) (names : list string) : list string :=
  match names with
  | [] => []
  | n :: ns => if decide (n ∈ seen) then first_occ seen ns else n :: first_occ (n :: seen) ns
  end.
