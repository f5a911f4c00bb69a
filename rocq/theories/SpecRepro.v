(** Links repeated with other iteration orders (C68). *)
From Verif Require Export SpecArgs.

(** Sorting is a matter of headers: two lists with the same headers are
    rearranged in the same way. *)
Definition by_headers (f : list section -> list section) : Prop :=
  forall k k', sc_sh <$> k' = sc_sh <$> k -> exists p : list nat, Forall2 (fun i s => k !! i = Some s) p (f k) /\ Forall2 (fun i s => k' !! i = Some s) p (f k').

(** The records of a symbol table, one after the other, 24 bytes each: name,
    info, other, section index, value, size. *)
Definition sym_record (s : Sym) : bytes :=
  le_bytes 4 (st_name s) ++ le_bytes 1 (st_info s) ++ le_bytes 1 (st_other s) ++ le_bytes 2 (st_shndx s) ++ le_bytes 8 (st_value s) ++ le_bytes 8 (st_size s).

(** The names of the symbols read from objects. *)
Definition symbol_input (wd : world) (l : linker) (n : string) : Prop :=
  exists e sym, is_input wd l e /\ sym ∈ eo_syms e /\ eo_strtab e (st_name sym) = Some n.
(** No two of them have the same GNU hash, and none has hash zero. *)
Definition distinct_hashes (wd : world) (l : linker) : Prop :=
  (forall n n', symbol_input wd l n -> symbol_input wd l n' -> elf_gnu_hash n = elf_gnu_hash n' -> n = n') /\ (forall n, symbol_input wd l n -> elf_gnu_hash n <> 0).
