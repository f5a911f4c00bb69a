(** Section headers of the linker's own sections (C77). *)
From Verif Require Export SpecHashLink.

(** Name, type, flags (1 writable, 2 allocated, 4 executable) and entry size, as
    the gABI and the psABI (and, for .gnu.hash, glibc) have them. Tables whose
    entries are not read through sh_entsize have 0 here; .copyrel is this linker's name
    for a zero-fill section. *)
Definition prescribed : list (string * N * N * N) :=
  [(".shstrtab", 3, 0, 0); (".strtab", 3, 0, 0); (".dynstr", 3, 2, 0); (".interp", 1, 2, 0);
   (".got", 1, 2 + 1, 0); (".got.plt", 1, 2 + 1, 0); (".plt", 1, 2 + 4, 0);
   (".symtab", 2, 0, 24); (".dynsym", 11, 2, 24); (".dynamic", 6, 2 + 1, 16);
   (".rela.dyn", 4, 2, 24); (".rela.plt", 4, 2, 24); (".copyrel", 8, 2 + 1, 0);
   (".hash", 5, 2, 4); (".gnu.hash", 0x6ffffff6, 2, 4)].
