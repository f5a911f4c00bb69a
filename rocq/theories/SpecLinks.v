(** Sections that refer to other sections (C55, C59). *)
From Verif Require Export SpecSyms.

(** Which table the sh_link field of a section is about (gABI): the string
    table of a symbol table or of .dynamic, the symbol table of relocations
    and hash tables. *)
Definition link_targets : list (string * string) :=
  [(".symtab", ".strtab"); (".dynsym", ".dynstr"); (".dynamic", ".dynstr"); (".rela.dyn", ".dynsym"); (".rela.plt", ".dynsym"); (".hash", ".dynsym"); (".gnu.hash", ".dynsym")].
