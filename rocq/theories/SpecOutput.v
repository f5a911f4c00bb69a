(** The output as other programs see it: the file with its permission bits,
    the identification in its header, and the names of its sections. *)
From Verif Require Export SpecRun SpecArgs.

(** A file is its contents and its permission bits. A new file gets the bits
    [dflt]; opening an existing one for writing keeps its bits. *)
Definition file_step (dflt : N) (path : string) (f : option (bytes * N)) (e : effect) : option (bytes * N) :=
  match e with
  | ECreate p => if decide (p = path) then Some ([], match f with Some x => x.2 | None => dflt end) else f
  | EWrite p d => if decide (p = path) then (fun x => (x.1 ++ d, x.2)) <$> f else f
  | EChmod p m => if decide (p = path) then (fun x => (x.1, m)) <$> f else f
  end.
Definition file_after (dflt : N) (path : string) (before : option (bytes * N)) (l : list effect) : option (bytes * N) :=
  foldl (file_step dflt path) before l.

(** An x86-64 executable: the magic number, 64 bits, little endian, version 1,
    System V; ET_EXEC 2, EM_X86_64 62; and the sizes of the records. *)
Record x86_64_executable (h : Ehdr) : Prop := {
  xe_ident : e_ident h = [0x7f; 0x45; 0x4c; 0x46; 2; 1; 1; 0; 0; 0; 0; 0; 0; 0; 0; 0];
  xe_type : e_type h = 2;
  xe_machine : e_machine h = 62;
  xe_version : e_version h = 1;
  xe_flags : e_flags h = 0;
  xe_sizes : e_ehsize h = 64 /\ e_phentsize h = 56 /\ e_shentsize h = 64;
  xe_tables : e_phoff h = 64 }.

(** The name of section number [i], read from the file alone. Indices from
    0xff00 on have other meanings. *)
Definition section_name_in (data : bytes) (i : N) : option bytes :=
  h ← rd_ehdr data 0;
  if 0xff00 <=? e_shstrndx h then None else
  s ← rd_shdr data (e_shoff h + e_shentsize h * i);
  t ← rd_shdr data (e_shoff h + e_shentsize h * e_shstrndx h);
  if sh_type t =? 3 then if sh_name s <? sh_size t then cstr_at data (sh_offset t + sh_name s) else None else None.
