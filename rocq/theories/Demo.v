(** Small inputs to link: used by the examples beside the theorems and as
    witnesses. Nothing here is a model of the code. *)
From Verif Require Export ModelArgs.

(** Iteration orders: insertion order everywhere; a correct (stable) section sort. *)
Definition demo_le (a b : section) : bool := match section_cmp a b with Gt => false | _ => true end.
Definition demo_oracle : oracle := mkOracle id id (sort_by demo_le).
Definition demo_lib_oracle : lib_oracle := mkLibOracle demo_oracle (fun _ => id) (fun _ _ => id).

Fixpoint name_index (name : string) (l : list string) : nat :=
  match l with [] => 0 | x :: l' => if decide (name = x) then 0 else S (name_index name l') end%nat.

(** An input section: name, type, flags, size, alignment and contents. *)
Record dsec := mkDsec { ds_name : string; ds_type : N; ds_flags : N; ds_size : N; ds_align : N; ds_data : bytes }.
Definition progbits (name : string) (flags align : N) (data : bytes) : dsec :=
  mkDsec name SHT_PROGBITS flags (blen data) align data.
Definition nobits (name : string) (flags align size : N) : dsec := mkDsec name SHT_NOBITS flags size align [].
Definition relasec (name : string) : dsec := mkDsec name SHT_RELA 0 0 8 [].

Fixpoint demo_shdrs (off i : N) (l : list dsec) : list Shdr :=
  match l with
  | [] => []
  | s :: l' => mkShdr i (ds_type s) (ds_flags s) 0 off (ds_size s) 0 0 (ds_align s) 0
               :: demo_shdrs (off + blen (ds_data s)) (i + 1) l'
  end.

(** Section [0] is the null section; a name's offset is its position. *)
Definition demo_obj (secs : list dsec) (syms : list (string * Sym)) (relocs : list (N * list greloc)) : elf_obj :=
  let names := "" :: (fst <$> syms) in
  mkElfObj true (secs ≫= ds_data) (shdr0 :: demo_shdrs 0 1 secs)
    (fun n => ("" :: (ds_name <$> secs)) !! N.to_nat n)
    (sym0 :: ((fun x => x.2 <| st_name := N.of_nat (name_index x.1 names) |>) <$> syms))
    (fun n => names !! N.to_nat n) [] (fun _ => None) relocs.
Definition demo_lib (syms : list (string * Sym)) : elf_obj :=
  let names := "" :: (fst <$> syms) in
  mkElfObj false [] [] (fun _ => None) [] (fun _ => None)
    (sym0 :: ((fun x => x.2 <| st_name := N.of_nat (name_index x.1 names) |>) <$> syms))
    (fun n => names !! N.to_nat n) [].

Definition demo_world (files : list (string * elf_obj)) (archives : list (string * archive)) : world :=
  mkWorld (fun p => Some <$> ModelTables.assoc p files) (fun p => Some <$> ModelTables.assoc p archives) true.

(** A symbol: info, section, value, size. *)
Definition dsym (info shndx value size : N) : Sym := mkSym 0 info 0 shndx value size.

Definition demo_linker (objs libs : list string) : linker :=
  mkLinker (options_default <| opt_shared_libs := (fun l => (l, false)) <$> libs |>) objs [].
Definition demo_run (files : list (string * elf_obj)) (objs libs : list string) : res writer :=
  link_writer (demo_world files []) demo_lib_oracle (demo_linker objs libs) 10.

(** A program calling [foo] of a shared library through the PLT and reading
    [bar], an object of the library, through the GOT. *)
Definition demo_main : elf_obj := demo_obj
  [progbits ".text" 6 16 [0xe8; 0; 0; 0; 0; 0x48; 0x8b; 0x05; 0; 0; 0; 0; 0xc3]; relasec ".rela.text";
   progbits ".data" 3 8 [1; 2; 3; 4; 0; 0; 0; 0]; nobits ".bss" 3 8 16]
  [("_start", dsym 0x12 1 0 13); ("foo", dsym 0x10 0 0 0); ("bar", dsym 0x10 0 0 0); ("d", dsym 0x11 3 4 4)]
  [(2, [mkGreloc 1 (Some (-4)%Z) 2 4; mkGreloc 8 (Some (-4)%Z) 3 42])].
Definition demo_libfoo : elf_obj := demo_lib [("foo", dsym 0x12 7 0x1000 6); ("bar", dsym 0x11 8 0x2000 24)].
Definition demo_files : list (string * elf_obj) := [("a.o", demo_main); ("/l/libfoo.so", demo_libfoo)].
Definition demo_main_run : res writer := demo_run demo_files ["a.o"] ["/l/libfoo.so"].
Example demo_main_links : exists w, demo_main_run = Ok w.
Proof. eexists. vm_compute. reflexivity. Qed.
