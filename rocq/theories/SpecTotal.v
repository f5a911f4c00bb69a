(** Inputs the linker can read through: what object files, archives and
    libraries must satisfy for reading them never to crash. *)
From Verif Require Export SpecLink SpecArgs.

(** An object file whose tables point inside the file. Sections of the types
    that are not copied (symbol and string tables, relocations, dynamic
    sections) do not matter; zero-fill sections (type 8) take no room in the
    file, have a name, and do not use the name of one of the linker's own
    sections; relocations name a symbol of the file. *)
Record sound_object (e : elf_obj) : Prop := {
  so_range : forall sh, sh ∈ eo_shdrs e -> sh_type sh ∉ [2; 11; 3; 4; 6; 9; 10; 8] -> sh_offset sh + sh_size sh <= N.of_nat (length (eo_data e));
  so_fill : forall sh name, sh ∈ eo_shdrs e -> sh_type sh = 8 -> eo_shstr e (sh_name sh) = Some name -> name <> "" /\ name ∉ reserved;
  so_rels : forall idx rels rel, (idx, rels) ∈ eo_relocs e -> rel ∈ rels -> gr_sym rel <> 0 -> 0 < idx /\ gr_sym rel < N.of_nat (length (eo_syms e)) }.
(** All inputs: objects and members are sound, what the index of an archive
    names is an object file in that archive, libraries are ELF files, and
    libraries and the dynamic linker have a file name. *)
Record sound_inputs (wd : world) (l : linker) : Prop := {
  sd_objects : forall e, is_input wd l e -> sound_object e;
  sd_archives : forall p ar name m, p ∈ lk_archives l -> wd_archive wd p = Some (Some ar) -> ar_member_of_symbol ar name = Some m ->
    exists o, ar_get ar m = Some o /\ forall e, o = Some e -> eo_is_object e = true;
  sd_libs : forall p, p ∈ (opt_shared_libs (lk_options l)).*1 -> wd_elf wd p <> Some None /\ file_name p <> None;
  sd_loader : file_name (opt_dynamic_linker (lk_options l)) <> None }.
(** The names all together fit a table addressed by 32 bits: each takes its
    characters and a terminator, and the table starts with a terminator. *)
Definition room (U : list string) : N := 1 + foldr (fun n k => N.of_nat (String.length n) + 1 + k) 0 U.
