(** What the place of a crash is described with. *)
From Verif Require Export SpecTotal SpecGot.

(** Symbols that stand for a section (type 3) have no name of their own. *)
Definition plain_section_symbols (wd : world) (l : linker) : Prop :=
  forall e sym name, is_input wd l e -> sym ∈ eo_syms e -> st_info sym mod 16 = 3 -> eo_strtab e (st_name sym) = Some name -> name = "".
(** The tables of names stay below 4 GB, that of the imported names below a
    twelfth of it. *)
Definition short_tables (wd : world) (lo : lib_oracle) (l : linker) (fuel : nat) : Prop :=
  forall w, resolve wd lo l fuel = Ok w -> stt_total_len (w_shstrtab w) < 2 ^ 32 /\ 12 * stt_total_len (w_dynstr w) < 2 ^ 32.
(** Some input has a relocation with that offset, addend and type; a call
    through the PLT (type 4) may have become a direct one (type 2). *)
Definition of_input (wd : world) (l : linker) (rel : Rela) : Prop :=
  exists e idx rels g, is_input wd l e /\ (idx, rels) ∈ eo_relocs e /\ g ∈ rels /\ gr_sym g <> 0 /\
    r_offset rel = gr_offset g /\ r_addend rel = default 0%Z (gr_addend g) /\
    (r_info rel mod 2 ^ 32 = gr_type g mod 2 ^ 32 \/ gr_type g mod 2 ^ 32 = 4 /\ r_info rel mod 2 ^ 32 = 2).
(** The inputs have no relocations. *)
Definition no_relocations (wd : world) (l : linker) : Prop :=
  forall e idx rels, is_input wd l e -> (idx, rels) ∈ eo_relocs e -> rels = [].
(** All steps up to the layout have succeeded: sizes, order, program headers and
    dynamic entries. *)
Definition laid_out (o : oracle) (wr w4 : writer) : Prop :=
  exists w1 secs w3, assign_sizes o wr = Ok w1 /\ sort_sections o (w_sections w1) = Ok secs /\
    generate_program_headers (w1 <| w_sections := secs |>) = Ok w3 /\ add_dyn_entries w3 = Ok w4.
(** Two versions of a symbol that differ at most in its section and value. *)
Definition alike (s s' : symbol) : Prop :=
  s_in_got s' = s_in_got s /\ s_in_plt s' = s_in_plt s /\ s_dynamic s' = s_dynamic s /\ st_info (s_sym s') = st_info (s_sym s) /\ st_name (s_sym s') = st_name (s_sym s).
