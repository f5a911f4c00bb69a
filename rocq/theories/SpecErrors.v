(** What an error of the linker says about its inputs. *)
From Verif Require Export SpecTrace SpecSyms.

(** A file of the command line cannot be read, or is not what it should be. *)
Definition unreadable (wd : world) (l : linker) : Prop :=
  (exists p, p ∈ lk_objects l /\ (wd_elf wd p = None \/ wd_elf wd p = Some None)) \/
  (exists p, p ∈ (opt_shared_libs (lk_options l)).*1 /\ wd_elf wd p = None) \/
  (exists p, p ∈ lk_archives l /\ (wd_archive wd p = None \/ wd_archive wd p = Some None)) \/
  (exists p ar n m, p ∈ lk_archives l /\ wd_archive wd p = Some (Some ar) /\ ar_member_of_symbol ar n = Some m /\ ar_get ar m = Some None).
(** A name is not in the string table it should be in: of a section that is
    copied, of a symbol, of a dynamic symbol of a library. *)
Definition nameless (wd : world) (l : linker) : Prop :=
  (exists e sh, is_input wd l e /\ sh ∈ eo_shdrs e /\ sh_type sh ∉ [2; 11; 3; 4; 6; 9; 10] /\ eo_shstr e (sh_name sh) = None) \/
  (exists e sym, is_input wd l e /\ sym ∈ eo_syms e /\ eo_strtab e (st_name sym) = None) \/
  (exists path e sym, is_lib wd l path e /\ sym ∈ eo_dynsyms e /\ eo_dynstr e (st_name sym) = None).
(** A relocation of one of the types R_X86_64_16 12, _PC16 13, _8 14 and _PC8 15. *)
Definition narrow_reloc (wd : world) (l : linker) (t : N) : Prop :=
  t ∈ [12; 13; 14; 15] /\ exists e idx rels rel, is_input wd l e /\ (idx, rels) ∈ eo_relocs e /\ rel ∈ rels /\
    gr_sym rel <> 0 /\ gr_type rel mod 2^32 = t.

(** Room the names need in a string table. *)
Definition names_room (ys : list sym_in) : N := 1 + foldr (fun y k => N.of_nat (String.length (yi_name y)) + 1 + k) 0 ys.
(** A symbol other than a section's, of that name. *)
Definition mentions (n : string) (y : sym_in) : Prop := yi_name y = n /\ typ (yi_sym y) <> 3.
Global Instance mentions_dec n y : Decision (mentions n y).
Proof. unfold mentions. apply _. Defined.
(** The run got as far as symbol [y], a global definition of [n]: of the symbols
    [ys] read before, the first to mention [n] is in file [p]; one of them is a
    definition of [n], and one is global. (For names that together are less
    than 4 GiB long.) *)
Definition twice (wd : world) (l : linker) (n p : string) : Prop :=
  exists es ms ys y rest, es = cmd_objs wd l ++ ms /\ Forall (is_member wd l) ms /\ all_syms es = ys ++ y :: rest /\
    mentions n y /\ binding (yi_sym y) = 1 /\ st_shndx (yi_sym y) <> 0 /\
    (n <> "" -> names_room (ys ++ [y]) < 2^32 ->
      yi_file <$> head (filter (mentions n) ys) = Some p /\
      (exists d, d ∈ ys /\ mentions n d /\ st_shndx (yi_sym d) <> 0) /\
      (exists g, g ∈ ys /\ mentions n g /\ binding (yi_sym g) = 1)).

(** The cause of an error. *)
Definition cause (wd : world) (l : linker) (e : lerror) : Prop :=
  match e with
  | EIo => unreadable wd l
  | ENoName => nameless wd l
  | ENotAbi t => narrow_reloc wd l t
  | EAlreadyDefined n p => twice wd l n p
  | EUndefined ns => ns <> []     (* and see C78 *)
  | EUsage _ => False
  end.
