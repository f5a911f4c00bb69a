(** Which locks a link takes, and when. Every section is behind a
    parking_lot [RwLock] (src/elf/section.rs:15); the model elsewhere updates
    sections directly, here the lock operations are listed in program order. *)
From Verif Require Export ModelWriter.

Inductive mode := Shared | Excl.
Global Instance mode_eq : EqDecision mode.
Proof. solve_decision. Defined.
(** [read()]/[write()] of a section, and the end of the guard's life. *)
Inductive lock_ev := Acq (m : mode) (i : sid) | Rel (m : mode) (i : sid).
(** A guard that lives around [body]. *)
Definition hold (m : mode) (i : sid) (body : list lock_ev) : list lock_ev := Acq m i :: body ++ [Rel m i].
Definition lrd (i : sid) : list lock_ev := hold Shared i [].
Definition lwr (i : sid) : list lock_ev := hold Excl i [].

(** * Loading *)

(** src/elf.rs:387-388 and 406-417. The guard of the string table is a
    temporary of line 388. *)
Definition lk_add_section (w : writer) (name : string) : list lock_ev :=
  lwr id_shstr ++
  match st_get (w_shstrtab w) name with
  | Some e => match w_sections w !! N.to_nat (en_index e) with Some s => lwr (sc_id s) | None => [] end
  | None => []
  end.
(** src/elf.rs:448-452, 463-470: both guards live until the call returns *)
Definition lk_add_symbol (sym : Sym) (sr : option section_ref) : list lock_ev :=
  hold Excl id_symstr (hold Excl id_sym
    match sr with
    | Some r => if st_shndx sym =? SHN_ABS then [] else lwr (sr_section r)
    | None => []
    end).
(** src/elf.rs:483-503. Without a section reference, as called (src/lib.rs:176). *)
Definition lk_add_dyn_symbol (w : writer) (name : string) : list lock_ev :=
  hold Excl id_dynstr (hold Excl id_dynsym []) ++
  hold Shared id_symstr match st_get (w_strtab w) name with Some _ => lwr id_sym | None => [] end.
(** src/elf.rs:547 *)
Definition lk_add_relocation (r : section_ref) : list lock_ev := lwr (sr_section r).
(** src/elf.rs:564-569 *)
Definition lk_add_needed : list lock_ev := lwr id_dynstr.
(** src/elf.rs:507-513 with the uses in src/lib.rs:166-170, 200-209, 266 *)
Definition lk_symbol_name : list lock_ev := lrd id_symstr.
(** src/elf.rs:517-529 *)
Definition lk_undefined : list lock_ev := lrd id_sym.

(** * Layout *)

(** src/elf.rs:782-797: a PLT32 relocation against a dynamic symbol *)
Definition plt_call (t : symtab) (x : Rela * symref) : bool :=
  (r_type (r_info x.1) =? R_X86_64_PLT32) &&
  match syt_get t x.2 with Some s => bool_decide (is_Some (s_dynamic s)) | None => false end.
(** src/elf.rs:759-807 *)
Definition lk_scan (w : writer) : list lock_ev :=
  w_sections w ≫= fun s => hold Excl (sc_id s) (sc_chunks s ≫= fun c =>
    hold Excl id_sym (c_relocations c ≫= fun x => if plt_call (w_symtab w) x then lwr id_plt else [])).
Definition lk_opt (o : option sid) : list lock_ev := match o with Some i => lwr i | None => [] end.
(** src/elf.rs:812-829; [dyn_syms] is dropped at line 841 only *)
Definition lk_expand (w : writer) : list lock_ev :=
  lwr id_got ++ lwr id_got_plt ++ lwr id_dynsym ++
  hold Shared id_dynsym (lk_opt (w_hash_id w) ++ lk_opt (w_gnu_hash_id w) ++
    (w_sections w ≫= fun s => lrd (sc_id s) ++ if sh_type (sc_sh s) =? SHT_DYNSYM then [] else lwr (sc_id s))).
(** src/elf.rs:847-863: one lock of .copyrel per copied object *)
Definition copies (w : writer) (n : N) : bool :=
  match syt_symbols (w_symtab w) !! n with
  | Some s => match s_dynamic s with
              | Some d => match syt_get (w_dynsym w) d with Some y => is_object y | None => false end
              | None => false
              end
  | None => false
  end.
(** src/elf.rs:843-879; [symbols] and [dyn_syms] are dropped before
    [section_names] *)
Definition lk_dynrels (o : oracle) (w : writer) : list lock_ev :=
  [Acq Excl id_sym; Acq Excl id_dynsym; Acq Shared id_shstr] ++
  (o_sym o (keys (syt_symbols (w_symtab w))) ≫= fun n => if copies w n then lwr id_copyrel else []) ++
  lwr id_dynrel ++ lwr id_pltrel ++
  [Rel Excl id_sym; Rel Excl id_dynsym] ++
  (w_sections w ≫= fun s => lrd (sc_id s)) ++ lwr id_dynamic ++
  [Rel Shared id_shstr].
(** src/elf.rs:750-757, 1220-1236. [cmps]: the pairs the sort compares. *)
Definition lk_sort (cmps : list (sid * sid)) (w : writer) : list lock_ev :=
  (cmps ≫= fun x => hold Shared x.1 (lrd x.2)) ++ (w_sections w ≫= fun s => lwr (sc_id s)).
(** src/elf.rs:1002-1017 and 1019-1087. [WGuard::downgrade] as release and
    immediate request. *)
Definition lk_headers (w : writer) : list lock_ev :=
  (drop 1 (w_sections w) ≫= fun s => lrd (sc_id s)) ++
  (drop 1 (w_sections w) ≫= fun s => lwr (sc_id s) ++ hold Shared (sc_id s) (lrd id_shstr)).
(** src/elf.rs:1089-1100, 1170-1171 *)
Definition lk_dyn_entries (w : writer) : list lock_ev := w_sections w ≫= fun s => hold Shared id_shstr (lrd (sc_id s)).
(** src/elf.rs:594-664 *)
Definition lk_patch_plt : list lock_ev :=
  lrd id_plt ++ lrd id_got_plt ++ hold Excl id_plt (hold Excl id_got_plt (lrd id_sym)).

(** * The rest *)

(** src/elf.rs:683-704: whether the section is an array with an end symbol *)
Definition ends_array (w : writer) (s : section) : bool :=
  if bool_decide (st_sh_name (w_shstrtab w) ".init_array" = Some (sh_name (sc_sh s)))
  then bool_decide (is_Some (st_get (w_strtab w) "__init_array_end"))
  else bool_decide (st_sh_name (w_shstrtab w) ".fini_array" = Some (sh_name (sc_sh s))) &&
       bool_decide (is_Some (st_get (w_strtab w) "__fini_array_end")).
(** src/elf.rs:666-712; the guards of lines 668-669 live until the end *)
Definition lk_special (w : writer) : list lock_ev :=
  let skip := [sh_name (hdr_of id_symstr (w_sections w)); sh_name (hdr_of id_shstr (w_sections w))] in
  hold Shared id_symstr (hold Shared id_shstr (
    lrd id_got_plt ++
    match st_get (w_strtab w) "_GLOBAL_OFFSET_TABLE_" with Some _ => hold Excl id_sym (lrd id_got_plt) | None => [] end ++
    hold Shared id_symstr (lrd id_shstr) ++
    (w_sections w ≫= fun s => lrd (sc_id s) ++
       if bool_decide (sh_name (sc_sh s) ∈ skip) then []
       else hold Excl (sc_id s) (if ends_array w s then lwr id_sym else [])) ++
    hold Shared id_copyrel (lwr id_dynsym))).
(** src/elf.rs:890-911 *)
Definition lk_relocations (w : writer) : list lock_ev :=
  lrd id_got ++ lrd id_plt ++ hold Shared id_sym (lrd id_dynsym) ++
  (drop 1 (w_sections w) ≫= fun s => lrd (sc_id s) ++ if relocatable w s then hold Excl id_sym (lwr (sc_id s)) else []) ++
  hold Shared id_sym (hold Shared id_dynsym
    (drop 1 (w_sections w) ≫= fun s => lrd (sc_id s) ++ if relocatable w s then lwr (sc_id s) else [])).
(** src/elf.rs:714-748; the guard of line 722 lives until the end *)
Definition lk_tables : list lock_ev :=
  ([id_shstr; id_symstr; id_dynstr] ≫= fun i => lrd i ++ lwr i) ++
  hold Excl id_dynamic (lrd id_got ++ lrd id_got_plt ++ lrd id_copyrel ++ lwr id_dynrel ++ lwr id_pltrel).
(** src/elf.rs:930-938 *)
Definition lk_entry (w : writer) : list lock_ev :=
  hold Shared id_symstr match st_get (w_strtab w) "_start" with Some _ => lrd id_sym | None => [] end ++ lrd id_shstr.
(** src/elf.rs:958-997 with src/elf/section.rs:252-263. [tr]: whether trace
    messages are enabled; otherwise the arguments at line 971 are not evaluated. *)
Definition lk_write (tr : bool) (w : writer) : list lock_ev :=
  (w_sections w ≫= fun s => hold Excl (sc_id s)
     ((if tr then lrd id_shstr else []) ++ match sc_link s with Some l => lrd l | None => [] end)) ++
  (w_sections w ≫= fun s => lwr (sc_id s)).

(** src/elf.rs:921-948, src/lib.rs:261-271: everything after loading *)
Definition lk_link (o : oracle) (cmps : list (sid * sid)) (tr : bool) (w : writer) : res (list lock_ev) :=
  w1 ← scan_relocations w;
  w2 ← assign_sizes o w;
  w5 ← assign_layout o w2;
  w6 ← handle_special_symbols w5;
  w7 ← handle_relocations w6;
  w8 ← finish_header (compute_tables w7);
  Ok (lk_scan w ++ lk_expand w1 ++ lk_dynrels o w1 ++ lk_sort cmps w2 ++ lk_headers w5 ++ lk_dyn_entries w5 ++ lk_patch_plt ++
      lk_special w5 ++ lk_relocations w6 ++ lk_tables ++ lk_entry w7 ++ lk_undefined ++ lk_write tr w8).
