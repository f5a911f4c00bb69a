(** What a link reads, in order: the object files loaded and the sections,
    symbols and relocations each of them contributes. *)
From Verif Require Export SpecLink.

(** One section of a loaded object: number of the object, index in it, name,
    header and contents (none for zero-fill). *)
Record sec_in := mkSecIn { si_obj : nat; si_idx : nat; si_name : string; si_sh : Shdr; si_data : option bytes }.
(** One symbol: number of the object, the symbol, its name, the file it is from. *)
Record sym_in := mkSymIn { yi_obj : nat; yi_sym : Sym; yi_name : string; yi_file : string }.
(** One relocation: number of the object, index of the relocation section, the
    relocation and the symbol it is against. *)
Record rel_in := mkRelIn { ri_obj : nat; ri_idx : N; ri_rel : greloc; ri_sym : Sym }.

(** Contents of a section in its file: nothing for SHT_NOBITS (8), else the
    [sh_size] bytes at [sh_offset]. *)
Definition file_data (data : bytes) (sh : Shdr) : option bytes :=
  if sh_type sh =? 8 then None else Some (take (N.to_nat (sh_size sh)) (drop (N.to_nat (sh_offset sh)) data)).

(** Sections are copied unless they are of type SYMTAB 2, DYNSYM 11, STRTAB 3,
    RELA 4, DYNAMIC 6, REL 9 or SHLIB 10. *)
Definition copied (sh : Shdr) : bool := negb (bool_decide (sh_type sh ∈ [2; 11; 3; 4; 6; 9; 10])).

Definition obj_sec (k : nat) (e : elf_obj) (x : nat * Shdr) : option sec_in :=
  if copied x.2
  then (fun n => mkSecIn k x.1 n x.2 (file_data (eo_data e) x.2)) <$> eo_shstr e (sh_name x.2)
  else None.
Definition obj_secs (k : nat) (e : elf_obj) : list sec_in := omap (obj_sec k e) (imap pair (eo_shdrs e)).
Definition obj_sym (k : nat) (path : string) (e : elf_obj) (sym : Sym) : option sym_in :=
  (fun n => mkSymIn k sym n path) <$> eo_strtab e (st_name sym).
Definition obj_syms (k : nat) (path : string) (e : elf_obj) : list sym_in := omap (obj_sym k path e) (eo_syms e).
(** The relocation section [idx] is taken to describe section [idx - 1]. *)
Definition obj_rel (k : nat) (e : elf_obj) (idx : N) (rel : greloc) : option rel_in :=
  if gr_sym rel =? 0 then None
  else match eo_shdrs e !! N.to_nat (idx - 1), eo_syms e !! N.to_nat (gr_sym rel) with
       | Some sh, Some sym => if copied sh then Some (mkRelIn k idx rel sym) else None
       | _, _ => None
       end.
Definition obj_rels (k : nat) (e : elf_obj) : list rel_in :=
  eo_relocs e ≫= fun x => omap (obj_rel k e x.1) x.2.

(** The same for all loaded objects (file and object). *)
Definition all_secs (es : list (string * elf_obj)) : list sec_in := concat (imap (fun k x => obj_secs k x.2) es).
Definition all_syms (es : list (string * elf_obj)) : list sym_in := concat (imap (fun k x => obj_syms k x.1 x.2) es).
Definition all_rels (es : list (string * elf_obj)) : list rel_in := concat (imap (fun k x => obj_rels k x.2) es).

(** The objects on the command line that are object files. *)
Definition cmd_obj (wd : world) (p : string) : option (string * elf_obj) :=
  match wd_elf wd p with
  | Some (Some e) => if eo_is_object e then Some (p, e) else None
  | _ => None
  end.
Definition cmd_objs (wd : world) (l : linker) : list (string * elf_obj) := omap (cmd_obj wd) (lk_objects l).
(** A member of one of the archives. *)
Definition is_member (wd : world) (l : linker) (x : string * elf_obj) : Prop :=
  exists ar m, x.1 ∈ lk_archives l /\ wd_archive wd x.1 = Some (Some ar) /\ ar_get ar m = Some (Some x.2) /\ eo_is_object x.2 = true.

(** * What happens to them *)

(** An addition to the writer together with the reference it returned. *)
Inductive event :=
| EvSec (x : sec_in) (sr : section_ref)
| EvSym (x : sym_in) (o : option section_ref) (r : symref)
| EvRel (x : rel_in) (r : symref) (sr : section_ref)
| EvDyn (path : string) (e : elf_obj) (sym : Sym) (name so : string) (r : symref).

Definition rela_of (rel : greloc) : Rela :=
  mkRela (gr_offset rel) (u64 (gr_sym rel * 2^32) + gr_type rel) (default 0%Z (gr_addend rel)).

(** The writer's operation for an event. *)
Definition replay (w : writer) (v : event) (w' : writer) : Prop :=
  match v with
  | EvSec x sr => add_section w (si_name x) (si_sh x) (si_data x) = Ok (w', sr)
  | EvSym x o r => add_symbol w (yi_sym x) o (yi_name x) (yi_file x) = Ok (w', r)
  | EvRel x r sr => add_relocation w (rela_of (ri_rel x)) r sr = Ok w'
  | EvDyn path e sym name so r =>
      is_Some (st_get (w_strtab w) name) /\ exists w1, add_dyn_symbol w sym None name path = Ok (w1, r) /\ w' = add_needed w1 so
  end.
Inductive replays : writer -> list event -> writer -> Prop :=
| replays_nil w : replays w [] w
| replays_snoc w evs w1 v w2 : replays w evs w1 -> replay w1 v w2 -> replays w (evs ++ [v]) w2.

Definition sec_of (v : event) : option sec_in := match v with EvSec x _ => Some x | _ => None end.
Definition sym_of (v : event) : option sym_in := match v with EvSym x _ _ => Some x | _ => None end.
Definition rel_of (v : event) : option rel_in := match v with EvRel x _ _ => Some x | _ => None end.

(** Section [i] of object [k] got the reference [sr]. *)
Definition sec_event (evs : list event) (k i : nat) (sr : section_ref) : Prop :=
  exists x, EvSec x sr ∈ evs /\ si_obj x = k /\ si_idx x = i.
(** A symbol of object [k] with the given identifying fields got reference [r]. *)
Definition sym_event_of (evs : list event) (k : nat) (key : N * N * N * N * N) (r : symref) : Prop :=
  exists x o, EvSym x o r ∈ evs /\ yi_obj x = k /\ sym_key (yi_sym x) = key.

(** What is known of an event when it happens, [pre] being those before. *)
Definition event_ok (wd : world) (l : linker) (es : list (string * elf_obj)) (pre : list event) (v : event) : Prop :=
  match v with
  | EvSec x sr => True
  | EvSym x o r =>
      match o with
      | Some sr => sec_event pre (yi_obj x) (N.to_nat (st_shndx (yi_sym x))) sr
      | None => forall p e sh, es !! yi_obj x = Some (p, e) -> eo_shdrs e !! N.to_nat (st_shndx (yi_sym x)) = Some sh -> copied sh = false
      end
  | EvRel x r sr =>
      sec_event pre (ri_obj x) (N.to_nat (ri_idx x - 1)) sr /\ sym_event_of pre (ri_obj x) (sym_key (ri_sym x)) r
  | EvDyn path e sym name so r =>
      is_lib wd l path e /\ sym ∈ eo_dynsyms e /\ eo_dynstr e (st_name sym) = Some name /\ file_name path = Some so
  end.
Definition events_ok (wd : world) (l : linker) (es : list (string * elf_obj)) (evs : list event) : Prop :=
  forall pre v post, evs = pre ++ v :: post -> event_ok wd l es pre v.

(** The objects [es] are loaded in this order: those of the command line, then
    archive members; all their sections, symbols and relocations are added,
    each kind in order. *)
Record reads (wd : world) (l : linker) (es : list (string * elf_obj)) (evs : list event) (w : writer) : Prop := {
  ld_cmd : exists ms, es = cmd_objs wd l ++ ms /\ Forall (is_member wd l) ms;
  ld_run : exists w0, writer_new (lk_options l) = Ok w0 /\ replays w0 evs w;
  ld_secs : omap sec_of evs = all_secs es;
  ld_syms : omap sym_of evs = all_syms es;
  ld_rels : omap rel_of evs = all_rels es;
  ld_ok : events_ok wd l es evs }.

(** * Contributions *)

Definition ntotal (l : list N) : N := foldr N.add 0 l.
Definition nmax (l : list N) : N := foldr N.max 0 l.
(** The sections of that name, in the order they are added. *)
Definition contribs (n : string) (l : list sec_in) : list sec_in := filter (fun x => si_name x = n) l.
Definition si_size (x : sec_in) : N := sh_size (si_sh x).
Definition si_align (x : sec_in) : N := sh_addralign (si_sh x).
Definition si_bytes (x : sec_in) : bytes := default [] (si_data x).
