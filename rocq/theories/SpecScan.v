(** Specification vocabulary for the relocation scan: which relocations there
    are, what each becomes, and the areas of the GOT and PLT a symbol owns. *)
From Verif Require Export SpecReloc ModelWriter.

(** All relocations of all sections, in file order. *)
Definition chunk_relocs (s : section) : list (Rela * symref) := sc_chunks s ≫= c_relocations.
Definition all_relocs (l : list section) : list (Rela * symref) := l ≫= chunk_relocs.

(** The types that reach their symbol through a GOT word. *)
Definition got_types : list N := [3; 9; 19; 22; 25; 26; 41; 42].
(** TLSGD needs two words (module and offset), every other type one. *)
Definition got_bytes (ty : N) : N := if decide (ty = 19) then 16 else 8.

(** Symbol [r] is referenced in [l] by a relocation of type [ty]. *)
Definition refers (l : list (Rela * symref)) (ty : N) (r : symref) : Prop :=
  exists rel, (rel, r) ∈ l /\ r_type (r_info rel) = ty.

(** What the scan turns relocation [rel] of symbol [r] into. *)
Definition scanned (t : symtab) (x x' : Rela * symref) : Prop :=
  x'.2 = x.2 /\ r_offset x'.1 = r_offset x.1 /\ r_addend x'.1 = r_addend x.1 /\
  r_info x'.1 =
    if decide (r_type (r_info x.1) = 4 /\ s_dynamic <$> syt_get t x.2 = Some None)
    then 2^32 * (r_info x.1 / 2^32) + 2 else r_info x.1.

(** No symbol has been given GOT or PLT space yet. *)
Definition no_slots (w : writer) : Prop :=
  w_got_len w = 1 /\ w_got_plt w = [] /\ w_plt w = [] /\
  forall r sym, syt_get (w_symtab w) r = Some sym ->
    s_in_got sym = None /\ s_in_plt sym = None /\ s_in_got_plt sym = None.

(** The chunk a reference points to. *)
Global Instance section_ref_eq_dec : EqDecision section_ref.
Proof. solve_decision. Defined.
Definition chunk_at (secs : list section) (sr : section_ref) : option chunk :=
  s ← get_section (sr_section sr) secs; sc_chunks s !! sr_chunk sr.
