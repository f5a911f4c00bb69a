(** How input sections make up output sections (C40, C45, C59). *)
From Verif Require Export SpecTrace SpecGot.

(** The objects and additions of the resolution phase of a link. *)
Definition loading (wd : world) (lo : lib_oracle) (l : linker) (fuel : nat) (es : list (string * elf_obj)) (evs : list event) : Prop :=
  exists w, resolve wd lo l fuel = Ok w /\ reads wd l es evs w.

(** A relocation counts for the section before its relocation section. *)
Definition about (x : sec_in) (r : rel_in) : Prop := ri_obj r = si_obj x /\ N.to_nat (ri_idx r - 1) = si_idx x.
(** Its type (a 32-bit number) and the bytes it may change: the field, and the
    opcode before it for the relaxable types 41 and 42. *)
Definition rel_type (r : greloc) : N := gr_type r mod 2^32.
Definition rel_span (r : greloc) : N * N :=
  let ty := rel_type r in
  (gr_offset r - (if decide (ty = 41) then 2 else if decide (ty = 42) then 3 else 0),
   gr_offset r + (if decide (ty = 0) then 0 else if decide (ty = 1) then 8 else 4)).
(** [d] is the contents of [x] but for its relocated fields. *)
Definition built_from (rels : list rel_in) (x : sec_in) (d : bytes) : Prop :=
  blen d = si_size x /\
  forall k, (forall r, r ∈ rels -> about x r -> k < (rel_span (ri_rel r)).1 \/ (rel_span (ri_rel r)).2 <= k) ->
    d !! N.to_nat k = si_bytes x !! N.to_nat k.
