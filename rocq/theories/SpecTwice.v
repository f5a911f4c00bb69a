(** Names defined in several sections (C87). *)
From Verif Require Export SpecSyms.

Global Instance lies_in_dec x y : Decision (lies_in x y).
Proof. unfold lies_in. apply _. Defined.
(** The sections of the inputs in which a symbol of that name is defined. *)
Definition homes (es : list (string * elf_obj)) (n : string) : list sec_in :=
  filter (fun x => si_name x <> "" /\ Exists (lies_in x) (named n (all_syms es))) (all_secs es).
(** Where the contribution of a section is in memory. *)
Definition base_of (w : writer) (secs : list section) (es : list (string * elf_obj)) (x : sec_in) (a : N) : Prop :=
  exists s off, the_sec w secs (si_name x) s /\ offset_of es x off /\ a = addr s + off.
(** The value is that of a definition of the name. *)
Definition value_of_a_definition (w : writer) (secs : list section) (es : list (string * elf_obj)) (n : string) (v : N) : Prop :=
  exists x y a, x ∈ homes es n /\ y ∈ named n (all_syms es) /\ lies_in x y /\ base_of w secs es x a /\ v = a + st_value (yi_sym y).
