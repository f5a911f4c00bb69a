(** The same state with its hash sets listed in another order (C56). *)
From Verif Require Import SpecGot.

Definition relisted_chunk (c c' : chunk) : Prop :=
  c_address c' = c_address c /\ c_data c' = c_data c /\ c_relocations c' = c_relocations c /\ c_symbols c' ≡ₚ c_symbols c.
Definition relisted_sec (s s' : section) : Prop :=
  sc_id s' = sc_id s /\ sc_index s' = sc_index s /\ sc_link s' = sc_link s /\ sc_synth s' = sc_synth s /\ sc_sh s' = sc_sh s /\
  Forall2 relisted_chunk (sc_chunks s) (sc_chunks s').
Definition relisted (w w' : writer) : Prop :=
  w' = w <| w_sections := w_sections w' |> /\ Forall2 relisted_sec (w_sections w) (w_sections w').

(** What a link does after layout, up to the contents of the file. *)
Definition after_layout (o : oracle) (w : writer) : res bytes :=
  w ← handle_special_symbols w;
  w ← handle_relocations w;
  w ← finish_header (compute_tables w);
  write_to_disk o w.
