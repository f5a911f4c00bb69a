(** Functions called before the program starts and after it ends (C79). *)
From Verif Require Export SpecRun.

(** The words from [a] on. *)
Fixpoint words_at (m : memory) (a : N) (n : nat) : option (list N) :=
  match n with O => Some [] | S n' => v ← word m a; vs ← words_at m (a + 8) n'; Some (v :: vs) end.
(** Of several entries with one tag the last counts (glibc). *)
Definition last_value (es : list (N * N)) (t : N) : option N := last (filter (fun e => e.1 = t) es).*2.
(** The functions of the array that tags [t] (address) and [tsz] (size) give:
    those of DT_INIT_ARRAY 25 and DT_INIT_ARRAYSZ 27 the loader calls in order
    before the program, those of DT_FINI_ARRAY 26 and DT_FINI_ARRAYSZ 28 in
    reverse order after it. *)
Definition calls (p : process) (t tsz : N) : option (list N) :=
  es ← dynamic_table p;
  match last_value es t, last_value es tsz with Some a, Some sz => words_at (pr_mem p) a (N.to_nat (sz / 8)) | _, _ => Some [] end.
(** Section type (SHT_INIT_ARRAY 14, SHT_FINI_ARRAY 15) and tags. *)
Definition array_kinds : list (N * N * N) := [(14, 25, 27); (15, 26, 28)].
(** The sections of type [ty] are those called [n], and are loaded. *)
Record one_array (es : list (string * elf_obj)) (ty : N) (n : string) : Prop := {
  oa_name : n <> "" /\ n ∉ [".init"; ".fini"];
  oa_some : contribs n (all_secs es) <> [];
  oa_type : forall x, x ∈ all_secs es -> sh_type (si_sh x) = ty <-> si_name x = n;
  oa_load : forall x, x ∈ contribs n (all_secs es) -> N.testbit (sh_flags (si_sh x)) 1 = true }.
(** The bytes of that section type. *)
Definition array_bytes (es : list (string * elf_obj)) (n : string) : N := ntotal (si_size <$> contribs n (all_secs es)).
