(** Archives that offer the same. *)
From Verif Require Export SpecArgs SpecStub.

(** The same index, and the same members as far as the index names them. *)
Definition offers_same (a b : archive) : Prop :=
  (forall n, ar_member_of_symbol b n = ar_member_of_symbol a n) /\ (forall n m, ar_member_of_symbol a n = Some m -> ar_get b m = ar_get a m).
(** As [stubbed], with archives that offer the same. *)
Record offered (wd wd' : world) (l : linker) : Prop := {
  of_objects : forall p, p ∈ lk_objects l -> wd_elf wd' p = wd_elf wd p;
  of_libs : forall p, p ∈ (opt_shared_libs (lk_options l)).*1 ->
    wd_elf wd' p = wd_elf wd p \/ exists a b, wd_elf wd p = Some (Some a) /\ wd_elf wd' p = Some (Some b) /\ stub_of a b;
  of_create : wd_can_create wd' = wd_can_create wd;
  of_archives : forall p, p ∈ lk_archives l ->
    wd_archive wd' p = wd_archive wd p \/ exists a b, wd_archive wd p = Some (Some a) /\ wd_archive wd' p = Some (Some b) /\ offers_same a b }.
