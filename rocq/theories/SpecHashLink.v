(** What the hash sections of an output file must say about its .dynsym
    (C07, C09). *)
From Verif Require Export SpecHash SpecGot.

(** Libraries as linkers make them: exported names hold no NUL byte, and the
    local symbols are the unnamed ones. *)
Definition tidy_libs (wd : world) (l : linker) : Prop :=
  forall path e sym n, is_lib wd l path e -> sym ∈ eo_dynsyms e -> eo_dynstr e (st_name sym) = Some n ->
    nonul n /\ (binding sym = 0 <-> n = "").

(** The name of entry [j] of .dynsym; [None] when there is no such entry. *)
Definition dyn_name (dynsym dynstr : section) (j : N) : option bytes :=
  d ← rd_sym (contents dynsym) (24 * j); cstr_at (contents dynstr) (st_name d).
(** The loader compares the name it looks for with that. *)
Definition is_name (dynsym dynstr : section) (n : bytes) (j : N) : bool := bool_decide (dyn_name dynsym dynstr j = Some n).

(** Entries whose hashes fall into one of [nb] buckets are adjacent. *)
Definition buckets_adjacent (dynsym dynstr : section) (nb : N) : Prop :=
  forall i j k a b c, 1 <= i -> i <= j -> j <= k ->
    dyn_name dynsym dynstr i = Some a -> dyn_name dynsym dynstr j = Some b -> dyn_name dynsym dynstr k = Some c ->
    gnu_hash a mod nb = gnu_hash c mod nb -> gnu_hash b mod nb = gnu_hash a mod nb.
