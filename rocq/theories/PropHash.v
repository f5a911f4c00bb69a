(** C05-C09: symbol hashes and hash sections. *)
From Verif Require Import ProofGnuHash.

(** * C05 *)
Theorem C05_gabi_hash : forall name,
  elf_hash name = gabi_hash (string_bytes name) /\ elf_hash name < 2^28.
Proof. intros name. rewrite elf_hash_spec. split; [done|apply gabi_hash_lt]. Qed.
Print Assumptions C05_gabi_hash.

(** The published test value of the gABI hash, and a name long enough to wrap. *)
Example C05_printf : elf_hash "printf" = 0x077905a6.
Proof. by vm_compute. Qed.
Example C05_wraps : elf_hash "a_symbol_name_that_is_longer_than_eight" = gabi_hash (string_bytes "a_symbol_name_that_is_longer_than_eight").
Proof. by vm_compute. Qed.

(** * C06 *)
Theorem C06_gnu_hash : forall name,
  elf_gnu_hash name = gnu_hash (string_bytes name) /\ elf_gnu_hash name < 2^32.
Proof. intros name. rewrite elf_gnu_hash_spec. split; [done|apply gnu_hash_lt]. Qed.
Print Assumptions C06_gnu_hash.

Example C06_printf : elf_gnu_hash "printf" = 0x156b2bb8.
Proof. by vm_compute. Qed.

(** * C07 *)
(** For any hash [h] the loader may look for, the walk through the emitted
    section ends and visits exactly the non-null symbols of the bucket, once
    each. *)
Theorem C07_bucket_visits : forall hashes, N.of_nat (length hashes) < 2^32 ->
  exists t nb, ht_add_symbols hashes = Ok t /\ nb <> 0 /\ w32 (ser_hashtab t) 0 = Some nb /\
    forall h, exists y l,
      w32 (ser_hashtab t) (2 + h mod nb) = Some y /\ sysv_visits (ser_hashtab t) nb y l /\ NoDup l /\
      (forall i, i ∈ l <-> 1 <= i < N.of_nat (length hashes) /\
                           default 0 (hashes !! N.to_nat i) mod nb = h mod nb).
Proof. exact sysv_table. Qed.
Print Assumptions C07_bucket_visits.

(** Every symbol but the null one is found by name; other names are not found. *)
Theorem C07_lookup_by_name : forall names, N.of_nat (length names) < 2^32 ->
  exists t, ht_add_symbols (elf_hash <$> names) = Ok t /\
    (forall i name, (1 <= i)%nat -> names !! i = Some name ->
      exists j, sysv_lookup (ser_hashtab t) (fun j => bool_decide (names !! N.to_nat j = Some name)) (elf_hash name) = Some j
                /\ names !! N.to_nat j = Some name) /\
    (forall name, name ∉ drop 1 names ->
      sysv_lookup (ser_hashtab t) (fun j => bool_decide (names !! N.to_nat j = Some name)) (elf_hash name) = None).
Proof. exact sysv_finds. Qed.
Print Assumptions C07_lookup_by_name.

(** Five symbols, three buckets, with a collision. *)
Example C07_case : exists t, ht_add_symbols [0; 5; 8; 2; 7] = Ok t /\
  w32 (ser_hashtab t) 0 = Some 3 /\ sysv_visits (ser_hashtab t) 3 1 [1; 2; 3].
Proof.
  eexists. split; [by vm_compute|]. split; [by vm_compute|].
  repeat (eapply visits_step; [done|by vm_compute|]). constructor.
Qed.
Example C07_case_found : exists t, ht_add_symbols (elf_hash <$> [""; "printf"; "puts"; "main"]) = Ok t /\
  sysv_lookup (ser_hashtab t) (fun j => bool_decide ([""; "printf"; "puts"; "main"] !! N.to_nat j = Some "puts"))
    (elf_hash "puts") = Some 2.
Proof. eexists. split; [by vm_compute|]. by vm_compute. Qed.

(** * C08 *)
Theorem C08_bloom_no_false_negative : forall null syms, 12 * N.of_nat (length syms) < 2^32 ->
  Forall (fun g => g < 2^32) syms ->
  exists t, gt_add_symbols (null :: syms) = Ok t /\
    forall h, h ∈ syms -> bloom_pass (ser_gnutab t) h = Some true.
Proof. exact bloom_no_false_negative. Qed.
Print Assumptions C08_bloom_no_false_negative.

(** The filter is a filter: with two words it still rejects a hash not in it. *)
Example C08_case : exists t,
  gt_add_symbols (0 :: (elf_gnu_hash <$> ["a"; "b"; "c"; "d"; "e"; "f"; "g"; "h"; "i"; "j"; "k"])) = Ok t /\
  gt_bloom_size t = 2 /\ bloom_pass (ser_gnutab t) (elf_gnu_hash "k") = Some true /\
  bloom_pass (ser_gnutab t) (elf_gnu_hash "printf") = Some false.
Proof. eexists. split; [by vm_compute|]. by vm_compute. Qed.

(** * C09 *)
(** Full statement: for all [names] sorted the way the symbol table is, every
    name is found. It is false: symbols are sorted by hash, not by bucket, so
    with more than one bucket a chain ends too early. *)
Theorem C09_gnu_lookup_refuted : exists names t,
  NoDup names /\ StronglySorted N.le (elf_gnu_hash <$> names) /\
  gt_add_symbols (0 :: (elf_gnu_hash <$> names)) = Ok t /\
  exists i name, names !! i = Some name /\
    gnu_lookup (ser_gnutab t) (fun j => bool_decide (names !! (N.to_nat j - 1)%nat = Some name))
      (elf_gnu_hash name) = Some None.
Proof.
  exists ["a"; "b"; "c"; "d"; "e"; "f"; "g"]. eexists.
  split; [apply (bool_decide_unpack _); by vm_compute|].
  split; [repeat (constructor; [|repeat constructor; by vm_compute]); constructor|].
  split; [by vm_compute|]. exists 2%nat, "c". split; [by vm_compute|]. by vm_compute.
Qed.
Print Assumptions C09_gnu_lookup_refuted.

(** What holds: lookups succeed whenever symbols of one bucket are adjacent in
    the table, in particular (next theorem) with up to six symbols. Names that
    are not in the table are never found, in any case. Missing: tables with
    several buckets whose symbols are interleaved by the sort on hashes. *)
Theorem C09_gnu_lookup_partial : forall names null, 12 * N.of_nat (length names) < 2^32 ->
  exists t, gt_add_symbols (null :: (elf_gnu_hash <$> names)) = Ok t /\
    (forall name, name ∉ names -> forall h,
      gnu_lookup (ser_gnutab t) (fun j => bool_decide (names !! (N.to_nat j - 1)%nat = Some name)) h = Some None) /\
    (contiguous ((N.of_nat (length names) + 1) / 8 + 1) (elf_gnu_hash <$> names) ->
     forall i name, names !! i = Some name ->
      exists j, 1 <= j /\ gnu_lookup (ser_gnutab t) (fun j => bool_decide (names !! (N.to_nat j - 1)%nat = Some name))
                  (elf_gnu_hash name) = Some (Some j)
                /\ names !! (N.to_nat j - 1)%nat = Some name).
Proof. exact gnu_finds. Qed.
Print Assumptions C09_gnu_lookup_partial.

Theorem C09_gnu_lookup_small_partial : forall names null i name, (length names <= 6)%nat ->
  names !! i = Some name ->
  exists t j, gt_add_symbols (null :: (elf_gnu_hash <$> names)) = Ok t /\ 1 <= j /\
    gnu_lookup (ser_gnutab t) (fun j => bool_decide (names !! (N.to_nat j - 1)%nat = Some name))
      (elf_gnu_hash name) = Some (Some j) /\
    names !! (N.to_nat j - 1)%nat = Some name.
Proof.
  intros names null i name Hl Hi. destruct (gnu_finds names null) as (t & Ht & _ & Hf); [lia|].
  destruct (Hf (contiguous_few names Hl) i name Hi) as (j & H). exists t, j. tauto.
Qed.
Print Assumptions C09_gnu_lookup_small_partial.

Example C09_case : exists t, gt_add_symbols (0 :: (elf_gnu_hash <$> ["a"; "b"; "c"])) = Ok t /\
  gnu_lookup (ser_gnutab t) (fun j => bool_decide (["a"; "b"; "c"] !! (N.to_nat j - 1)%nat = Some "c"))
    (elf_gnu_hash "c") = Some (Some 3).
Proof. eexists. split; [by vm_compute|]. by vm_compute. Qed.
