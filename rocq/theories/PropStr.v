(** C01-C04: string tables (src/elf/string_table.rs). *)
From Verif Require Import ProofStr.

(** C01: whatever was interned before and is interned after, the emitted bytes
    read as a C string at the offset handed out for [name] spell [name]. *)
Theorem C01_offset_reads_back_as_name : forall t name t1 e later,
  st_reach t -> nonul name -> st_get_or_create t name = (t1, e) ->
  cstr_at (st_chunk_data (intern_all t1 later)) (en_offset e) = Some (string_bytes name).
Proof. intros. by eapply read_back. Qed.
Print Assumptions C01_offset_reads_back_as_name.

Example C01_case :
  let t := intern_all st_default ["main"; "printf"] in
  let '(t1, e) := st_get_or_create t "exit" in
  st_reach t /\ nonul "exit" /\ en_offset e = 13 /\
  cstr_at (st_chunk_data (intern_all t1 ["main"; "free"])) 13 = Some [0x65; 0x78; 0x69; 0x74].
Proof.
  split_and!; [apply st_reach_all; constructor| |done|by vm_compute].
  unfold nonul; simpl. set_solver.
Qed.

(** C02: interning a name again gives the same entry and changes nothing;
    different names get different offsets and indices; the index of a name is
    its rank among the distinct names in order of first occurrence. *)
Theorem C02_stable : forall t name t1 e later t2 e2,
  st_get_or_create t name = (t1, e) ->
  st_get_or_create (intern_all t1 later) name = (t2, e2) ->
  t2 = intern_all t1 later /\ e2 = mkStrEntry (en_index e) (en_offset e) false.
Proof. intros. by eapply goc_again. Qed.
Print Assumptions C02_stable.

Theorem C02_injective : forall t n m t1 e1 later t2 e2,
  st_reach t -> n <> m ->
  st_get_or_create t n = (t1, e1) -> st_get_or_create (intern_all t1 later) m = (t2, e2) ->
  en_offset e1 <> en_offset e2 /\ en_index e1 <> en_index e2.
Proof. intros. by eapply distinct_entries. Qed.
Print Assumptions C02_injective.

Theorem C02_new_iff_first_time : forall names name,
  en_new (st_get_or_create (intern_all st_default names) name).2 = true <-> name ∉ "" :: names.
Proof. exact new_iff_first. Qed.
Print Assumptions C02_new_iff_first_time.

Theorem C02_dense_indices : forall names j name,
  first_occ [] ("" :: names) !! j = Some name ->
  exists e, st_get (intern_all st_default names) name = Some e /\ en_index e = N.of_nat j.
Proof.
  intros names j name Hj. apply index_of_name; [constructor|].
  destruct j as [|j]; simpl in *; [done|]. done.
Qed.
Print Assumptions C02_dense_indices.

Example C02_case :
  first_occ [] ["" ; "a"; "b"; "a"; ""; "c"] = [""; "a"; "b"; "c"] /\
  st_get (intern_all st_default ["a"; "b"; "a"; ""; "c"]) "c" = Some (mkStrEntry 3 5 false).
Proof. by vm_compute. Qed.

(** C03: the advertised size is the number of bytes emitted; byte 0 is NUL. *)
Theorem C03_size : forall t, st_reach t ->
  blen (st_chunk_data t) = stt_total_len t /\ st_chunk_data t !! 0%nat = Some 0.
Proof. exact size_emitted. Qed.
Print Assumptions C03_size.

Example C03_case : blen (st_chunk_data (intern_all (st_with_name ".shstrtab") [".text"; ".data"])) = 23.
Proof. by vm_compute. Qed.

(** C04: for every order [l] in which the hash map may be listed, the reverse
    lookup answers exactly the name an offset was handed out for. *)
Theorem C04_reverse_lookup : forall t l offset name,
  st_reach t -> l ≡ₚ stt_names t ->
  st_name_in l offset = Some name <-> exists e, st_get t name = Some e /\ en_offset e = offset.
Proof. intros. by apply reverse_lookup. Qed.
Print Assumptions C04_reverse_lookup.

Theorem C04_bytes_order_independent : forall t l,
  st_reach t -> l ≡ₚ stt_names t -> st_sorted_in l = stt_names t.
Proof. intros t l Hr Hp. apply sorted_any_listing; [by apply st_reach_ok|done]. Qed.
Print Assumptions C04_bytes_order_independent.

Example C04_case :
  let t := intern_all st_default ["ab"; "c"] in
  st_name_in (reverse (stt_names t)) 4 = Some "c" /\ st_name_in (reverse (stt_names t)) 2 = None.
Proof. by vm_compute. Qed.
