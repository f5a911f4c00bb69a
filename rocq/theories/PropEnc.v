(** C37: on-disk encodings (src/serialize.rs). Every record is read back by
    the gABI decoder at whatever offset it was placed, and has the ELF64 size. *)
From Verif Require Import ProofElf ProofHash.

Theorem C37_ehdr : forall pre h post, ehdr_fits h ->
  rd_ehdr (pre ++ ser_ehdr h ++ post) (blen pre) = Some h /\ blen (ser_ehdr h) = 64.
Proof.
  intros pre h post H. split; [by apply rd_ehdr_ser|]. unfold blen. rewrite ser_ehdr_length; [done|apply H].
Qed.
Print Assumptions C37_ehdr.

Theorem C37_phdr : forall pre p post, phdr_fits p ->
  rd_phdr (pre ++ ser_phdr p ++ post) (blen pre) = Some p /\ blen (ser_phdr p) = 56.
Proof. intros pre p post H. split; [by apply rd_phdr_ser|]. unfold blen. by rewrite ser_phdr_length. Qed.
Print Assumptions C37_phdr.

Theorem C37_shdr : forall pre s post, shdr_fits s ->
  rd_shdr (pre ++ ser_shdr s ++ post) (blen pre) = Some s /\ blen (ser_shdr s) = 64.
Proof. intros pre p post H. split; [by apply rd_shdr_ser|]. unfold blen. by rewrite ser_shdr_length. Qed.
Print Assumptions C37_shdr.

Theorem C37_sym : forall pre s post, sym_fits s ->
  rd_sym (pre ++ ser_sym s ++ post) (blen pre) = Some s /\ blen (ser_sym s) = 24.
Proof. intros pre p post H. split; [by apply rd_sym_ser|]. unfold blen. by rewrite ser_sym_length. Qed.
Print Assumptions C37_sym.

Theorem C37_rela : forall pre r post, rela_fits r ->
  rd_rela (pre ++ ser_rela r ++ post) (blen pre) = Some r /\ blen (ser_rela r) = 24.
Proof. intros pre p post H. split; [by apply rd_rela_ser|]. unfold blen. by rewrite ser_rela_length. Qed.
Print Assumptions C37_rela.

Theorem C37_dyn : forall pre l post, Forall dyn_fits l ->
  rd_table rd_dyn 16 (length l) (pre ++ ser_dyns l ++ post) (blen pre) = Some l /\
  blen (ser_dyns l) = 16 * blen l.
Proof.
  intros pre l post H. split.
  - apply (rd_table_ser rd_dyn ser_dyn dyn_fits 16); [apply rd_dyn_ser|apply ser_dyn_length|done].
  - unfold ser_dyns, blen. rewrite (bind_length ser_dyn l 16) by apply ser_dyn_length. lia.
Qed.
Print Assumptions C37_dyn.

(** The SysV table: nbucket, nchain, buckets, chains as 32-bit words (gABI). *)
Theorem C37_hash : forall h, 
  Forall (fun v => v < 2^32) (ht_nbuckets h :: ht_nchains h :: ht_buckets h ++ ht_chains h) ->
  rd_table (rd 4) 4 (2 + length (ht_buckets h) + length (ht_chains h)) (ser_hashtab h) 0 =
    Some (ht_nbuckets h :: ht_nchains h :: ht_buckets h ++ ht_chains h).
Proof.
  intros h H.
  assert (Hser : ser_hashtab h = [] ++ ((ht_nbuckets h :: ht_nchains h :: ht_buckets h ++ ht_chains h) ≫= le_bytes 4) ++ []).
  { rewrite app_nil_r, app_nil_l, !bind_cons. done. }
  rewrite Hser. replace (2 + length (ht_buckets h) + length (ht_chains h))%nat with
    (length (ht_nbuckets h :: ht_nchains h :: ht_buckets h ++ ht_chains h)) by (simpl; rewrite app_length; lia).
  apply (rd_table_ser (rd 4) (le_bytes 4) (fun v => v < 2^32) 4 ); [|apply le_bytes_length|done].
  intros pre a post Ha. rewrite rd_le_bytes. by rewrite N.mod_small.
Qed.
Print Assumptions C37_hash.

(** A program header at file offset 64, after the file header. *)
Example C37_case :
  let h := mkEhdr [0x7f; 0x45; 0x4c; 0x46; 2; 1; 1; 0; 0; 0; 0; 0; 0; 0; 0; 0] 2 62 1 0x201234 64 0x5678 0 64 56 7 64 12 3 in
  let p := mkPhdr 1 5 0x1000 0x201000 0x201000 0x123 0x456 0x1000 in
  let r := mkRela 0x201018 0x300000007 (-4) in
  ehdr_fits h /\ phdr_fits p /\ rela_fits r /\
  rd_phdr (ser_ehdr h ++ ser_phdr p ++ ser_rela r) 64 = Some p /\
  rd_rela (ser_ehdr h ++ ser_phdr p ++ ser_rela r) 120 = Some r.
Proof.
  cbv zeta. split; [by vm_compute|]. split; [by vm_compute|]. split; [by vm_compute|].
  split; [by vm_compute|]. by vm_compute.
Qed.
