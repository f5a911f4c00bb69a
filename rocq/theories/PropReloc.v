(** C17-C21, C57, C60, C64: applying relocations (src/elf/chunk.rs) and
    accepting them (src/elf.rs: add_relocation). *)
From Verif Require Import ProofScan.

(** Symbols and relocations for the examples. *)
Definition ex_sym (shndx value : N) (got plt : option N) (dyn : option symref) : symbol :=
  mkSymbol (mkSym 1 0x12 0 shndx value 0) 0 0 "a.o" got plt None None dyn.
Definition ex_tab (l : list (N * symbol)) : symtab := mkSymtab (list_to_map l) ∅ 1 false.
Definition ex_rel (off ty : N) (a : Z) : Rela := mkRela off (3 * 2^32 + ty) a.

(** * C17 *)

(** Every relocation of a chunk whose bytes no other relocation of the chunk
    touches: in the end its field holds the value of the psABI table. *)
Theorem C17_field_value : forall got plt table dyn c c' i rel r sym,
  chunk_apply_relocations got plt table dyn c = Ok c' ->
  c_relocations c !! i = Some (rel, r) -> syt_get table r = Some sym ->
  (forall j rel' r' sym', j <> i -> c_relocations c !! j = Some (rel', r') -> syt_get table r' = Some sym' ->
     apart (span rel' sym') (span rel sym)) ->
  r_type (r_info rel) ∈ supported -> ~ relaxed (r_type (r_info rel)) sym ->
  exists addr S w v, c_address c = Some addr /\ target_value sym dyn = Some S /\
    psabi (r_type (r_info rel)) (Z.of_N S) (r_addend rel) (Z.of_N addr + Z.of_N (r_offset rel))
      (slot_of sym got) (entry_of sym plt) = Some (w, v) /\
    rd w (c_data c') (r_offset rel) = Some (wrap w v).
Proof. exact final_field. Qed.
Print Assumptions C17_field_value.

(** And in-range ones are accepted (addresses below 2^62, as everywhere in user space). *)
Theorem C17_accepted : forall addr data rel sym dyn got plt S w v,
  target_value sym dyn = Some S -> r_type (r_info rel) ∈ supported -> ~ relaxed (r_type (r_info rel)) sym ->
  psabi (r_type (r_info rel)) (Z.of_N S) (r_addend rel) (Z.of_N addr + Z.of_N (r_offset rel))
      (slot_of sym got) (entry_of sym plt) = Some (w, v) ->
  (r_type (r_info rel) = 19 \/ r_type (r_info rel) = 22 -> is_tls sym = true) ->
  S < 2^62 -> addr + r_offset rel < 2^62 -> got < 2^62 -> (- 2^61 <= r_addend rel < 2^61)%Z ->
  (forall g, slot_of sym got = Some g -> g < 2^62)%Z -> (forall l, entry_of sym plt = Some l -> l < 2^62)%Z ->
  (- 2 ^ (8 * Z.of_nat w - 1) <= v < 2 ^ (8 * Z.of_nat w - 1))%Z ->
  r_offset rel + N.of_nat w <= blen data ->
  exists data', apply_relocation addr data rel sym dyn got plt = Ok data'.
Proof. exact accepted. Qed.
Print Assumptions C17_accepted.

Example C17_case :
  let table := ex_tab [(1, ex_sym 2 0x402000 None None None); (2, ex_sym 0 0 (Some 8) (Some 1) (Some (RNamed 1)))] in
  let dyn := ex_tab [(1, ex_sym 0 0 None None None)] in
  let c := mkChunk (Some 0x401000) (replicate 24 0xcc) []
    [(ex_rel 0 1 5, RNamed 1); (ex_rel 9 2 (-4), RNamed 1); (ex_rel 13 4 (-4), RNamed 2); (ex_rel 20 41 (-4), RNamed 2)] in
  exists c', chunk_apply_relocations 0x404000 0x403000 table dyn c = Ok c' /\
    rd 8 (c_data c') 0 = Some 0x402005 /\ rd 1 (c_data c') 8 = Some 0xcc /\
    rd_z 4 (c_data c') 9 = Some (0x402000 - 4 - 0x401009)%Z /\
    rd_z 4 (c_data c') 13 = Some (0x403020 - 4 - 0x40100d)%Z /\
    rd_z 4 (c_data c') 20 = Some (0x404008 - 4 - 0x401014)%Z.
Proof. eexists. split; [by vm_compute|]. repeat split; by vm_compute. Qed.

(** GOT32 (not among the types the property lists, but accepted by the code)
    should yield G + A; the code writes G + GOT + A - P. *)
Theorem C17_got32_refuted : exists addr data rel sym dyn got plt data' G,
  r_type (r_info rel) = 3 /\ s_in_got sym = Some G /\
  apply_relocation addr data rel sym dyn got plt = Ok data' /\
  rd_z 4 data' (r_offset rel) <> Some (Z.of_N G + r_addend rel)%Z.
Proof.
  exists 0x401000, (replicate 8 0), (ex_rel 2 3 0), (ex_sym 2 0x402000 (Some 8) None None), (ex_tab []), 0x404000, 0x403000.
  eexists _, 8. split; [done|]. split; [done|]. split; [by vm_compute|]. by vm_compute.
Qed.
Print Assumptions C17_got32_refuted.

(** * C18 *)

(** One relocation changes no byte outside its span, nor the length. *)
Theorem C18_one : forall addr data rel sym dyn got plt data',
  apply_relocation addr data rel sym dyn got plt = Ok data' -> same_off (span rel sym) data data'.
Proof. exact frame_one. Qed.
Print Assumptions C18_one.

(** All relocations of a chunk: a byte no span covers keeps its value; nothing
    else of the chunk changes. *)
Theorem C18_chunk : forall got plt table dyn c c', chunk_apply_relocations got plt table dyn c = Ok c' ->
  length (c_data c') = length (c_data c) /\ c' = c <| c_data := c_data c' |> /\
  forall k, (forall rel r sym, (rel, r) ∈ c_relocations c -> syt_get table r = Some sym ->
               k < (span rel sym).1 \/ (span rel sym).2 <= k) ->
    c_data c' !! N.to_nat k = c_data c !! N.to_nat k.
Proof.
  intros got plt table dyn c c' H. pose proof (chunk_frame _ _ _ _ _ _ H) as [H1 H2].
  split; [done|]. split; [|done]. by apply chunk_apply_fold in H as (d & _ & ->).
Qed.
Print Assumptions C18_chunk.

Example C18_case :
  let data := [0x48; 0x8b; 0x05; 1; 1; 1; 1; 7; 7] in
  exists d, apply_relocation 0x401000 data (ex_rel 3 42 (-4)) (ex_sym 2 0x402000 (Some 8) None None) (ex_tab []) 0 0 = Ok d /\
    span (ex_rel 3 42 (-4)) (ex_sym 2 0x402000 (Some 8) None None) = (0, 7) /\ drop 7 d = [7; 7] /\ length d = 9%nat.
Proof. eexists. split; [by vm_compute|]. repeat split; by vm_compute. Qed.

(** * C19 *)

(** Full statement: whenever applying succeeds, the psABI value fits the
    field. False for 32S (silently truncated) and for 32 (the value must be
    non-negative, the code checks a signed range). *)
Theorem C19_32S_refuted : exists addr data rel sym dyn data' S,
  r_type (r_info rel) = 11 /\ apply_relocation addr data rel sym dyn 0 0 = Ok data' /\
  target_value sym dyn = Some S /\ ~ fits_field 11 (Z.of_N S + r_addend rel).
Proof.
  exists 0x401000, (replicate 8 0), (ex_rel 0 11 0), (ex_sym 2 0x123456789a None None None), (ex_tab []).
  eexists _, 0x123456789a. split; [done|]. split; [by vm_compute|]. split; [done|]. unfold fits_field. simpl. lia.
Qed.
Print Assumptions C19_32S_refuted.
Theorem C19_32_refuted : exists addr data rel sym dyn data' S,
  r_type (r_info rel) = 10 /\ apply_relocation addr data rel sym dyn 0 0 = Ok data' /\
  target_value sym dyn = Some S /\ ~ fits_field 10 (Z.of_N S + r_addend rel).
Proof.
  exists 0x401000, (replicate 8 0), (ex_rel 0 10 (-1)), (ex_sym 2 0 None None None), (ex_tab []).
  eexists _, 0. split; [done|]. split; [by vm_compute|]. split; [done|]. unfold fits_field. simpl. lia.
Qed.
Print Assumptions C19_32_refuted.

(** What holds: every other supported type aborts unless the value fits, and
    32 never drops significant bits (only its sign is misread). Missing: 32S
    and negative values of 32. *)
Theorem C19_partial : forall addr data rel sym dyn got plt data' S w v,
  apply_relocation addr data rel sym dyn got plt = Ok data' ->
  r_type (r_info rel) ∈ supported -> ~ relaxed (r_type (r_info rel)) sym -> target_value sym dyn = Some S ->
  psabi (r_type (r_info rel)) (Z.of_N S) (r_addend rel) (Z.of_N addr + Z.of_N (r_offset rel))
      (slot_of sym got) (entry_of sym plt) = Some (w, v) ->
  (r_type (r_info rel) <> 10 -> r_type (r_info rel) <> 11 -> fits_field (r_type (r_info rel)) v) /\
  (r_type (r_info rel) = 10 -> (- 2^31 <= v < 2^31)%Z).
Proof.
  intros addr data rel sym dyn got plt data' S w v H Hsup Hnr HS Hp.
  destruct (field_value _ _ _ _ _ _ _ _ H Hsup Hnr) as (S' & w' & v' & HS' & Hp' & _ & Hr).
  rewrite HS in HS'. injection HS' as <-. rewrite Hp in Hp'. injection Hp' as <- <-.
  apply psabi_width in Hp as [H0 Hw]. split.
  - intros H10 H11. specialize (Hr H11). unfold fits_field. destruct (decide (r_type (r_info rel) = 1)) as [E|E].
    + rewrite E. subst w. change (8 * Z.of_nat 8 - 1)%Z with 63%Z in Hr. lia.
    + subst w. change (8 * Z.of_nat 4 - 1)%Z with 31%Z in Hr. repeat case_match; congruence || lia.
  - intros E. subst w. rewrite decide_False in Hr by (rewrite E; done). apply Hr. rewrite E. done.
Qed.
Print Assumptions C19_partial.

(** PC32 at the edge of its range: the last displacement that fits, and the first that does not. *)
Example C19_case :
  let sym v := ex_sym 2 v None None None in
  (exists d, apply_relocation 0x1000 (replicate 4 0) (ex_rel 0 2 0) (sym (0x1000 + 0x7fffffff)) (ex_tab []) 0 0 = Ok d /\
     rd_z 4 d 0 = Some 0x7fffffff%Z) /\
  apply_relocation 0x1000 (replicate 4 0) (ex_rel 0 2 0) (sym (0x1000 + 0x80000000)) (ex_tab []) 0 0 = Panic PUnwrap.
Proof. split; [eexists; split; [by vm_compute|]; by vm_compute|by vm_compute]. Qed.

(** * C20 *)

(** If REX_GOTPCRELX against a symbol of this link is applied, the bytes before
    the field were a rip-relative 64-bit load, and become a lea of the symbol's
    address (S + A + 4; A = -4 in compiler output) into the same register. So
    anything but such a load aborts. *)
Theorem C20_mov_becomes_lea : forall addr data rel sym dyn got plt data',
  apply_relocation addr data rel sym dyn got plt = Ok data' ->
  r_type (r_info rel) = 42 -> s_dynamic sym = None ->
  exists S reg ea0, target_value sym dyn = Some S /\ 3 <= r_offset rel /\
    decode_at (Z.of_N addr) data (r_offset rel - 3) = Some (MovLoad reg ea0, 7) /\
    decode_at (Z.of_N addr) data' (r_offset rel - 3) = Some (Lea reg (Z.of_N S + r_addend rel + 4), 7).
Proof. exact lea_relax. Qed.
Print Assumptions C20_mov_becomes_lea.

(** In a whole chunk, when no other relocation touches the instruction. *)
Theorem C20_final : forall got plt table dyn c c' i rel r sym,
  chunk_apply_relocations got plt table dyn c = Ok c' ->
  c_relocations c !! i = Some (rel, r) -> syt_get table r = Some sym ->
  (forall j rel' r' sym', j <> i -> c_relocations c !! j = Some (rel', r') -> syt_get table r' = Some sym' ->
     apart (span rel' sym') (span rel sym)) ->
  r_type (r_info rel) = 42 -> s_dynamic sym = None ->
  exists addr S reg ea0, c_address c = Some addr /\ target_value sym dyn = Some S /\
    decode_at (Z.of_N addr) (c_data c) (r_offset rel - 3) = Some (MovLoad reg ea0, 7) /\
    decode_at (Z.of_N addr) (c_data c') (r_offset rel - 3) = Some (Lea reg (Z.of_N S + r_addend rel + 4), 7).
Proof. exact lea_final. Qed.
Print Assumptions C20_final.

(** All sixteen registers: [mov reg, [rip+..]] is accepted for each. *)
Example C20_case :
  Forall (fun x => exists d,
    apply_relocation 0x401000 [x.1; 0x8b; x.2; 0; 0; 0; 0] (ex_rel 3 42 (-4)) (ex_sym 2 0x402000 None None None) (ex_tab []) 0 0 = Ok d /\
    decode_at 0x401000 d 0 = Some (Lea (8 * ((x.1 / 4) mod 2) + (x.2 / 8) mod 8) 0x402000, 7))
  [(0x48,0x05);(0x48,0x0d);(0x48,0x15);(0x48,0x1d);(0x48,0x25);(0x48,0x2d);(0x48,0x35);(0x48,0x3d);
   (0x4c,0x05);(0x4c,0x0d);(0x4c,0x15);(0x4c,0x1d);(0x4c,0x25);(0x4c,0x2d);(0x4c,0x35);(0x4c,0x3d)].
Proof. repeat constructor; (eexists; split; [by vm_compute|]; by vm_compute). Qed.
(** [add rax, [rip+..]] (48 03 05) is not a load: the link aborts. *)
Example C20_other_instruction :
  apply_relocation 0x401000 [0x48; 0x03; 0x05; 0; 0; 0; 0] (ex_rel 3 42 (-4)) (ex_sym 2 0x402000 None None None) (ex_tab []) 0 0
  = Panic PUnreachable.
Proof. by vm_compute. Qed.

(** * C21 *)

(** Full statement: the direct branch targets S + A + 4. It targets one byte less. *)
Theorem C21_refuted : exists addr data rel sym dyn data' S,
  r_type (r_info rel) = 41 /\ s_dynamic sym = None /\ r_addend rel = (-4)%Z /\ target_value sym dyn = Some S /\
  apply_relocation addr data rel sym dyn 0 0 = Ok data' /\
  decode_at (Z.of_N addr) data (r_offset rel - 2) = Some (CallInd 0x401006, 6) /\
  decode_at (Z.of_N addr) data' (r_offset rel - 2) = Some (CallRel (Z.of_N S - 1), 5).
Proof.
  exists 0x401000, [0xff; 0x15; 0; 0; 0; 0], (ex_rel 2 41 (-4)), (ex_sym 2 0x402000 None None None), (ex_tab []).
  eexists _, 0x402000. repeat (split; [by vm_compute|]). by vm_compute.
Qed.
Print Assumptions C21_refuted.

(** What holds: an indirect call (jmp) becomes a direct call (jmp) followed by
    a nop, with exactly the target S + A + 3. Missing: that this is the symbol. *)
Theorem C21_partial : forall addr data rel sym dyn got plt data',
  apply_relocation addr data rel sym dyn got plt = Ok data' ->
  r_type (r_info rel) = 41 -> s_dynamic sym = None ->
  exists S ea0, target_value sym dyn = Some S /\ 2 <= r_offset rel /\
    (let target := (Z.of_N S + r_addend rel + 3)%Z in
     (decode_at (Z.of_N addr) data (r_offset rel - 2) = Some (CallInd ea0, 6) /\
      decode_at (Z.of_N addr) data' (r_offset rel - 2) = Some (CallRel target, 5)) \/
     (decode_at (Z.of_N addr) data (r_offset rel - 2) = Some (JmpInd ea0, 6) /\
      decode_at (Z.of_N addr) data' (r_offset rel - 2) = Some (JmpRel target, 5))) /\
    rd 1 data' (r_offset rel + 3) = Some 0x90.
Proof. exact branch_relax. Qed.
Print Assumptions C21_partial.

Example C21_case : exists d,
  apply_relocation 0x401000 [0xff; 0x25; 0; 0; 0; 0] (ex_rel 2 41 (-4)) (ex_sym 2 0x402000 None None None) (ex_tab []) 0 0 = Ok d /\
  d = [0xe9; 0xfa; 0x0f; 0; 0; 0x90].
Proof. eexists. split; [by vm_compute|]. by vm_compute. Qed.

(** * C57 *)

(** TPOFF32 should give the (negative) offset of the symbol from the end of the
    TLS block; the code writes the symbol's absolute value. *)
Theorem C57_tpoff_refuted : exists addr data rel sym dyn data' S tls_end,
  r_type (r_info rel) = 23 /\ is_tls sym = true /\ target_value sym dyn = Some S /\
  S < tls_end /\ apply_relocation addr data rel sym dyn 0 0 = Ok data' /\
  rd_z 4 data' (r_offset rel) <> Some (Z.of_N S + r_addend rel - Z.of_N tls_end)%Z.
Proof.
  exists 0x401000, (replicate 4 0), (ex_rel 0 23 0),
    (mkSymbol (mkSym 1 0x16 0 2 0x402000 4) 0 0 "a.o" None None None None None), (ex_tab []).
  eexists _, 0x402000, 0x402010. repeat (split; [by vm_compute|]). by vm_compute.
Qed.
Print Assumptions C57_tpoff_refuted.

(** It is wrong for every TLS block that does not end at address 0. *)
Theorem C57_tpoff_value_partial : forall addr data rel sym dyn got plt data',
  apply_relocation addr data rel sym dyn got plt = Ok data' -> r_type (r_info rel) = 23 ->
  exists S, target_value sym dyn = Some S /\ rd_z 4 data' (r_offset rel) = Some (Z.of_N S + r_addend rel)%Z.
Proof. exact tpoff_value. Qed.
Print Assumptions C57_tpoff_value_partial.

(** * C60 *)
Theorem C60_refused_iff : forall w rel r sr,
  (exists e, add_relocation w rel r sr = Err e) <-> r_type (r_info rel) ∈ [12; 13; 14; 15].
Proof. exact add_relocation_Err. Qed.
Print Assumptions C60_refused_iff.

(** An accepted one is appended to exactly its chunk. *)
Theorem C60_accepted : forall w rel r sr w', add_relocation w rel r sr = Ok w' ->
  w' = w <| w_sections := w_sections w' |> /\
  forall sr', chunk_at (w_sections w') sr' =
    if decide (sr' = sr)
    then (fun c => c <| c_relocations := c_relocations c ++ [(rel, r)] |>) <$> chunk_at (w_sections w) sr
    else chunk_at (w_sections w) sr'.
Proof. exact add_relocation_Ok. Qed.
Print Assumptions C60_accepted.

Definition ex_writer : res writer := w ← writer_new options_default;
  '(w, _) ← add_section w ".text" (mkShdr 1 1 6 0 0 4 0 0 1 0) (Some [1; 2; 3; 4]); Ok w.
Example C60_case : exists w w', ex_writer = Ok w /\
  add_relocation w (ex_rel 0 2 (-4)) (RNamed 1) (mkSref 16 0) = Ok w' /\
  add_relocation w (ex_rel 0 12 0) (RNamed 1) (mkSref 16 0) = Err (ENotAbi 12) /\
  c_relocations <$> chunk_at (w_sections w') (mkSref 16 0) = Some [(ex_rel 0 2 (-4), RNamed 1)].
Proof. eexists _, _. split; [by vm_compute|]. split; [by vm_compute|]. split; by vm_compute. Qed.

(** * C64 *)

(** A chunk without an address (its section is not loaded) that has a relocation aborts the link. *)
Theorem C64_no_address_panics : forall got plt table dyn c rel r l,
  c_address c = None -> c_relocations c = (rel, r) :: l ->
  chunk_apply_relocations got plt table dyn c = Panic PUnwrap.
Proof. intros got plt table dyn c rel r l Ha Hr. unfold chunk_apply_relocations. rewrite Hr, Ha. done. Qed.
Print Assumptions C64_no_address_panics.
