(** C22, C23, C61, C64: the relocation scan (src/elf.rs: scan_relocations) and
    what it reserves in .got, .got.plt and .plt. *)
From Verif Require Import ProofScan Demo.

Definition ex_tab (l : list (N * symbol)) : symtab := mkSymtab (list_to_map l) ∅ 1 false.
Definition ex_symbol (info : N) (dyn : option symref) : symbol :=
  symbol_new (mkSym 1 info 0 0 0 0) 0 0 "a.o" <| s_dynamic := dyn |>.
(** A fresh writer with the given symbols and one section holding the given relocations. *)
Definition ex_scan (syms : list (N * symbol)) (rels : list (N * N)) : res writer :=
  w ← writer_new options_default;
  '(w, sr) ← add_section w ".text" (mkShdr 1 1 6 0 0 64 0 0 1 0) (Some (replicate 64 0));
  foldM (fun w x => add_relocation w (mkRela 0 (7 * 2^32 + x.1) (-4)) (RNamed x.2) sr) rels
    (w <| w_symtab := ex_tab syms |>).

(** * C61 *)
Theorem C61_scan_rewrites : forall w w', scan_relocations w = Ok w' ->
  Forall2 (fun s s' => s' = s <| sc_chunks := sc_chunks s' |> /\
    Forall2 (fun c c' => c' = c <| c_relocations := c_relocations c' |> /\
      Forall2 (scanned (w_symtab w)) (c_relocations c) (c_relocations c')) (sc_chunks s) (sc_chunks s'))
    (w_sections w) (w_sections w').
Proof. intros w w' H. by apply scan_relocations_scanned. Qed.
Print Assumptions C61_scan_rewrites.

Example C61_case : exists w w',
  ex_scan [(1, ex_symbol 0x10 None); (2, ex_symbol 0x10 (Some (RNamed 5)))] [(4, 1); (4, 2); (2, 1)] = Ok w /\
  scan_relocations w = Ok w' /\
  ((fun x => r_info x.1) <$> all_relocs (w_sections w')) = [7 * 2^32 + 2; 7 * 2^32 + 4; 7 * 2^32 + 2].
Proof. eexists _, _. split; [by vm_compute|]. split; [by vm_compute|]. by vm_compute. Qed.

(** * C22 *)

(** Full statement: the areas of different symbols never overlap, taking two
    words for a symbol used by TLSGD. It fails for a thread-local symbol
    referenced by GOTTPOFF before TLSGD. *)
Theorem C22_refuted : exists w w' r1 r2 sym1 sym2 off1 off2,
  no_slots w /\ scan_relocations w = Ok w' /\ r1 <> r2 /\
  refers (all_relocs (w_sections w)) 19 r1 /\ refers (all_relocs (w_sections w)) 42 r2 /\
  (forall r sym, refers (all_relocs (w_sections w)) 19 r -> syt_get (w_symtab w) r = Some sym -> is_tls sym = true) /\
  syt_get (w_symtab w') r1 = Some sym1 /\ s_in_got sym1 = Some off1 /\
  syt_get (w_symtab w') r2 = Some sym2 /\ s_in_got sym2 = Some off2 /\
  off1 < off2 < off1 + got_bytes 19.
Proof.
  destruct (ex_scan [(1, ex_symbol 0x16 None); (2, ex_symbol 0x11 None)] [(22, 1); (19, 1); (42, 2)]) as [w| |] eqn:E;
    [|by vm_compute in E..]. vm_compute in E. injection E as Ew.
  exists w. eexists _, (RNamed 1), (RNamed 2), _, _, 8, 16.
  split; [subst w; apply no_slots_ok; by vm_compute|].
  split; [subst w; vm_compute; reflexivity|]. split; [done|].
  split; [subst w; apply refers_b_spec; by vm_compute|].
  split; [subst w; apply refers_b_spec; by vm_compute|].
  split.
  { intros r sym Hr Hg. apply refers_b_spec in Hr.
    assert (Hc : forall r sym, syt_get (w_symtab w) r = Some sym -> implb (refers_b (all_relocs (w_sections w)) 19 r) (is_tls sym) = true).
    { subst w. apply (syt_forall_ok (fun r sym => implb _ (is_tls sym))). by vm_compute. }
    specialize (Hc r sym Hg). rewrite Hr in Hc. exact Hc. }
  split; [by vm_compute|]. split; [done|]. split; [by vm_compute|]. split; [done|]. by vm_compute.
Qed.
Print Assumptions C22_refuted.

(** What holds: if every symbol is used by TLSGD only or not by TLSGD at all
    (and TLSGD only for thread-local symbols), each referenced symbol has one
    slot, a positive multiple of 8, inside the .got as sized; slots of
    different symbols do not overlap, and no other symbol has one. Missing:
    symbols used both by TLSGD and by another GOT relocation. *)
Theorem C22_slots_partial : forall w w', scan_relocations w = Ok w' -> no_slots w ->
  let L := all_relocs (w_sections w) in
  (forall r ty, ty ∈ got_types -> refers L ty r -> refers L 19 r -> ty = 19) ->
  (forall r sym, refers L 19 r -> syt_get (w_symtab w) r = Some sym -> is_tls sym = true) ->
  (forall r ty, ty ∈ got_types -> refers L ty r -> exists sym off,
     syt_get (w_symtab w') r = Some sym /\ s_in_got sym = Some off /\
     8 <= off /\ off mod 8 = 0 /\ off + got_bytes ty <= 8 * w_got_len w') /\
  (forall r1 r2 ty1 ty2 sym1 sym2 off1 off2, r1 <> r2 ->
     refers L ty1 r1 -> ty1 ∈ got_types -> syt_get (w_symtab w') r1 = Some sym1 -> s_in_got sym1 = Some off1 ->
     refers L ty2 r2 -> ty2 ∈ got_types -> syt_get (w_symtab w') r2 = Some sym2 -> s_in_got sym2 = Some off2 ->
     off1 + got_bytes ty1 <= off2 \/ off2 + got_bytes ty2 <= off1) /\
  (forall r sym, syt_get (w_symtab w') r = Some sym -> s_in_got sym <> None ->
     exists ty, ty ∈ got_types /\ refers L ty r).
Proof. exact scan_got. Qed.
Print Assumptions C22_slots_partial.

(** The .got section is then sized for these slots. *)
Theorem C22_got_size : forall w s, get_section id_got (w_sections w) = Some s ->
  exists s', get_section id_got (w_sections (resize_got_section w)) = Some s' /\
    sh_size (sc_sh s') = 8 * w_got_len w /\ sc_chunks s' = sc_chunks s ++ [chunk_new (zeros (8 * w_got_len w))].
Proof.
  intros w s Hs. unfold resize_got_section. cbn [w_sections set]. eexists. split.
  - cbn. rewrite get_upd_section by done. rewrite decide_True by done. rewrite Hs. reflexivity.
  - split; [|done]. cbn. unfold blen, zeros. rewrite replicate_length. lia.
Qed.
Print Assumptions C22_got_size.

Example C22_case : exists w w',
  ex_scan [(1, ex_symbol 0x16 None); (2, ex_symbol 0x11 None); (3, ex_symbol 0x11 None)]
          [(42, 2); (19, 1); (42, 2); (42, 3); (2, 3)] = Ok w /\
  scan_relocations w = Ok w' /\ w_got_len w' = 5 /\
  (s_in_got <$> syt_get (w_symtab w') (RNamed 2)) = Some (Some 8) /\
  (s_in_got <$> syt_get (w_symtab w') (RNamed 1)) = Some (Some 16) /\
  (s_in_got <$> syt_get (w_symtab w') (RNamed 3)) = Some (Some 32).
Proof. eexists _, _. split; [by vm_compute|]. split; [by vm_compute|]. repeat split; by vm_compute. Qed.

(** * C23 *)

(** The symbols called through the PLT, in order: the [i]th has PLT entry [i]
    and .got.plt word [3 + i]; nobody else has either. *)
Theorem C23_slots : forall w w', scan_relocations w = Ok w' -> no_slots w ->
  exists ks, NoDup ks /\
    (forall r, r ∈ ks <-> refers (all_relocs (w_sections w)) 4 r /\
       exists sym d, syt_get (w_symtab w) r = Some sym /\ s_dynamic sym = Some d) /\
    (forall i r, ks !! i = Some r -> exists sym, syt_get (w_symtab w') r = Some sym /\
       s_in_plt sym = Some (N.of_nat i) /\ s_in_got_plt sym = Some ((N.of_nat i + 3) * 8)) /\
    (forall r sym, r ∉ ks -> syt_get (w_symtab w') r = Some sym -> s_in_plt sym = None /\ s_in_got_plt sym = None) /\
    blen (w_plt w') = N.of_nat (length ks) /\ blen (w_got_plt w') = N.of_nat (length ks).
Proof.
  intros w w' H Hn. destruct (scan_plt w w' H Hn) as (ks & H1 & H2 & H3 & H4 & H5 & H6). exists ks.
  do 4 (split; [done|]). rewrite H5, H6. unfold blen, plt_of, got_plt_of. by rewrite !imap_length.
Qed.
Print Assumptions C23_slots.

(** Sizes of the two sections for [n] PLT symbols. *)
Theorem C23_sizes : forall o w s, sc_synth s = Some KPlt ->
  sh_size (sc_sh (sec_expand o w s)) = 16 * (blen (w_plt w) + 1) /\
  (forall c, sc_chunks (sec_expand o w s) !! length (sc_chunks s) = Some c -> blen (c_data c) = 16 * (blen (w_plt w) + 1)) /\
  (forall g, get_section id_got_plt (w_sections w) = Some g ->
     exists g', get_section id_got_plt (w_sections (resize_got_plt_section w)) = Some g' /\
       sh_size (sc_sh g') = 8 * (blen (w_got_plt w) + 3) /\
       sc_chunks g' = sc_chunks g ++ [chunk_new (zeros (8 * (blen (w_got_plt w) + 3)))]).
Proof.
  intros o w s Hs. unfold sec_expand. rewrite Hs. split; [cbn; lia|]. split.
  - intros c Hc. cbn [sc_chunks sec_add_chunk set_size set] in Hc. rewrite lookup_app_r in Hc by done. rewrite Nat.sub_diag in Hc. injection Hc as <-. change (blen (plt_data (w_plt w)) = 16 * (blen (w_plt w) + 1)).
    rewrite (plt_data_length (w_plt w)). lia.
  - intros g Hg. eexists. split.
    + cbn [resize_got_plt_section w_sections set]. rewrite get_upd_section by done. rewrite decide_True by done. rewrite Hg. reflexivity.
    + split; [|done]. cbn. unfold blen, zeros. rewrite replicate_length. lia.
Qed.
Print Assumptions C23_sizes.

Example C23_case : exists w w',
  ex_scan [(1, ex_symbol 0x10 (Some (RNamed 1))); (2, ex_symbol 0x10 None); (3, ex_symbol 0x10 (Some (RNamed 9)))]
          [(4, 3); (4, 2); (4, 1); (4, 3)] = Ok w /\
  scan_relocations w = Ok w' /\
  w_plt w' = [(RNamed 3, 0); (RNamed 1, 1)] /\ w_got_plt w' = [(RNamed 3, 24); (RNamed 1, 32)].
Proof. eexists _, _. split; [by vm_compute|]. split; [by vm_compute|]. split; by vm_compute. Qed.

(** * C64 *)

(** A program whose debug section has a relocation: the link aborts. *)
Definition C64_obj : elf_obj := demo_obj
  [progbits ".text" 6 16 [0xc3]; progbits ".debug_info" 0 1 (replicate 8 0); relasec ".rela.debug_info"]
  [("_start", dsym 0x12 1 0 1)] [(3, [mkGreloc 0 (Some 0%Z) 1 1])].
Theorem C64_refuted : exists obj, demo_run [("a.o", obj)] ["a.o"] [] = Panic PUnwrap /\
  exists obj', eo_relocs obj' = [] /\ obj = mkElfObj (eo_is_object obj') (eo_data obj') (eo_shdrs obj') (eo_shstr obj')
     (eo_syms obj') (eo_strtab obj') (eo_dynsyms obj') (eo_dynstr obj') (eo_relocs obj) /\
    exists w, demo_run [("a.o", obj')] ["a.o"] [] = Ok w.
Proof.
  exists C64_obj. split; [by vm_compute|].
  exists (demo_obj
    [progbits ".text" 6 16 [0xc3]; progbits ".debug_info" 0 1 (replicate 8 0); relasec ".rela.debug_info"]
    [("_start", dsym 0x12 1 0 1)] []).
  split; [done|]. split; [done|]. eexists. vm_compute. reflexivity.
Qed.
Print Assumptions C64_refuted.
