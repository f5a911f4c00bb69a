(** The history of one output section: what each stage of the link made of it. *)
From Verif Require Export ProofLoad ProofSym.

(** * Finer accounts of two stages *)

(** Only the set of symbols defined in the chunk changed. *)
Definition only_syms (c c' : chunk) : Prop := c' = c <| c_symbols := c_symbols c' |>.
Lemma only_syms_refl c : only_syms c c.
Proof. by destruct c. Qed.
Lemma only_syms_add r c : only_syms c (chunk_add_symbol r c).
Proof. unfold chunk_add_symbol. destruct (decide _); [apply only_syms_refl|done]. Qed.
Lemma only_syms_trans a b c : only_syms a b -> only_syms b c -> only_syms a c.
Proof. unfold only_syms. intros -> ->. done. Qed.
Lemma F2_only_syms_refl cs : Forall2 only_syms cs cs.
Proof. induction cs; constructor; [apply only_syms_refl|done]. Qed.
Lemma F2_only_syms_alter r i cs : Forall2 only_syms cs (alter (chunk_add_symbol r) i cs).
Proof.
  revert i. induction cs as [|c cs IH]; intros [|i]; simpl; constructor; try apply only_syms_add; try apply only_syms_refl; try apply F2_only_syms_refl. apply IH.
Qed.
Lemma F2_only_syms_trans a b c : Forall2 only_syms a b -> Forall2 only_syms b c -> Forall2 only_syms a c.
Proof. apply F2_trans. apply only_syms_trans. Qed.
Definition syms_only (s s' : section) : Prop := kept s s' /\ Forall2 only_syms (sc_chunks s) (sc_chunks s').
Lemma syms_only_refl s : syms_only s s.
Proof. split; [apply kept_refl|apply F2_only_syms_refl]. Qed.
Lemma bound_syms_only sn a b t s t' s' : bound_symbols sn a b t s = Ok (t', s') -> syms_only s s'.
Proof.
  unfold bound_symbols. intros H. apply bind_Ok in H as (s1 & H1 & H).
  assert (K1 : syms_only s s1).
  { destruct (st_get sn a); [apply bind_Ok in H1 as (c & _ & [= <-])|injection H1 as <-; apply syms_only_refl].
    split; [done|]. simpl. apply F2_only_syms_alter. }
  destruct (st_get sn b); [|by injection H as <- <-]. apply bind_Ok in H as (x & _ & H). destruct K1 as [K1 K2].
  destruct (sc_chunks s1) as [|c0 cs0] eqn:E; [done|]. injection H as <- <-. split; [eapply kept_trans; [exact K1|done]|].
  eapply F2_only_syms_trans; [exact K2|]. apply F2_only_syms_alter.
Qed.
Lemma special_step_syms sn secn skip t s t' s' : special_step sn secn skip t s = Ok (t', s') -> syms_only s s'.
Proof.
  unfold special_step. destruct (bool_decide _); [intros [= <- <-]; apply syms_only_refl|].
  destruct (bool_decide _); [apply bound_syms_only|]. destruct (bool_decide _); [apply bound_syms_only|].
  intros [= <- <-]; apply syms_only_refl.
Qed.
Lemma special_syms w w' : handle_special_symbols w = Ok w' -> Forall2 syms_only (w_sections w) (w_sections w').
Proof.
  unfold handle_special_symbols. intros H. apply bind_Ok in H as ([t secs] & H & [= <-]). simpl in H.
  assert (Hg : w_sections (set_got_symbol w) = w_sections w) by (unfold set_got_symbol; destruct (st_get _ _); done).
  rewrite Hg in H. simpl. eapply mapM_st_F2; [|exact H]. intros s a s' a'. apply special_step_syms.
Qed.

(** What patching the PLT computes and where it goes. *)
Lemma patch_plt_fine w w' : patch_plt_and_got_plt w = Ok w' -> exists ps gs pc pd pd' gd',
  get_section id_plt (w_sections w) = Some ps /\ get_section id_got_plt (w_sections w) = Some gs /\
  sc_chunks ps !! 0%nat = Some pc /\ patch_plt_header (addr ps) (addr gs) (c_data pc) = Ok pd /\
  foldM (patch_plt_step (w_symtab w) (addr ps) (addr gs)) (w_got_plt w) (pd, default [] (c_data <$> sc_chunks gs !! 0%nat)) = Ok (pd', gd') /\
  w_sections w' = (match w_got_plt w with [] => fun s => s | _ => on id_got_plt (set_chunk_data 0 gd') end ∘ on id_plt (set_chunk_data 0 pd')) <$> w_sections w.
Proof.
  unfold patch_plt_and_got_plt, patch_plt_and_got_plt_in. intros H.
  apply bind_Ok in H as (p & Hp & H). apply bind_Ok in H as (g & Hg & H). apply bind_Ok in H as (pc & Hpc & H). apply bind_Ok in H as (pd & Hpd & H).
  apply unwrap_Ok in Hp, Hg. apply index_Ok in Hpc. destruct (w_got_plt w) as [|x l].
  - injection H as <-. exists p, g, pc, pd, pd, (default [] (c_data <$> sc_chunks g !! 0%nat)). split_and!; try done.
  - apply bind_Ok in H as (gc & Hgc & H). apply bind_Ok in H as ([pd' gd'] & Hf & [= <-]). apply index_Ok in Hgc.
    exists p, g, pc, pd, pd', gd'. split_and!; try done.
    + rewrite Hgc. exact Hf.
    + simpl. rewrite !upd_on, list_fmap_compose. done.
Qed.
Lemma patch_header_len pa ga d d' : patch_plt_header pa ga d = Ok d' -> length d' = length d.
Proof.
  unfold patch_plt_header, write_i32. intros H. apply bind_Ok in H as (v1 & _ & H). apply bind_Ok in H as (d1 & H1 & H). apply bind_Ok in H as (v2 & _ & H).
  apply write_len in H1, H. unfold blen in *. lia.
Qed.
Lemma patch_step_len t pa ga d g x d' g' : patch_plt_step t pa ga (d, g) x = Ok (d', g') -> length d' = length d /\ length g' = length g.
Proof.
  unfold patch_plt_step, write_i32. destruct x as [r off]. intros H. apply bind_Ok in H as (sy & _ & H). apply bind_Ok in H as (pi & _ & H). apply bind_Ok in H as (en & _ & H).
  apply bind_Ok in H as (g1 & Hg & H). apply bind_Ok in H as (v & _ & H). apply bind_Ok in H as (d1 & H1 & H). apply bind_Ok in H as (ro & _ & H).
  apply bind_Ok in H as (d2 & H2 & H). apply bind_Ok in H as (v2 & _ & H). apply bind_Ok in H as (d3 & H3 & [= <- <-]).
  apply write_len in Hg, H1, H2, H3. unfold blen in *. lia.
Qed.
Lemma patch_steps_len t pa ga l d g d' g' : foldM (patch_plt_step t pa ga) l (d, g) = Ok (d', g') -> length d' = length d /\ length g' = length g.
Proof.
  revert d g. induction l as [|x l IH]; intros d g H; simpl in H; [by injection H as <- <-|].
  apply bind_Ok in H as ([d1 g1] & H1 & H). apply patch_step_len in H1. apply IH in H. destruct H1, H. lia.
Qed.

(** * The chain *)

(** The contents of the PLT and of .got.plt after patching. *)
Definition plt_patch (w4 : writer) (pd gd : bytes) : Prop := exists ps gs pc pd0,
  get_section id_plt (w_sections w4) = Some ps /\ get_section id_got_plt (w_sections w4) = Some gs /\
  sc_chunks ps !! 0%nat = Some pc /\ patch_plt_header (addr ps) (addr gs) (c_data pc) = Ok pd0 /\
  foldM (patch_plt_step (w_symtab w4) (addr ps) (addr gs)) (w_got_plt w4) (pd0, default [] (c_data <$> sc_chunks gs !! 0%nat)) = Ok (pd, gd).
Definition patched_plt (w4 : writer) (pd gd : bytes) (s : section) : section :=
  match w_got_plt w4 with [] => fun s => s | _ => on id_got_plt (set_chunk_data 0 gd) end (on id_plt (set_chunk_data 0 pd) s).
Definition tables_fn (w7 : writer) (s : section) : section :=
  on id_pltrel (sec_add_chunk (chunk_new (w_plt_rels (compute_tables w7) ≫= ser_rela)))
    (on id_dynrel (sec_add_chunk (chunk_new (w_dyn_rels (compute_tables w7) ≫= ser_rela)))
    (on id_dynamic (sec_add_chunk (chunk_new (ser_dyns (w_dyn_entries w7))))
    (on id_dynstr (sec_add_chunk (chunk_new (st_chunk_data (w_dynstr w7))))
    (on id_symstr (sec_add_chunk (chunk_new (st_chunk_data (w_strtab w7))))
    (on id_shstr (sec_add_chunk (chunk_new (st_chunk_data (w_shstrtab w7)))) s))))).
Definition reloc_fn (w6 w7 : writer) (s s' : section) : Prop := kept s s' /\
  if relocatable w6 s then mapM_res (chunk_apply_relocations (sh_addr (hdr_of id_got (w_sections w6))) (sh_addr (hdr_of id_plt (w_sections w6))) (w_symtab w7) (w_dynsym w6)) (sc_chunks s) = Ok (sc_chunks s')
  else s' = s.

Record hist (o : oracle) (wr ws w1 : writer) (extra : N) (rest' : list section) (w4 : writer) (pd gd : bytes) (w5 w6 w7 w : writer)
    (i : nat) (a0 a1 a3 a6 a7 b : section) : Prop := {
  h_id : sc_id a0 = sc_id b;
  h_pos : (0 < sc_id b)%nat;
  h_wr : w_sections wr !! sc_id b = Some a0;
  h_ws : w_sections ws !! sc_id b = Some a1;
  h_scan : kept a0 a1 /\ Forall2 (fun c c' => c' = c <| c_relocations := c_relocations c' |> /\ Forall2 (scanned (w_symtab wr)) (c_relocations c) (c_relocations c')) (sc_chunks a0) (sc_chunks a1);
  h_placed : only_placed (size_fn o ws (w_hash w1) (w_gnu_hash w1) (blen (w_dyn_rels w1)) (blen (w_plt_rels w1)) extra a1 <| sc_index := N.of_nat (S i) |>) a3;
  h_w3 : rest' !! i = Some a3;
  h_w5 : w_sections w5 !! S i = Some (patched_plt w4 pd gd a3);
  h_special : syms_only (patched_plt w4 pd gd a3) a6;
  h_w6 : w_sections w6 !! S i = Some a6;
  h_rel : reloc_fn w6 w7 a6 a7;
  h_w7 : w_sections w7 !! S i = Some a7;
  h_w : w_sections w !! S i = Some (tables_fn w7 a7);
  h_fin : sec_finalize o w (tables_fn w7 a7) = Ok b;
  h_written : written w a3 b }.
Global Arguments h_id {_ _ _ _ _ _ _ _ _ _ _ _ _ _ _ _ _ _ _ _} _.
Global Arguments h_pos {_ _ _ _ _ _ _ _ _ _ _ _ _ _ _ _ _ _ _ _} _.
Global Arguments h_wr {_ _ _ _ _ _ _ _ _ _ _ _ _ _ _ _ _ _ _ _} _.
Global Arguments h_ws {_ _ _ _ _ _ _ _ _ _ _ _ _ _ _ _ _ _ _ _} _.
Global Arguments h_scan {_ _ _ _ _ _ _ _ _ _ _ _ _ _ _ _ _ _ _ _} _.
Global Arguments h_placed {_ _ _ _ _ _ _ _ _ _ _ _ _ _ _ _ _ _ _ _} _.
Global Arguments h_w3 {_ _ _ _ _ _ _ _ _ _ _ _ _ _ _ _ _ _ _ _} _.
Global Arguments h_w5 {_ _ _ _ _ _ _ _ _ _ _ _ _ _ _ _ _ _ _ _} _.
Global Arguments h_special {_ _ _ _ _ _ _ _ _ _ _ _ _ _ _ _ _ _ _ _} _.
Global Arguments h_w6 {_ _ _ _ _ _ _ _ _ _ _ _ _ _ _ _ _ _ _ _} _.
Global Arguments h_rel {_ _ _ _ _ _ _ _ _ _ _ _ _ _ _ _ _ _ _ _} _.
Global Arguments h_w7 {_ _ _ _ _ _ _ _ _ _ _ _ _ _ _ _ _ _ _ _} _.
Global Arguments h_w {_ _ _ _ _ _ _ _ _ _ _ _ _ _ _ _ _ _ _ _} _.
Global Arguments h_fin {_ _ _ _ _ _ _ _ _ _ _ _ _ _ _ _ _ _ _ _} _.
Global Arguments h_written {_ _ _ _ _ _ _ _ _ _ _ _ _ _ _ _ _ _ _ _} _.

Section hist.
  Context {wd : world} {lo : lib_oracle} {l : linker} {fuel : nat} {w : writer} {secs : list section}
    {w0 wr ws w1 : writer} {extra : N} {null : section} {rest rest' : list section} {st : layout} {w3 w4 w5 w6 w7 : writer}
    {null' : section} {out : list section}.
  Context (O : outcome wd lo l fuel w secs w0 wr ws w1 extra null rest rest' st w3 w4 w5 w6 w7 null' out).
  Context (Fin : mapM_res (sec_finalize (lo_writer lo) w) (w_sections w) = Ok secs).
  Context (V : valid_oracle (lo_writer lo)).
  Let o := lo_writer lo.

  Lemma w4_sections : w_sections w4 = w_sections w3.
  Proof using O. by destruct (run_w4 (oc_run O)) as (es & -> & _). Qed.
  Lemma ws_ids i s : w_sections ws !! i = Some s -> sc_id s = i.
  Proof using O.
    intros Hi. destruct (Forall2_lookup_r _ _ _ _ _ (scan_secs _ _ (sz_scan _ _ _ _ _ (rn_sizing (oc_run O)))) Hi) as (a & Ha & Hk & _).
    rewrite (proj1 (proj2 (kept_sh _ _ Hk))). exact (wi_ids _ _ _ (oc_winv O) _ _ Ha).
  Qed.
  Lemma rest_from i s : o_sort o rest !! i = Some s -> exists a1, w_sections ws !! sc_id s = Some a1 /\ (0 < sc_id s)%nat /\
    s = size_fn o ws (w_hash w1) (w_gnu_hash w1) (blen (w_dyn_rels w1)) (blen (w_plt_rels w1)) extra a1.
  Proof using O V.
    intros Hi. assert (Hin : s ∈ rest) by (rewrite <- (proj1 (vo_sort _ V rest)); by eapply elem_of_list_lookup_2).
    apply elem_of_list_lookup in Hin as [k Hk].
    assert (H1 : w_sections w1 !! S k = Some s) by (by rewrite (rn_secs1 (oc_run O))).
    rewrite (sz_secs _ _ _ _ _ (rn_sizing (oc_run O))), list_lookup_fmap in H1.
    destruct (w_sections ws !! S k) as [a1|] eqn:E; [|discriminate H1]. cbn in H1. apply (inj Some) in H1.
    assert (Hid : sc_id s = S k).
    { rewrite <- (ws_ids _ _ E), <- H1. exact (proj1 (sized_sig _ _ (sized_fn _ _ _ _ _ _ _ a1))). }
    exists a1. rewrite Hid. split; [done|]. split; [lia|]. by symmetry.
  Qed.
  Lemma history : exists pd gd, plt_patch w4 pd gd /\
    forall i b, out !! i = Some b -> exists a0 a1 a3 a6 a7, hist o wr ws w1 extra rest' w4 pd gd w5 w6 w7 w i a0 a1 a3 a6 a7 b.
  Proof using O Fin V.
    destruct (patch_plt_fine _ _ (rn_plt (oc_run O))) as (ps & gs & pc & pd0 & pd & gd & Hps & Hgs & Hpc & Hpd & Hf & E5).
    exists pd, gd. split; [exists ps, gs, pc, pd0; done|]. intros i b Hi.
    destruct (Forall2_lookup_r _ _ _ _ _ (oc_out O) Hi) as (a3 & Ha3 & Hw).
    destruct (Forall2_lookup_r _ _ _ _ _ (placed_all O) Ha3) as (a2 & Ha2 & Hpl).
    destruct (indexed_lookup _ _ _ Ha2) as (c & Hc & Ec).
    destruct (rest_from _ _ Hc) as (a1 & Hws & Hpos & E1).
    destruct (Forall2_lookup_r _ _ _ _ _ (proj2 (scan_relocations_scanned _ _ (sz_scan _ _ _ _ _ (rn_sizing (oc_run O))))) Hws) as (a0 & Ha0 & Hs0).
    assert (Hid : sc_id b = sc_id c).
    { rewrite (decl_id _ _ (proj1 Hw)). destruct Hpl as [-> _]. rewrite Ec. done. }
    assert (H5 : w_sections w5 !! S i = Some (patched_plt w4 pd gd a3)).
    { rewrite E5, list_lookup_fmap, w4_sections, (run_w3_secs (oc_run O)). simpl. rewrite Ha3. done. }
    destruct (Forall2_lookup_l _ _ _ _ _ (special_syms _ _ (rn_special (oc_run O))) H5) as (a6 & H6 & Hsy).
    assert (H60 : exists n6 r6, w_sections w6 = n6 :: r6). { destruct (w_sections w6); [done|eauto]. }
    destruct H60 as (n6 & r6 & Es6).
    destruct (handle_relocs_spec _ _ _ _ Es6 (rn_rel (oc_run O))) as (t & r7 & E7 & _ & F7).
    rewrite Es6 in H6. destruct (Forall2_lookup_l _ _ _ _ _ F7 H6) as (a7 & Ha7 & K7).
    assert (H7 : w_sections w7 !! S i = Some a7) by (by rewrite E7).
    assert (Hw' : w_sections w !! S i = Some (tables_fn w7 a7)).
    { destruct (run_fields (oc_run O)) as (_ & _ & _ & _ & _ & _ & _ & _ & _ & _ & _ & _ & _ & _ & _ & _ & _ & _ & _ & _ & -> & _).
      rewrite compute_tables_spec, list_lookup_fmap, H7. done. }
    assert (Hfin : sec_finalize o w (tables_fn w7 a7) = Ok b).
    { destruct (Forall2_lookup_l _ _ _ _ _ (mapM_res_F2 (fun a b => sec_finalize o w a = Ok b) _ _ _ (fun a b H => H) Fin) Hw') as (b' & Hb' & Hf').
      rewrite (oc_secs O) in Hb'. simpl in Hb'. by simplify_eq. }
    exists a0, a1, a3, a6, a7. split.
    - rewrite Hid. exact (wi_ids _ _ _ (oc_winv O) _ _ Ha0).
    - by rewrite Hid.
    - by rewrite Hid.
    - by rewrite Hid.
    - exact Hs0.
    - rewrite <- E1, <- Ec. exact Hpl.
    - exact Ha3.
    - exact H5.
    - exact Hsy.
    - by rewrite Es6.
    - destruct K7 as [K7 K7']. split; [exact K7|]. assert (Et : w_symtab w7 = t) by (by rewrite E7). rewrite Et. exact K7'.
    - exact H7.
    - exact Hw'.
    - exact Hfin.
    - exact Hw.
  Qed.
End hist.
