(** The bytes of the output file. *)
From Verif Require Export ProofSize.

(** * Writing sections at their offsets *)
Lemma write_sections_spec (l : list section) : forall out0 off0,
  blen out0 = off0 -> (forall s, s ∈ l -> blen (contents s) = filesz s) -> (forall s, s ∈ l -> off0 <= offset s \/ filesz s = 0 /\ offset s = 0) ->
  ordered (fun a b => offset a + filesz a <= offset b) l ->
  exists tail, (write_sections l out0 off0).1 = out0 ++ tail /\
    blen (out0 ++ tail) = match last l with Some s => N.max off0 (offset s + filesz s) | None => off0 end /\
    forall s, s ∈ l -> take (N.to_nat (filesz s)) (drop (N.to_nat (offset s)) (out0 ++ tail)) = contents s.
Proof.
  induction l as [|s l IH]; intros out0 off0 Hb Hc Ho Hord.
  - exists []. rewrite app_nil_r. split; [done|]. split; [done|]. intros s Hs. by apply elem_of_nil in Hs.
  - cbn [write_sections]. fold (offset s). fold (contents s).
    assert (Hsd : size_on_disk s = filesz s) by reflexivity. rewrite Hsd. clear Hsd.
    pose proof (Hc s ltac:(left)) as Hcs. pose proof (Ho s ltac:(left)) as Hos.
    assert (Hs1 : exists pad, (if off0 <? offset s then (out0 ++ zeros (offset s - off0), offset s) else (out0, off0)) = (out0 ++ pad, N.max off0 (offset s)) /\
        blen (out0 ++ pad) = N.max off0 (offset s)).
    { destruct (N.ltb_spec off0 (offset s)).
      - exists (zeros (offset s - off0)). split; [by rewrite N.max_r by lia|]. unfold zeros, blen in *. rewrite app_length, replicate_length. lia.
      - exists []. rewrite app_nil_r. rewrite N.max_l by lia. done. }
    destruct Hs1 as (pad & -> & Hpad).
    destruct (IH ((out0 ++ pad) ++ contents s) (N.max off0 (offset s) + filesz s)) as (tail & E & Hl & Hr).
    + unfold blen in *. rewrite app_length. lia.
    + intros s' Hs'. apply Hc. by right.
    + intros s' Hs'. destruct (Ho s' ltac:(by right)) as [H1|H1]; [|by right]. left. apply elem_of_list_lookup in Hs' as [i Hi].
      pose proof (Hord 0%nat (S i) s s' ltac:(lia) eq_refl Hi) as H2. cbv beta in H2. lia.
    + intros i j a b Hij Ha Hb'. exact (Hord (S i) (S j) a b ltac:(lia) Ha Hb').
    + exists (pad ++ contents s ++ tail). rewrite E, !app_assoc. split; [done|]. split.
      * rewrite Hl. destruct (last (s :: l)) as [z|] eqn:Ez; [|by apply last_None in Ez].
        destruct (last l) as [y|] eqn:Ey.
        -- assert (z = y) as ->. { destruct l; [done|]. change (last (s :: s0 :: l)) with (last (s0 :: l)) in Ez. congruence. }
           assert (Hy : y ∈ l) by (rewrite last_lookup in Ey; by eapply elem_of_list_lookup_2).
           apply elem_of_list_lookup in Hy as [i Hi]. pose proof (Hord 0%nat (S i) s y ltac:(lia) eq_refl Hi) as H2. cbv beta in H2.
           destruct Hos as [?|[? ?]]; lia.
        -- apply last_None in Ey. subst l. injection Ez as <-. destruct Hos as [?|[? ?]]; lia.
      * intros x [->|Hx]%elem_of_cons.
        -- destruct (decide (filesz s = 0)) as [E0|E0].
           { rewrite E0 in *. simpl. unfold blen in Hcs. destruct (contents s); [done|simpl in Hcs; lia]. }
           destruct Hos as [Hos|[? ?]]; [|lia]. rewrite <- (app_assoc (out0 ++ pad)).
           rewrite drop_app_alt by (unfold blen in Hpad; lia). rewrite take_app_alt by (unfold blen in Hcs; lia). done.
        -- specialize (Hr x Hx). rewrite <- !app_assoc in Hr |- *. exact Hr.
Qed.

Section file.
  Context {wd : world} {lo : lib_oracle} {l : linker} {fuel : nat} {w : writer} {secs : list section}
    {w0 wr ws w1 : writer} {extra : N} {null : section} {rest rest' : list section} {st : layout} {w3 w4 w5 w6 w7 : writer}
    {null' : section} {out : list section}.
  Context (O : outcome wd lo l fuel w secs w0 wr ws w1 extra null rest rest' st w3 w4 w5 w6 w7 null' out).
  Context (Fin : mapM_res (sec_finalize (lo_writer lo) w) (w_sections w) = Ok secs).
  Context (V : valid_oracle (lo_writer lo)) (P : plain_inputs wd l).

  (** The null section stays empty. *)
  Lemma null_empty : contents null' = [] /\ memsz null' = 0 /\ offset null' = 0 /\ sc_synth null' = None.
  Proof using O Fin P.
    destruct (pv_null _ _ _ _ _ (wr_pinv O P)) as (a0 & Ha0 & Hc0 & Hm0).
    destruct (Forall2_lookup_l _ _ _ _ _ (proj2 (scan_relocations_scanned _ _ (sz_scan _ _ _ _ _ (rn_sizing (oc_run O))))) Ha0) as (a1 & Ha1 & Hk & HS).
    assert (Hc1 : contents a1 = []).
    { rewrite <- Hc0. unfold contents. clear -HS. induction HS as [|c c' cs cs' [E _] HS IH]; [done|]. rewrite !bind_cons. rewrite IH, E. reflexivity. }
    assert (En : null = size_fn (lo_writer lo) ws (w_hash w1) (w_gnu_hash w1) (blen (w_dyn_rels w1)) (blen (w_plt_rels w1)) extra a1).
    { assert (H1 : w_sections w1 !! 0%nat = Some null) by (by rewrite (rn_secs1 (oc_run O))).
      rewrite (sz_secs _ _ _ _ _ (rn_sizing (oc_run O))), list_lookup_fmap, Ha1 in H1. cbn in H1. apply (inj Some) in H1. by symmetry. }
    destruct (fixed_row O 0%nat _ eq_refl) as (s & r & Hs & Hid & Hr & Hrow & Hsig & _). rewrite Ha0 in Hs. apply (inj Some) in Hs. subst s.
    assert (Hown : own (sc_id a1) (sc_synth a1) (sh_type (sc_sh a1))).
    { pose proof (kept_decl _ _ Hk) as D. unfold same_decl in D. rewrite (decl_id _ _ D), (decl_synth _ _ D), (decl_type _ _ D), Hid.
      unfold ref_row in Hrow. unfold sec_sig in Hsig.
      assert (E1 : sc_synth a0 = None) by congruence. assert (E2 : sh_type (sc_sh a0) = 0) by congruence. rewrite E1, E2. split; [reflexivity|]. split; discriminate. }
    assert (Hid1 : sc_id a1 = 0%nat) by (rewrite (decl_id _ _ (kept_decl _ _ Hk)); exact Hid).
    assert (Hsy1 : sc_synth a1 = None) by (destruct Hown as [Ho _]; rewrite Hid1 in Ho; exact Ho).
    destruct (size_made (lo_writer lo) ws (w_hash w1) (w_gnu_hash w1) (blen (w_dyn_rels w1)) (blen (w_plt_rels w1)) extra a1 Hown) as [Hcn Hmn].
    rewrite <- En, Hid1, Hsy1 in Hcn, Hmn. unfold made in Hcn, Hmn. cbn [fst snd] in Hcn, Hmn. rewrite app_nil_r in Hcn.
    assert (Hnid : sc_id null = 0%nat /\ sc_synth null = None /\ offset null = offset a0).
    { rewrite En. destruct (sized_sig _ _ (sized_fn (lo_writer lo) ws (w_hash w1) (w_gnu_hash w1) (blen (w_dyn_rels w1)) (blen (w_plt_rels w1)) extra a1)) as (-> & _ & _ & -> & _).
      split; [exact Hid1|]. split; [exact Hsy1|]. rewrite (sized_fn (lo_writer lo) ws (w_hash w1) (w_gnu_hash w1) (blen (w_dyn_rels w1)) (blen (w_plt_rels w1)) extra a1).
      unfold offset. cbn. by rewrite (proj1 (kept_sh _ _ Hk)). }
    destruct Hnid as (Hnid & Hnsy & Hnof).
    (* through the later stages *)
    destruct (patch_plt_fine _ _ (rn_plt (oc_run O))) as (ps & gs & pc & pd0 & pd & gd & _ & _ & _ & _ & _ & E5).
    assert (H5 : w_sections w5 !! 0%nat = Some (null <| sc_index := 0 |>)).
    { rewrite E5, list_lookup_fmap, (w4_sections O), (run_w3_secs (oc_run O)). cbn [lookup list_lookup fmap option_fmap option_map]. f_equal.
      apply (patched_other w4 pd gd); rewrite Hnid || (change (sc_id (null <| sc_index := 0 |>)) with (sc_id null); rewrite Hnid); discriminate. }
    destruct (Forall2_lookup_l _ _ _ _ _ (special_syms _ _ (rn_special (oc_run O))) H5) as (a6 & H6 & Hk6 & Hsy).
    destruct (w_sections w6) as [|n6 r6] eqn:Es6; [discriminate H6|]. cbn in H6. apply (inj Some) in H6. subst n6.
    destruct (handle_relocs_spec _ _ _ _ Es6 (rn_rel (oc_run O))) as (t & r7 & E7 & _ & _).
    assert (Hw : w_sections w !! 0%nat = Some (tables_fn w7 a6)).
    { destruct (run_fields (oc_run O)) as (_ & _ & _ & _ & _ & _ & _ & _ & _ & _ & _ & _ & _ & _ & _ & _ & _ & _ & _ & _ & -> & _).
      rewrite compute_tables_spec, list_lookup_fmap. assert (E0 : w_sections w7 !! 0%nat = Some a6) by (rewrite E7; reflexivity). rewrite E0. reflexivity. }
    destruct (Forall2_lookup_l _ _ _ _ _ (mapM_res_F2 (fun a b => sec_finalize (lo_writer lo) w a = Ok b) _ _ _ (fun a b H => H) Fin) Hw) as (b & Hb & Hf).
    rewrite (oc_secs O) in Hb. cbn in Hb. apply (inj Some) in Hb. subst b.
    destruct (finalize_spec _ _ _ _ Hf) as (_ & _ & Hcf & _). destruct (tables_chunks w7 a6) as [Hkt Ht].
    assert (Hsyn : sc_synth (tables_fn w7 a6) = None). { rewrite Hkt. cbn. rewrite Hk6. cbn. exact Hnsy. }
    assert (Hid6 : sc_id a6 = 0%nat). { rewrite Hk6. cbn. exact Hnid. }
    rewrite Hsyn in Hcf. rewrite Ht, Hid6 in Hcf. unfold tables_of, table_at in Hcf. rewrite app_nil_r in Hcf.
    pose proof (oc_null O) as Hw'.
    split; [|split; [|split]].
    - unfold contents. rewrite Hcf. rewrite (same_bytes_bind (sc_chunks (null <| sc_index := 0 |>)) (sc_chunks a6)).
      + change (contents null = []). unfold contents. rewrite Hcn. exact Hc1.
      + eapply Forall2_impl; [exact Hsy|]. intros c c' Hcc. rewrite Hcc. split; reflexivity.
    - rewrite (written_memsz _ _ _ Hw').
      + change (memsz null = 0). rewrite Hmn. unfold memsz. rewrite (proj1 (kept_sh _ _ Hk)). exact Hm0.
      + rewrite (written_synth _ _ _ Hw'). change (sc_synth null <> Some KCopyRel). rewrite Hnsy. discriminate.
    - destruct Hw' as (_ & _ & _ & -> & _). change (offset null = 0). rewrite Hnof. unfold ref_row in Hrow. unfold sec_sig in Hsig.
      assert (E : sh_offset (sc_sh a0) = sh_offset (sc_sh r)) by congruence. unfold offset. rewrite E. clear -Hr Hrow.
      destruct (opt_hash_style (lk_options l)); vm_compute in Hr; injection Hr as <-; reflexivity.
    - rewrite (written_synth _ _ _ Hw'). exact Hnsy.
  Qed.

  Lemma secs_len : blen (w_sections w) = blen secs.
  Proof using Fin. unfold blen. f_equal. apply (Forall2_length (fun _ _ => True)). eapply mapM_res_F2; [|exact Fin]. done. Qed.
  Lemma out_end : exists s, last out = Some s /\ offset s + filesz s = ly_file_offset st.
  Proof using O V.
    assert (HT : forall names k x0 st' k', mapM_st (layout_step names) k (mkLayout 0 0x200000 (Some x0) 0 None []) = Ok (st', k') -> 
      match last k' with Some s => offset s + filesz s = ly_file_offset st' | None => ly_file_offset st' = 0 end).
    { clear. intros names k x0 st' k' H.
      assert (HH : cur_ok st' /\ match last k' with Some s => offset s + filesz s = ly_file_offset st' | None => ly_file_offset st' = 0 end); [|exact (proj2 HH)].
      apply (mapM_st_trace (fun _ k' st' => cur_ok st' /\ match last k' with Some s => offset s + filesz s = ly_file_offset st' | None => ly_file_offset st' = 0 end)) in H; [exact H| |].
      - split; [|reflexivity]. unfold cur_ok. cbn. split; [intros Hx; by destruct Hx|done].
      - intros pre pre' post t1 a t2 a' _ [Hcu _] Hs. destruct (step_spec _ _ _ _ _ Hs) as (st1 & Hp & t & _ & Ht).
        pose proof (cur_ok_placed _ _ _ _ Hcu Hp) as Hc1. destruct (placed_range _ _ _ _ Hcu Hp) as (_ & _ & E & _). rewrite last_snoc.
        destruct t; [destruct Ht as (ph & -> & _)|subst t2]; (split; [exact Hc1|exact E]). }
    specialize (HT _ _ _ _ _ (oc_layout O)). destruct (fixed_out O V 4%nat _ ltac:(lia) eq_refl) as (x & Hx & _).
    destruct (last out) as [s|] eqn:E; [|apply last_None in E; subst out; by apply elem_of_nil in Hx].
    exists s. split; [done|]. rewrite last_lookup in E. destruct (rest'_out O _ _ E) as (a & Ha & Hw).
    rewrite (out_filesz O V a s) by (first [by eapply elem_of_list_lookup_2|done]).
    assert (Hl : last rest' = Some a). { rewrite last_lookup. rewrite (Forall2_length _ _ _ (oc_out O)). exact Ha. }
    rewrite Hl in HT. destruct Hw as (_ & _ & _ & -> & _). done.
  Qed.
  Lemma file_bytes data : no_lone_write out -> stt_total_len (w_shstrtab w) < 2^32 -> length (e_ident (w_eh w)) = 16%nat ->
    write_to_disk (lo_writer lo) w = Ok data ->
    exists tail, data = (ser_ehdr (w_eh w) ++ (w_program_headers w ≫= ser_phdr) ++ tail) ++ ((sc_sh <$> secs) ≫= ser_shdr) /\
      blen (ser_ehdr (w_eh w) ++ (w_program_headers w ≫= ser_phdr) ++ tail) = e_shoff (w_eh w) /\
      forall s, s ∈ secs -> take (N.to_nat (filesz s)) (drop (N.to_nat (offset s)) data) = contents s.
  Proof using O Fin V P.
    intros HW Ht Hid H. unfold write_to_disk in H. rewrite Fin in H. cbn [mbind res_bind] in H. cbv zeta in H.
    destruct null_empty as (Nc & Nm & No & _).
    destruct (final_headers O) as (ph & Eph & _ & _ & Hpo & _ & Hsh & _). pose proof (header_count O V HW Ht) as HC.
    set (hd := ser_ehdr (w_eh w) ++ (w_program_headers w ≫= ser_phdr)) in *.
    assert (Hhd : blen hd = EHDR_SIZE + blen (w_program_headers w) * PHDR_SIZE).
    { unfold hd, blen. rewrite app_length, (ser_ehdr_length _ Hid), (bind_length _ _ 56) by apply ser_phdr_length. unfold EHDR_SIZE, PHDR_SIZE. lia. }
    assert (Nf : filesz null' = 0) by (unfold filesz; rewrite Nm; by destruct (is_nobits null')).
    assert (Hoff : forall s, s ∈ out -> blen hd <= offset s).
    { intros s Hs. apply elem_of_list_lookup in Hs as [i Hi]. destruct (rest'_out O _ _ Hi) as (a & Ha & Hw).
      pose proof (after_headers O V a HW (elem_of_list_lookup_2 _ _ _ Ha)). destruct Hw as (_ & _ & _ & -> & _). rewrite Hhd. unfold EHDR_SIZE, PHDR_SIZE. lia. }
    destruct (write_sections_spec secs hd (EHDR_SIZE + blen (w_program_headers w) * PHDR_SIZE) Hhd) as (tail & E & Hl & Hr).
    - intros s Hs. rewrite (oc_secs O) in Hs. apply elem_of_cons in Hs as [->|Hs]; [by rewrite Nc, Nf|]. by apply (contents_size O Fin V P).
    - intros s Hs. rewrite (oc_secs O) in Hs. apply elem_of_cons in Hs as [->|Hs]; [right; done|]. left. rewrite <- Hhd. by apply Hoff.
    - intros i j a b Hij Ha Hb. rewrite (oc_secs O) in Ha, Hb. destruct j as [|j]; [lia|]. cbn in Hb. destruct i as [|i]; cbn in Ha.
      + injection Ha as <-. rewrite No, Nf. lia.
      + apply (out_file_ordered O V i j); [lia|done|done].
    - destruct (write_sections secs hd (EHDR_SIZE + blen (w_program_headers w) * PHDR_SIZE)) as [o2 x] eqn:Ew. cbn [fst] in E. subst o2. injection H as <-.
      exists tail. rewrite (app_assoc (ser_ehdr (w_eh w))). fold hd. split; [f_equal; by rewrite list_fmap_bind || (unfold compose; induction secs as [|? ? IHs]; [done|rewrite fmap_cons, !bind_cons; by rewrite IHs])|].
      destruct out_end as (z & Ez & Hz).
      assert (Hlz : last secs = Some z). { rewrite (oc_secs O). destruct out; [discriminate Ez|exact Ez]. }
      rewrite Hlz in Hl. assert (Hz2 : z ∈ out) by (rewrite last_lookup in Ez; by eapply elem_of_list_lookup_2). pose proof (Hoff z Hz2).
      split; [rewrite Hsh, Hl; lia|].
      intros s Hs. specialize (Hr s Hs). rewrite <- Hr. destruct (decide (filesz s = 0)) as [E0|E0]; [by rewrite E0|].
      assert (Hso : s ∈ out). { rewrite (oc_secs O) in Hs. apply elem_of_cons in Hs as [->|Hs]; [congruence|done]. }
      assert (Hend : offset s + filesz s <= blen (hd ++ tail)).
      { rewrite Hl. apply elem_of_list_lookup in Hso as [i Hi]. rewrite last_lookup in Ez. destruct (decide (i = pred (length out))) as [->|Hn].
        - assert (s = z) as -> by congruence. lia.
        - pose proof (lookup_lt_Some _ _ _ Hi). pose proof (out_file_ordered O V i (pred (length out)) s z ltac:(lia) Hi Ez). lia. }
      rewrite drop_app_le by (unfold blen in Hend; lia). rewrite take_app_le; [done|]. rewrite drop_length. unfold blen in Hend. lia.
  Qed.
  Theorem file_parses data : no_lone_write out -> stt_total_len (w_shstrtab w) < 2^32 ->
    ehdr_fits (w_eh w) -> Forall phdr_fits (w_program_headers w) -> Forall shdr_fits (sc_sh <$> secs) -> blen (w_program_headers w) < 2^16 -> blen secs < 2^16 ->
    write_to_disk (lo_writer lo) w = Ok data ->
    rd_ehdr data 0 = Some (w_eh w) /\
    rd_table rd_phdr (e_phentsize (w_eh w)) (N.to_nat (e_phnum (w_eh w))) data (e_phoff (w_eh w)) = Some (w_program_headers w) /\
    rd_table rd_shdr (e_shentsize (w_eh w)) (N.to_nat (e_shnum (w_eh w))) data (e_shoff (w_eh w)) = Some (sc_sh <$> secs) /\
    forall s, s ∈ secs -> rd_bytes (N.to_nat (filesz s)) data (offset s) = Some (contents s).
  Proof using O Fin V P.
    intros HW Ht Fe Fp Fs Hp Hs H. destruct (file_bytes data HW Ht (proj1 Fe) H) as (tail & E & Hl & Hr).
    destruct (final_headers O) as (ph & _ & _ & Hpn & Hpo & Hpe & Hsh & Hsn & _ & Hse & _). rewrite Hpn, Hpo, Hpe, Hsn, Hse, secs_len.
    assert (U : forall n, n < 2^16 -> u16 n = n) by (intros n Hn; unfold u16; apply N.mod_small; exact Hn). rewrite !U by done.
    split; [|split; [|split]].
    - rewrite E, <- !app_assoc. exact (rd_ehdr_ser [] _ _ Fe).
    - rewrite E, <- !app_assoc. assert (E64 : 64 = blen (ser_ehdr (w_eh w))) by (unfold blen; rewrite (ser_ehdr_length _ (proj1 Fe)); reflexivity).
      rewrite E64. unfold blen at 1. rewrite Nat2N.id. exact (rd_table_ser rd_phdr ser_phdr phdr_fits 56 rd_phdr_ser ser_phdr_length _ _ _ Fp).
    - rewrite E. rewrite <- Hl. unfold blen at 1. rewrite Nat2N.id. rewrite <- (fmap_length sc_sh secs).
      pose proof (rd_table_ser rd_shdr ser_shdr shdr_fits 64 rd_shdr_ser ser_shdr_length (sc_sh <$> secs) (ser_ehdr (w_eh w) ++ (w_program_headers w ≫= ser_phdr) ++ tail) [] Fs) as HT.
      rewrite app_nil_r in HT. exact HT.
    - intros s Hs'. unfold rd_bytes. cbv zeta. rewrite (Hr s Hs').
      assert (Hlen : length (contents s) = N.to_nat (filesz s)).
      { rewrite (oc_secs O) in Hs'. apply elem_of_cons in Hs' as [->|Hs'].
        - destruct null_empty as (-> & Nm & _). unfold filesz. rewrite Nm. by destruct (is_nobits null').
        - pose proof (contents_size O Fin V P s Hs') as Hc. unfold blen in Hc. lia. }
      by rewrite decide_True.
  Qed.
End file.
