(** Every section's data has the size its header says. *)
From Verif Require Export ProofBytes.

(** * The set of symbols does not change after input is read *)
Definition same_names (t t' : symtab) : Prop := dom (syt_symbols t') = dom (syt_symbols t).
Lemma same_names_trans a b c : same_names a b -> same_names b c -> same_names a c.
Proof. unfold same_names. congruence. Qed.
Lemma modify_names t r f : same_names t (syt_modify t r f).
Proof. unfold same_names, syt_modify. destruct r; [simpl; apply dom_alter_L|done]. Qed.
Lemma same_names_size t t' : same_names t t' -> size (syt_symbols t') = size (syt_symbols t).
Proof. unfold same_names. intros H. rewrite <- !size_dom. by rewrite H. Qed.
Lemma fold_names {A} (f : symtab -> A -> symtab) l t : (forall t a, same_names t (f t a)) -> same_names t (fold_left f l t).
Proof.
  intros Hf. revert t. induction l as [|a l IH]; intros t; [done|]. simpl. eapply same_names_trans; [apply Hf|apply IH].
Qed.
Lemma patch_names s t : same_names t (patch_symbol_values s t).
Proof.
  unfold patch_symbol_values. generalize (sh_addr (sc_sh s)). generalize (sc_chunks s). intros cs. revert t.
  induction cs as [|c cs IH]; intros t base; [done|]. simpl. eapply same_names_trans; [|apply IH]. apply fold_names. intros. apply modify_names.
Qed.
Lemma bound_names sn a b t s t' s' : bound_symbols sn a b t s = Ok (t', s') -> same_names t t'.
Proof.
  unfold bound_symbols. intros H. apply bind_Ok in H as (s1 & _ & H). destruct (st_get sn b); [|by injection H as <- <-].
  apply bind_Ok in H as (x & _ & H). destruct (sc_chunks s1); [done|]. injection H as <- <-. exact (modify_names t (RNamed _) _).
Qed.
Lemma special_step_names sn secn skip t s t' s' : special_step sn secn skip t s = Ok (t', s') -> same_names t t'.
Proof.
  unfold special_step. destruct (bool_decide _); [by intros [= <- <-]|].
  destruct (bool_decide _); [apply bound_names|]. destruct (bool_decide _); [apply bound_names|]. by intros [= <- <-].
Qed.
Lemma special_names w w' : handle_special_symbols w = Ok w' -> same_names (w_symtab w) (w_symtab w') /\ same_names (w_dynsym w) (w_dynsym w').
Proof.
  unfold handle_special_symbols. intros H. apply bind_Ok in H as ([t secs] & H & [= <-]). simpl.
  assert (Hg : same_names (w_symtab w) (w_symtab (set_got_symbol w)) /\ w_dynsym (set_got_symbol w) = w_dynsym w).
  { unfold set_got_symbol. destruct (st_get _ _); [|done]. split; [apply modify_names|done]. }
  destruct Hg as [Hg Hd]. split.
  - eapply same_names_trans; [exact Hg|]. apply (mapM_st_trace (fun _ _ t' => same_names (w_symtab (set_got_symbol w)) t')) in H; [exact H|done|].
    intros pre pre' post t1 a t2 a' _ H1 Hs. eapply same_names_trans; [exact H1|]. by eapply special_step_names.
  - rewrite Hd. unfold same_names. simpl. apply dom_fmap_L.
Qed.
Lemma dynrel_step_names ix s n s' : dynrel_step ix s n = Ok s' -> dom (dr_symbols s') = dom (dr_symbols s) /\ same_names (dr_dynsym s) (dr_dynsym s').
Proof.
  unfold dynrel_step. destruct (dr_symbols s !! n) as [sym|]; [|by intros [= <-]]. destruct (s_dynamic sym) as [d|]; [|by intros [= <-]].
  intros H. apply bind_Ok in H as (i & _ & H). apply bind_Ok in H as (ds & _ & [= <-]).
  assert (E : forall x : dynrel_state, dom (dr_symbols x) = dom (dr_symbols s) -> same_names (dr_dynsym s) (dr_dynsym x) ->
    let y := match s_in_got_plt sym with
             | Some offset => x <| dr_symbols := alter (fun s => s <| s_relocation_offset := Some (blen (dr_plt_rels x)) |>) n (dr_symbols x) |>
                    <| dr_plt_rels := dr_plt_rels x ++ [rela offset (N.of_nat i) R_X86_64_JUMP_SLOT] |>
             | None => x end in dom (dr_symbols y) = dom (dr_symbols s) /\ same_names (dr_dynsym s) (dr_dynsym y)).
  { intros x H1 H2. destruct (s_in_got_plt sym); simpl; [|done]. split; [by rewrite dom_alter_L|done]. }
  apply E; clear E.
  - destruct (is_object ds), (s_in_got sym); done.
  - destruct (is_object ds), (s_in_got sym); simpl; try apply modify_names; done.
Qed.
Lemma dynrel_names ix l s s' : foldM (dynrel_step ix) l s = Ok s' -> dom (dr_symbols s') = dom (dr_symbols s) /\ same_names (dr_dynsym s) (dr_dynsym s').
Proof.
  revert s. induction l as [|n l IH]; intros s H; simpl in H; [by injection H as <-|]. apply bind_Ok in H as (s1 & H1 & H).
  apply dynrel_step_names in H1 as [E1 E2]. apply IH in H as [E3 E4]. split; [congruence|by eapply same_names_trans].
Qed.

(** * Dynamic entries *)
Lemma dyn_entries_len names sh es : section_dyn_entries names sh = Ok es -> dyn_entries names sh = Ok (blen es).
Proof.
  unfold section_dyn_entries, dyn_entries. intros H. apply bind_Ok in H as (n & Hn & [= <-]). rewrite Hn. cbn [mbind res_bind]. f_equal.
  repeat (case_bool_decide; [subst; try discriminate; try reflexivity|]); simpl.
  all: destruct (sh_type sh =? SHT_DYNSYM), (sh_type sh =? SHT_INIT_ARRAY), (sh_type sh =? SHT_FINI_ARRAY), (sh_type sh =? SHT_STRTAB), (N.land _ _ =? _), (sh_type sh =? SHT_HASH), (sh_type sh =? SHT_GNU_HASH); try reflexivity.
Qed.
Definition nsum (l : list N) : N := foldr N.add 0 l.
Lemma nsum_perm l l' : l ≡ₚ l' -> nsum l = nsum l'.
Proof. induction 1; simpl; unfold nsum in *; simpl; lia. Qed.
(** The number of entries depends only on what a section keeps. *)
Definition decl_hdr (d : nat * option sid * option synth * N * N * N * N) : Shdr :=
  let '(_, _, _, name, ty, fl, _) := d in mkShdr name ty fl 0 0 0 0 0 0 0.
Definition entry_count (names : strtab) (sh : Shdr) : N := match dyn_entries names sh with Ok k => k | _ => 0 end.
Lemma entry_count_decl names s : entry_count names (sc_sh s) = entry_count names (decl_hdr (decl s)).
Proof. reflexivity. Qed.
Lemma extra_sum names (l : list section) e0 e : foldM (fun n s => k ← dyn_entries names (sc_sh s); Ok (n + k)) l e0 = Ok e ->
  e = e0 + nsum (entry_count names ∘ sc_sh <$> l).
Proof.
  revert e0. induction l as [|s l IH]; intros e0 H; [injection H as <-; unfold nsum; simpl; lia|]. simpl in H. apply bind_Ok in H as (e1 & H1 & H).
  apply bind_Ok in H1 as (k & Hk & [= <-]). apply IH in H. change (nsum (entry_count names ∘ sc_sh <$> s :: l)) with (entry_count names (sc_sh s) + nsum (entry_count names ∘ sc_sh <$> l)).
  assert (entry_count names (sc_sh s) = k) by (unfold entry_count; by rewrite Hk). lia.
Qed.
Lemma entries_sum names (l : list section) es0 es : foldM (fun es s => new ← section_dyn_entries names (sc_sh s); Ok (es ++ new)) l es0 = Ok es ->
  exists new, es = es0 ++ concat new /\ Forall2 (fun s e => section_dyn_entries names (sc_sh s) = Ok e) l new /\ blen (concat new) = nsum (entry_count names ∘ sc_sh <$> l).
Proof.
  revert es0. induction l as [|s l IH]; intros es0 H; [injection H as <-; exists []; by rewrite app_nil_r|]. simpl in H. apply bind_Ok in H as (e1 & H1 & H).
  apply bind_Ok in H1 as (k & Hk & [= <-]). apply IH in H as (new & -> & HF & HL). exists (k :: new). split; [simpl; by rewrite app_assoc|]. split; [by constructor|].
  change (nsum (entry_count names ∘ sc_sh <$> s :: l)) with (entry_count names (sc_sh s) + nsum (entry_count names ∘ sc_sh <$> l)).
  assert (entry_count names (sc_sh s) = blen k) by (unfold entry_count; by rewrite (dyn_entries_len _ _ _ Hk)). change (concat (k :: new)) with (k ++ concat new).
  unfold blen in *. rewrite app_length. lia.
Qed.
Lemma decl_sum names (l l' : list section) : (decl <$> l) ≡ₚ (decl <$> l') -> nsum (entry_count names ∘ sc_sh <$> l) = nsum (entry_count names ∘ sc_sh <$> l').
Proof.
  assert (E : forall k : list section, entry_count names ∘ sc_sh <$> k = (entry_count names ∘ decl_hdr) <$> (decl <$> k)).
  { intros k. rewrite <- list_fmap_compose. apply list_fmap_ext. intros i s _. apply entry_count_decl. }
  intros H. rewrite !E. apply nsum_perm. by apply fmap_Permutation.
Qed.

Lemma bind_len {A} (f : A -> bytes) (k : list A) n : (forall a, length (f a) = n) -> blen (k ≫= f) = blen k * N.of_nat n.
Proof. intros Hf. unfold blen. rewrite (bind_length _ _ n Hf). lia. Qed.

Section size.
  Context {wd : world} {lo : lib_oracle} {l : linker} {fuel : nat} {w : writer} {secs : list section}
    {w0 wr ws w1 : writer} {extra : N} {null : section} {rest rest' : list section} {st : layout} {w3 w4 w5 w6 w7 : writer}
    {null' : section} {out : list section}.
  Context (O : outcome wd lo l fuel w secs w0 wr ws w1 extra null rest rest' st w3 w4 w5 w6 w7 null' out).
  Context (Fin : mapM_res (sec_finalize (lo_writer lo) w) (w_sections w) = Ok secs).
  Context (V : valid_oracle (lo_writer lo)) (P : plain_inputs wd l).
  Let o := lo_writer lo.
  Let n0 := length (w_sections w0).
  Let loader := string_bytes (opt_dynamic_linker (lk_options l)) ++ [0].

  Lemma ws_fields : w_shstrtab ws = w_shstrtab wr /\ w_strtab ws = w_strtab wr /\ w_dynstr ws = w_dynstr wr /\ w_dyn_entries ws = w_dyn_entries wr /\
    w_dynsym ws = w_dynsym wr.
  Proof using O. destruct (scan_flat _ _ (sz_scan _ _ _ _ _ (rn_sizing (oc_run O)))) as (sst & _ & ->). done. Qed.
  (** The dynamic section holds one entry per reserved slot. *)
  Lemma dyn_count : exists new, w_dyn_entries w = w_dyn_entries wr ++ concat new ++ [(DT_NULL, 0)] /\
    Forall2 (fun s e => section_dyn_entries (w_shstrtab w) (sc_sh s) = Ok e) (null <| sc_index := 0 |> :: rest') new /\ blen (concat new) = extra.
  Proof using O V.
    destruct (run_fields (oc_run O)) as (E1 & _ & _ & _ & E4 & _). destruct ws_fields as (F1 & _ & _ & F4 & _).
    destruct (run_w4 (oc_run O)) as (es & Ew4 & He). pose proof (sz_frame _ _ _ _ _ (rn_sizing (oc_run O))) as Hf. unfold frame in Hf. injection Hf as G1 G2 G3 G4 G5 G6 G7 G8 G9.
    assert (Hn3 : w_shstrtab w3 = w_shstrtab wr) by (rewrite (rn_w3 (oc_run O)); exact G6).
    assert (Hd3 : w_dyn_entries w3 = w_dyn_entries wr) by (rewrite (rn_w3 (oc_run O)); exact G9).
    rewrite Hn3, Hd3, (run_w3_secs (oc_run O)) in He. apply entries_sum in He as (new & Hes & HF & HL).
    exists new. rewrite E4, Ew4. split; [simpl; rewrite Hes, <- app_assoc; reflexivity|]. split; [rewrite E1; exact HF|].
    rewrite HL. pose proof (sz_extra _ _ _ _ _ (rn_sizing (oc_run O))) as Hx. apply extra_sum in Hx. rewrite Hx, N.add_0_l, F1. apply decl_sum.
    (* same declarations *)
    assert (D1 : decl <$> (pre_dynamic (lo_writer lo) ws (w_hash w1) (w_gnu_hash w1) (blen (w_dyn_rels w1)) (blen (w_plt_rels w1)) <$> w_sections ws) = decl <$> w_sections wr).
    { rewrite <- list_fmap_compose. pose proof (scan_secs _ _ (sz_scan _ _ _ _ _ (rn_sizing (oc_run O)))) as HS. clear -HS.
      induction HS as [|a b la lb [Hk _] HS IH]; [reflexivity|]. rewrite !fmap_cons. unfold compose at 1.
      pose proof (sized_decl _ _ (sized_pre (lo_writer lo) ws (w_hash w1) (w_gnu_hash w1) (blen (w_dyn_rels w1)) (blen (w_plt_rels w1)) b)) as Hd. unfold same_decl in Hd. rewrite Hd.
      pose proof (kept_decl _ _ Hk) as Hd'. unfold same_decl in Hd'. rewrite Hd'. f_equal. exact IH. }
    rewrite D1, <- (rest_decls O), fmap_cons. change (decl (null <| sc_index := 0 |>)) with (decl null). apply Permutation_skip.
    rewrite (rest'_decls O), (out_decls O). apply fmap_Permutation. apply (vo_sort _ V).
  Qed.
  Lemma sym_names : same_names (w_symtab ws) (w_symtab w) /\ same_names (w_dynsym ws) (w_dynsym w).
  Proof using O.
    destruct (run_fields (oc_run O)) as (_ & _ & _ & _ & _ & _ & Es & Ed & _).
    destruct (sz_rels _ _ _ _ _ (rn_sizing (oc_run O))) as (sd & Hd & Esy & Edy & _). apply dynrel_names in Hd as [N1 N2]. cbn [dr_symbols dr_dynsym] in N1, N2.
    destruct (run_w4 (oc_run O)) as (es & E4 & _). destruct (patch_plt_spec _ _ (rn_plt (oc_run O))) as [E5 K5].
    assert (Es5 : w_symtab w5 = w_symtab w1) by (rewrite E5, E4, (rn_w3 (oc_run O)); reflexivity).
    assert (Ed5 : w_dynsym w5 = w_dynsym w1) by (rewrite E5, E4, (rn_w3 (oc_run O)); reflexivity).
    destruct (special_names _ _ (rn_special (oc_run O))) as [M1 M2]. rewrite Es5 in M1. rewrite Ed5, Edy in M2.
    destruct (special_spec _ _ (rn_special (oc_run O))) as [E6 K6].
    assert (K56 : Forall2 kept (w_sections w5) (w_sections w6)) by (eapply Forall2_impl; [exact K6|]; by intros ? ? [? _]).
    rewrite (w4_sections O), (run_w3_secs (oc_run O)) in K5. pose proof (F2_kept_trans _ _ _ K5 K56) as K36.
    destruct (F2_kept_head _ _ _ K36) as (n6 & r6 & Es6 & Kn6 & Kr6).
    destruct (handle_relocs_spec _ _ _ _ Es6 (rn_rel (oc_run O))) as (t & r7 & E7 & Et & F7).
    assert (L1 : same_names (w_symtab ws) (w_symtab w1)) by (rewrite Esy; exact N1).
    split; [|rewrite Ed; by eapply same_names_trans].
    rewrite Es. eapply same_names_trans; [exact L1|]. eapply same_names_trans; [exact M1|]. rewrite E7. cbn [w_symtab]. 
    change (same_names (w_symtab w6) t). rewrite Et. apply fold_names. intros t1 s1. destruct (relocatable w6 s1); [apply patch_names|done].
  Qed.

  (** The linker's own sections. *)
  Lemma own_size i b a0 a1 a3 a6 a7 pd gd : hist o wr ws w1 extra rest' w4 pd gd w5 w6 w7 w i a0 a1 a3 a6 a7 b -> plt_patch w4 pd gd -> (sc_id b < n0)%nat ->
    blen (contents b) = filesz b.
  Proof using O P V.
    intros H HP Hlt. pose proof (own_contents O V P _ _ _ _ _ _ _ _ _ H HP Hlt) as Hc. rewrite Hc. clear Hc.
    destruct (fixed_start O P _ _ (conj (h_pos H) Hlt) (h_wr H)) as (_ & Hown0 & H8 & Hh & H4).
    destruct (own_hist O P _ _ _ _ _ _ _ _ _ H) as (Hown & Hid & Hsy & Hm1 & Hty). destruct (hist_decl _ _ _ _ _ _ _ _ _ H) as (D0 & _).
    rewrite <- (decl_synth _ _ D0), <- (decl_type _ _ D0) in *. destruct Hown0 as [Hown0 _].
    assert (Hnb : is_nobits b = bool_decide (sc_id b = 13%nat)).
    { unfold is_nobits. case_bool_decide as E; [apply N.eqb_eq, H8, E|]. apply N.eqb_neq. intros E'. apply E, H8, E'. }
    unfold filesz. rewrite Hnb.
    destruct (decide (sc_id b = 13%nat)) as [E13|N13]; [rewrite bool_decide_true by done; rewrite E13; reflexivity|rewrite bool_decide_false by done].
    assert (Hmem : memsz b = (made (lo_writer lo) ws (w_hash w1) (w_gnu_hash w1) (blen (w_dyn_rels w1)) (blen (w_plt_rels w1)) extra (sc_id b) (sc_synth b) (memsz a0)).2).
    { destruct (size_made (lo_writer lo) ws (w_hash w1) (w_gnu_hash w1) (blen (w_dyn_rels w1)) (blen (w_plt_rels w1)) extra a1 Hown) as [_ Hm]. rewrite Hid, Hsy, Hm1 in Hm.
      rewrite (written_memsz _ _ _ (h_written H)).
      - pose proof (op_memsz _ _ (h_placed H)) as Hp. rewrite Hp. exact Hm.
      - intros E. rewrite E in Hown0. clear -Hown0 N13 Hh Hlt E. destruct (decide (14 <= sc_id b)%nat) as [Hge|Hlt'].
        + destruct (Hh Hge) as [E'|E']; congruence.
        + revert Hown0 N13 Hlt'. generalize (sc_id b). intros id. do 14 (destruct id as [|id]; [try discriminate; try lia|]). lia. }
    rewrite Hmem. clear Hmem. destruct (run_fields (oc_run O)) as (E1 & E2 & E3 & _ & _ & _ & _ & _ & Er1 & Er2 & Er3 & Er4 & _).
    destruct ws_fields as (F1 & F2 & F3 & F4 & F5). destruct sym_names as [Y1 Y2].
    destruct (resolve_reach _ _ _ _ _ (oc_resolve O)) as [R2 R3]. pose proof (wi_st _ _ _ (oc_winv O)) as R1.
    pose proof (h_pos H) as Hpos.
    destruct HP as (ps & gs & pc & pd0 & Hps & Hgs & Hpc & Hpd0 & Hfold).
    assert (Hplt : sc_id b = 7%nat -> blen pd = (blen (w_plt ws) + 1) * 16).
    { intros E. destruct (plt_start O P _ _ _ _ _ _ _ _ _ H (or_introl E)) as (_ & c3 & Ec3 & _ & Hd3). pose proof (get_w4 O V _ _ _ _ _ _ _ _ _ H) as Hg.
      rewrite E in Hg. change (get_section id_plt (w_sections w4) = Some a3) in Hg. rewrite Hps in Hg. apply (inj Some) in Hg. subst ps. rewrite Ec3 in Hpc. cbn in Hpc. apply (inj Some) in Hpc. subst pc.
      apply patch_steps_len in Hfold as [L _]. apply patch_header_len in Hpd0. rewrite decide_True in Hd3 by exact E. rewrite Hd3 in Hpd0.
      rewrite <- plt_data_length. unfold blen. rewrite L, Hpd0. reflexivity. }
    assert (Hgplt : sc_id b = 6%nat -> blen gd = blen (zeros (8 * (blen (w_got_plt ws) + 3)))).
    { intros E. destruct (plt_start O P _ _ _ _ _ _ _ _ _ H (or_intror E)) as (_ & c3 & Ec3 & _ & Hd3). pose proof (get_w4 O V _ _ _ _ _ _ _ _ _ H) as Hg.
      rewrite E in Hg. change (get_section id_got_plt (w_sections w4) = Some a3) in Hg. rewrite Hgs in Hg. apply (inj Some) in Hg. subst gs. rewrite Ec3 in Hfold. cbn [default fmap option_fmap option_map lookup list_lookup] in Hfold.
      apply patch_steps_len in Hfold as [_ L]. rewrite decide_False in Hd3 by (rewrite E; discriminate). change (length gd = length (c_data c3)) in L.
      unfold blen. rewrite L, Hd3. reflexivity. }
    assert (Hnd : blen (w_dyn_rels w) = blen (w_dyn_rels w1)) by (rewrite Er1, <- Er3; unfold blen, compute_tables; cbn; by rewrite fmap_length).
    assert (Hnp : blen (w_plt_rels w) = blen (w_plt_rels w1)) by (rewrite Er2, <- Er4; unfold blen, compute_tables; cbn; by rewrite fmap_length).
    destruct dyn_count as (new & Ed & _ & Hx).
    clear - V Hown0 Hh Hpos Hplt Hgplt Hnd Hnp Ed Hx E1 E2 E3 F1 F2 F3 F4 Y1 Y2 R1 R2 R3 H4 N13.
    revert Hown0 Hh Hpos Hplt Hgplt H4 N13. generalize (sc_id b) (sc_synth b). intros id sy Hown0 Hh Hpos Hplt Hgplt H4 N13. unfold fixed_bytes, made.
    destruct id as [|id]; [lia|].
    destruct id as [|id]; [subst sy; cbn [snd]; rewrite F1, E1; apply (size_emitted _ R1)|].
    destruct id as [|id]; [subst sy; cbn [snd]; rewrite F2, E2; apply (size_emitted _ R2)|].
    destruct id as [|id]; [subst sy; cbn [snd]; rewrite F3, E3; apply (size_emitted _ R3)|].
    destruct id as [|id]; [subst sy; cbn [snd]; rewrite decide_True in H4 by reflexivity; symmetry; apply H4|].
    destruct id as [|id]; [subst sy; reflexivity|].
    destruct id as [|id]; [subst sy; cbn [snd]; apply Hgplt; reflexivity|].
    destruct id as [|id]; [subst sy; cbn [snd]; apply Hplt; reflexivity|].
    destruct id as [|id]; [subst sy; cbn [snd]; rewrite (chunk_data_len _ _ (vo_sym _ V)); unfold syt_total_len; rewrite (same_names_size _ _ Y1); unfold SYM_SIZE; lia|].
    destruct id as [|id]; [subst sy; cbn [snd]; rewrite (chunk_data_len _ _ (vo_dyn _ V)); unfold syt_total_len; rewrite (same_names_size _ _ Y2); unfold SYM_SIZE; lia|].
    destruct id as [|id]; [subst sy; cbn [snd]; unfold ser_dyns; rewrite (bind_len _ _ 16) by apply ser_dyn_length; rewrite Ed, F4; unfold blen in *; rewrite !app_length; cbn [length]; lia|].
    destruct id as [|id]; [subst sy; cbn [snd]; rewrite (bind_len _ _ 24) by apply ser_rela_length; rewrite Hnd; lia|].
    destruct id as [|id]; [subst sy; cbn [snd]; rewrite (bind_len _ _ 24) by apply ser_rela_length; rewrite Hnp; lia|].
    destruct id as [|id]; [contradiction|].
    destruct (Hh ltac:(lia)) as [-> | ->]; reflexivity.
  Qed.

  (** Sections read from input: the chunks stay, relocation keeps their lengths. *)
  Definition same_len (c c' : chunk) : Prop := length (c_data c') = length (c_data c).
  Lemma reloc_len w6' w7' s s' : reloc_fn w6' w7' s s' -> Forall2 same_len (sc_chunks s) (sc_chunks s').
  Proof using.
    intros [_ H]. destruct (relocatable w6' s).
    - eapply mapM_res_F2; [|exact H]. intros c c' Hc. exact (proj2 (apply_relocs_data _ _ _ _ _ _ Hc)).
    - subst s'. clear. induction (sc_chunks s); constructor; [reflexivity|assumption].
  Qed.
  Lemma len_bind (k k' : list chunk) : Forall2 same_len k k' -> blen (k' ≫= c_data) = blen (k ≫= c_data).
  Proof using. unfold blen. induction 1 as [|c c' cs cs' H HF IH]; [done|]. rewrite !bind_cons, !app_length. unfold same_len in H. rewrite H. apply Nat2N.inj in IH. by rewrite IH. Qed.
  Lemma user_chunks i b a0 a1 a3 a6 a7 pd gd : hist o wr ws w1 extra rest' w4 pd gd w5 w6 w7 w i a0 a1 a3 a6 a7 b -> (n0 <= sc_id b)%nat ->
    Forall2 same_bytes (sc_chunks a1) (sc_chunks a6) /\ sc_chunks b = sc_chunks a7 /\ memsz b = memsz a0 /\ sc_synth b = None.
  Proof using O P.
    intros H Hge. destruct (user_start O P _ _ Hge (h_wr H)) as (_ & H14 & Hsy0 & _).
    destruct (own_hist O P _ _ _ _ _ _ _ _ _ H) as (Hown & Hid & Hsy & Hm1 & Hty). destruct (hist_decl _ _ _ _ _ _ _ _ _ H) as (D0 & _).
    rewrite <- (decl_synth _ _ D0) in Hsy0.
    assert (N1 : sc_id b <> id_plt) by (unfold id_plt; lia). assert (N2 : sc_id b <> id_got_plt) by (unfold id_got_plt; lia).
    assert (Hmade : made (lo_writer lo) ws (w_hash w1) (w_gnu_hash w1) (blen (w_dyn_rels w1)) (blen (w_plt_rels w1)) extra (sc_id b) (sc_synth b) (memsz a1) = ([], memsz a1)).
    { rewrite Hsy0. clear -H14. unfold made. revert H14. generalize (sc_id b). intros id H14. do 14 (destruct id as [|id]; [lia|]). reflexivity. }
    pose proof (stage_a6 O P _ _ _ _ _ _ _ _ _ H N1 N2) as H6. rewrite Hmade in H6. cbn [fst] in H6. rewrite app_nil_r in H6. split; [exact H6|].
    destruct (a7_final _ _ _ _ _ _ _ _ _ H) as (_ & _ & Hf). rewrite Hsy0 in Hf.
    assert (Ht : tables_of w7 (sc_id b) = []).
    { clear -H14. unfold tables_of, table_at. revert H14. generalize (sc_id b). intros id H14. do 14 (destruct id as [|id]; [lia|]). reflexivity. }
    rewrite Ht, app_nil_r in Hf. split; [exact Hf|]. split; [|exact Hsy0].
    destruct (size_made (lo_writer lo) ws (w_hash w1) (w_gnu_hash w1) (blen (w_dyn_rels w1)) (blen (w_plt_rels w1)) extra a1 Hown) as [_ Hm].
    rewrite Hid, Hsy, Hmade in Hm. cbn [snd] in Hm. rewrite (written_memsz _ _ _ (h_written H)) by (rewrite Hsy0; discriminate).
    pose proof (op_memsz _ _ (h_placed H)) as Hp. rewrite Hp. change (memsz (size_fn o ws (w_hash w1) (w_gnu_hash w1) (blen (w_dyn_rels w1)) (blen (w_plt_rels w1)) extra a1) = memsz a0). unfold o. rewrite Hm. exact Hm1.
  Qed.
  Lemma user_size i b a0 a1 a3 a6 a7 pd gd : hist o wr ws w1 extra rest' w4 pd gd w5 w6 w7 w i a0 a1 a3 a6 a7 b -> (n0 <= sc_id b)%nat ->
    blen (contents b) = filesz b.
  Proof using O P.
    intros H Hge. destruct (user_chunks _ _ _ _ _ _ _ _ _ H Hge) as (H6 & Hb & Hm & _).
    destruct (user_start O P _ _ Hge (h_wr H)) as (_ & _ & _ & _ & HF). destruct HF as (_ & Hc & _).
    destruct (hist_decl _ _ _ _ _ _ _ _ _ H) as (D0 & _).
    assert (Hlen : blen (contents b) = blen (contents a0)).
    { unfold contents. rewrite Hb, (len_bind _ _ (reloc_len _ _ _ _ (h_rel H))), (same_bytes_bind _ _ H6). f_equal.
      destruct (h_scan H) as [_ HS]. clear -HS. induction HS as [|c c' cs cs' [E _] HS IH]; [done|]. rewrite !bind_cons. rewrite IH, E. reflexivity. }
    rewrite Hlen. unfold filesz. rewrite Hm. assert (E : is_nobits b = is_nobits a0) by (unfold is_nobits; by rewrite (decl_type _ _ D0)). rewrite E.
    destruct (is_nobits a0); [by rewrite Hc|exact Hc].
  Qed.
  Theorem contents_size b : b ∈ out -> blen (contents b) = filesz b.
  Proof using O Fin P V.
    intros Hb. apply elem_of_list_lookup in Hb as [i Hi]. destruct (history O Fin V) as (pd & gd & HP & Hh).
    destruct (Hh _ _ Hi) as (a0 & a1 & a3 & a6 & a7 & H). destruct (decide (sc_id b < n0)%nat) as [Hlt|Hge].
    - exact (own_size _ _ _ _ _ _ _ _ _ H HP Hlt).
    - apply (user_size _ _ _ _ _ _ _ _ _ H). lia.
  Qed.
End size.
