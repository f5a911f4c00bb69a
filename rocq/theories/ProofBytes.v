(** The bytes of each output section. *)
From Verif Require Export ProofLens.

(** * The sections a link starts from *)
Definition shape (s : section) := (sc_id s, sc_synth s, sh_type (sc_sh s), match sc_chunks s with [] => true | _ => false end, memsz s).
Definition shape_ok (x : nat * option synth * N * bool * N) : Prop :=
  let '(id, sy, ty, e, m) := x in own id sy ty /\ (ty = 8 <-> id = 13%nat) /\ (id = 4%nat \/ e = true /\ m = 0) /\ ((14 <= id)%nat -> sy = Some KHash \/ sy = Some KGnuHash).
Lemma ref_shapes st : Forall (fun s => shape_ok (shape s)) (ref_sections st).
Proof.
  assert (H : forall x, Forall shape_ok x -> shape <$> ref_sections st = x -> Forall (fun s => shape_ok (shape s)) (ref_sections st)).
  { intros x Hx E. rewrite <- E in Hx. apply (proj1 (Forall_fmap shape shape_ok (ref_sections st))) in Hx. exact Hx. }
  destruct st; (eapply H; [|vm_compute; reflexivity]).
  all: repeat (constructor; [split; [split; [first [reflexivity|by right; left|by right; right]|split; first [discriminate|reflexivity|lia]]|split; [split; first [discriminate|reflexivity|lia]|split; [first [right; split; reflexivity|by left]|intros; first [lia|auto]]]]|]).
  all: constructor.
Qed.

(** What the last stage before writing adds to a section. *)
Definition table_at (x1 x2 x3 x10 x11 x12 : chunk) (id : nat) : list chunk :=
  match id with 1 => [x1] | 2 => [x2] | 3 => [x3] | 10 => [x10] | 11 => [x11] | 12 => [x12] | _ => [] end%nat.
Definition tables_of (w7 : writer) : nat -> list chunk :=
  table_at (chunk_new (st_chunk_data (w_shstrtab w7))) (chunk_new (st_chunk_data (w_strtab w7))) (chunk_new (st_chunk_data (w_dynstr w7)))
    (chunk_new (ser_dyns (w_dyn_entries w7))) (chunk_new (w_dyn_rels (compute_tables w7) ≫= ser_rela)) (chunk_new (w_plt_rels (compute_tables w7) ≫= ser_rela)).
Lemma on_tables x1 x2 x3 x10 x11 x12 s :
  let s' := on 12 (sec_add_chunk x12) (on 11 (sec_add_chunk x11) (on 10 (sec_add_chunk x10) (on 3 (sec_add_chunk x3) (on 2 (sec_add_chunk x2) (on 1 (sec_add_chunk x1) s))))) in
  kept s s' /\ sc_chunks s' = sc_chunks s ++ table_at x1 x2 x3 x10 x11 x12 (sc_id s).
Proof.
  destruct s as [id ix lk sy sh cs]. cbn [sc_id sc_chunks].
  do 13 (destruct id as [|id]; [split; [reflexivity|first [reflexivity|symmetry; apply app_nil_r]]|]). split; [reflexivity|symmetry; apply app_nil_r].
Qed.
Lemma tables_chunks w7 s : kept s (tables_fn w7 s) /\ sc_chunks (tables_fn w7 s) = sc_chunks s ++ tables_of w7 (sc_id s).
Proof. exact (on_tables _ _ _ _ _ _ s). Qed.

Section bytes.
  Context {wd : world} {lo : lib_oracle} {l : linker} {fuel : nat} {w : writer} {secs : list section}
    {w0 wr ws w1 : writer} {extra : N} {null : section} {rest rest' : list section} {st : layout} {w3 w4 w5 w6 w7 : writer}
    {null' : section} {out : list section}.
  Context (O : outcome wd lo l fuel w secs w0 wr ws w1 extra null rest rest' st w3 w4 w5 w6 w7 null' out).
  Context (Fin : mapM_res (sec_finalize (lo_writer lo) w) (w_sections w) = Ok secs).
  Context (V : valid_oracle (lo_writer lo)) (P : plain_inputs wd l).
  Let o := lo_writer lo.
  Let n0 := length (w_sections w0).
  Let loader := string_bytes (opt_dynamic_linker (lk_options l)) ++ [0].

  Lemma wr_pinv : pinv wd l n0 w0 wr.
  Proof using O P.
    destruct (resolve_pinv _ _ _ _ _ P (oc_resolve O)) as (w0' & H0 & HP & _). rewrite (oc_new O) in H0. injection H0 as <-. exact HP.
  Qed.
  Lemma fixed_start i s : (0 < i < n0)%nat -> w_sections wr !! i = Some s ->
    sc_id s = i /\ own i (sc_synth s) (sh_type (sc_sh s)) /\ (sh_type (sc_sh s) = 8 <-> i = 13%nat) /\ ((14 <= i)%nat -> sc_synth s = Some KHash \/ sc_synth s = Some KGnuHash) /\
    if decide (i = 4%nat) then sc_chunks s = [chunk_new loader] /\ memsz s = blen loader else sc_chunks s = [] /\ memsz s = 0.
  Proof using O P.
    intros Hi Hs. pose proof (wi_ids _ _ _ (oc_winv O) _ _ Hs) as Hid. split; [exact Hid|].
    rewrite (pv_fixed _ _ _ _ _ wr_pinv i Hi) in Hs. rewrite (writer_new_sections _ _ (oc_new O)), list_lookup_fmap in Hs. fold loader in Hs.
    pose proof (ref_shapes (opt_hash_style (lk_options l))) as HF. rewrite Forall_forall in HF.
    destruct (ref_sections (opt_hash_style (lk_options l)) !! i) as [r|] eqn:Er; [|discriminate Hs]. cbn in Hs. apply (inj Some) in Hs.
    specialize (HF r (elem_of_list_lookup_2 _ _ _ Er)). clear Er. unfold shape, shape_ok in HF. destruct HF as (Ho & H8 & He & Hh).
    assert (Hr : sc_id r = i). { rewrite <- Hid, <- Hs. unfold with_loader. destruct (_ =? _)%nat; reflexivity. }
    unfold with_loader in Hs. rewrite Hr in *. change id_interp with 4%nat in Hs. destruct (decide (i = 4%nat)) as [E4|N4].
    - rewrite (proj2 (Nat.eqb_eq _ _) E4) in Hs. subst s. split; [exact Ho|]. split; [exact H8|]. split; [exact Hh|]. split; reflexivity.
    - rewrite (proj2 (Nat.eqb_neq _ _) N4) in Hs. subst s. split; [exact Ho|]. split; [exact H8|]. split; [exact Hh|].
      destruct He as [E|[He Hm]]; [contradiction|]. split; [|exact Hm]. destruct (sc_chunks r); [reflexivity|discriminate He].
  Qed.
  Lemma user_start i s : (n0 <= i)%nat -> w_sections wr !! i = Some s -> sc_id s = i /\ (14 <= i)%nat /\ sc_synth s = None /\ own i (sc_synth s) (sh_type (sc_sh s)) /\
    from_input wd l (stt_names (w_shstrtab wr)) i s.
  Proof using O P.
    intros Hi Hs. pose proof (pv_new _ _ _ _ _ wr_pinv _ _ Hi Hs) as HF. pose proof (n0_ge O) as Hn. fold n0 in Hn.
    destruct (wi_new _ _ _ (oc_winv O) i s Hi Hs) as (Hsy & _). split; [exact (wi_ids _ _ _ (oc_winv O) _ _ Hs)|]. split; [lia|]. split; [exact Hsy|]. split; [|exact HF].
    destruct HF as ((e & name & sh & of' & (_ & _ & Hty & _) & _ & <- & _) & _). rewrite Hsy. split.
    - do 14 (destruct i as [|i]; [lia|]). by left.
    - split; [|lia]. intros E. exfalso. apply Hty. rewrite E. apply elem_of_list_further, elem_of_list_here.
  Qed.
  Lemma hist_decl i b a0 a1 a3 a6 a7 pd gd : hist o wr ws w1 extra rest' w4 pd gd w5 w6 w7 w i a0 a1 a3 a6 a7 b -> decl b = decl a0 /\ decl b = decl a1 /\ decl b = decl a3.
  Proof using.
    intros H. destruct (h_scan H) as [Hk _]. pose proof (kept_decl _ _ Hk) as D1. pose proof (placed_decl _ _ (h_placed H)) as D3. pose proof (proj1 (h_written H)) as Db.
    unfold same_decl in *.
    pose proof (sized_decl _ _ (sized_fn o ws (w_hash w1) (w_gnu_hash w1) (blen (w_dyn_rels w1)) (blen (w_plt_rels w1)) extra a1)) as D2. unfold same_decl in D2.
    match type of D3 with _ = decl (?x <| sc_index := _ |>) => change (decl a3 = decl x) in D3 end. split_and!; congruence.
  Qed.
  Lemma own_hist i b a0 a1 a3 a6 a7 pd gd : hist o wr ws w1 extra rest' w4 pd gd w5 w6 w7 w i a0 a1 a3 a6 a7 b ->
    own (sc_id a1) (sc_synth a1) (sh_type (sc_sh a1)) /\ sc_id a1 = sc_id b /\ sc_synth a1 = sc_synth b /\ memsz a1 = memsz a0 /\ sh_type (sc_sh a1) = sh_type (sc_sh b).
  Proof using O P.
    intros H. pose proof (h_wr H) as Hwr. pose proof (h_pos H) as Hp. destruct (hist_decl _ _ _ _ _ _ _ _ _ H) as (D0 & D1 & _).
    assert (Hown : own (sc_id b) (sc_synth a0) (sh_type (sc_sh a0))).
    { destruct (decide (sc_id b < n0)%nat) as [Hlt|Hge].
      - destruct (fixed_start _ _ (conj Hp Hlt) Hwr) as (_ & ? & _). done.
      - destruct (user_start (sc_id b) a0 ltac:(lia) Hwr) as (_ & _ & _ & ? & _). done. }
    rewrite <- (decl_id _ _ D1), <- (decl_synth _ _ D1), <- (decl_type _ _ D1). rewrite <- (decl_synth _ _ D0), <- (decl_type _ _ D0) in Hown.
    split_and!; try done. destruct (h_scan H) as [-> _]. done.
  Qed.
  (** Up to relocation, everything but the PLT and its table is what sizing made. *)
  Lemma stage_a6 i b a0 a1 a3 a6 a7 pd gd : hist o wr ws w1 extra rest' w4 pd gd w5 w6 w7 w i a0 a1 a3 a6 a7 b -> sc_id b <> id_plt -> sc_id b <> id_got_plt ->
    Forall2 same_bytes (sc_chunks a1 ++ (made o ws (w_hash w1) (w_gnu_hash w1) (blen (w_dyn_rels w1)) (blen (w_plt_rels w1)) extra (sc_id b) (sc_synth b) (memsz a1)).1) (sc_chunks a6).
  Proof using O P.
    intros H N1 N2. destruct (own_hist _ _ _ _ _ _ _ _ _ H) as (Hown & Hid & Hsy & _).
    destruct (size_made o ws (w_hash w1) (w_gnu_hash w1) (blen (w_dyn_rels w1)) (blen (w_plt_rels w1)) extra a1 Hown) as [Hc _]. rewrite Hid, Hsy in Hc.
    rewrite <- Hc. destruct (h_placed H) as [_ HS]. destruct (h_special H) as [_ HY].
    destruct (hist_decl _ _ _ _ _ _ _ _ _ H) as (_ & _ & D3).
    rewrite patched_other in HY by (rewrite <- (decl_id _ _ D3); done).
    eapply (F2_trans same_bytes); [exact same_bytes_trans| |].
    - eapply Forall2_impl; [exact HS|]. intros c c' ->. done.
    - eapply Forall2_impl; [exact HY|]. intros c c' ->. done.
  Qed.
  Lemma made_new ob wb h g nd np ex id sy sz : Forall (fun c => c_relocations c = []) (made ob wb h g nd np ex id sy sz).1.
  Proof using.
    unfold made. destruct sy as [[]|]; cbn [fst]; repeat constructor.
    do 13 (destruct id as [|id]; [cbn [fst]; repeat constructor|]). cbn [fst]; constructor.
  Qed.
  Lemma stage_a7 i b a0 a1 a3 a6 a7 pd gd : hist o wr ws w1 extra rest' w4 pd gd w5 w6 w7 w i a0 a1 a3 a6 a7 b -> sc_id b <> id_plt -> sc_id b <> id_got_plt -> quiet a1 ->
    Forall2 same_bytes (sc_chunks a1 ++ (made o ws (w_hash w1) (w_gnu_hash w1) (blen (w_dyn_rels w1)) (blen (w_plt_rels w1)) extra (sc_id b) (sc_synth b) (memsz a1)).1) (sc_chunks a7).
  Proof using O P.
    intros H N1 N2 Hq. pose proof (stage_a6 _ _ _ _ _ _ _ _ _ H N1 N2) as H6. eapply (F2_trans same_bytes); [exact same_bytes_trans|exact H6|].
    eapply reloc_quiet; [exact (h_rel H)|]. unfold quiet. clear -H6 Hq.
    assert (HQ : Forall (fun c => c_relocations c = []) (sc_chunks a1 ++ (made o ws (w_hash w1) (w_gnu_hash w1) (blen (w_dyn_rels w1)) (blen (w_plt_rels w1)) extra (sc_id b) (sc_synth b) (memsz a1)).1)).
    { apply Forall_app. split; [exact Hq|apply made_new]. }
    revert HQ. induction H6 as [|c c' cs cs' [_ E] HF IH]; [done|]. intros HQ. apply Forall_cons in HQ as [Q1 Q2]. constructor; [congruence|by apply IH].
  Qed.

  (** ** The finished bytes of the linker's own sections *)
  Definition fixed_bytes (pd gd : bytes) (id : nat) (sy : option synth) : bytes :=
    match id with
    | 1 => st_chunk_data (w_shstrtab w) | 2 => st_chunk_data (w_strtab w) | 3 => st_chunk_data (w_dynstr w) | 4 => loader
    | 5 => zeros (8 * w_got_len ws) | 6 => gd | 7 => pd
    | 8 => syt_chunk_data (o_sym o) (w_symtab w) | 9 => syt_chunk_data (o_dyn o) (w_dynsym w)
    | 10 => ser_dyns (w_dyn_entries w) | 11 => w_dyn_rels w ≫= ser_rela | 12 => w_plt_rels w ≫= ser_rela | 13 => []
    | _ => match sy with Some KHash => ser_hashtab (default ht_default (w_hash w1)) | _ => ser_gnutab (default gt_default (w_gnu_hash w1)) end
    end%nat.
  Lemma tables_w id : tables_of w7 id = table_at (chunk_new (st_chunk_data (w_shstrtab w))) (chunk_new (st_chunk_data (w_strtab w))) (chunk_new (st_chunk_data (w_dynstr w)))
    (chunk_new (ser_dyns (w_dyn_entries w))) (chunk_new (w_dyn_rels w ≫= ser_rela)) (chunk_new (w_plt_rels w ≫= ser_rela)) id.
  Proof using O.
    destruct (run_fields (oc_run O)) as (E1 & E2 & E3 & _ & E4 & _ & _ & _ & E5 & E6 & _ & _ & E7 & E8 & E9 & E10 & _). unfold tables_of.
    rewrite E8, E9, E10, E7, <- E5, <- E6, E1, E2, E3, E4. reflexivity.
  Qed.
  Lemma quiet_start i b a0 a1 a3 a6 a7 pd gd : hist o wr ws w1 extra rest' w4 pd gd w5 w6 w7 w i a0 a1 a3 a6 a7 b -> (sc_id b < n0)%nat ->
    quiet a1 /\ contents a1 = (if decide (sc_id b = 4%nat) then loader else []) /\ length (sc_chunks a1) = (if decide (sc_id b = 4%nat) then 1 else 0)%nat.
  Proof using O P.
    intros H Hlt. destruct (fixed_start _ _ (conj (h_pos H) Hlt) (h_wr H)) as (_ & _ & _ & _ & Hc). destruct (h_scan H) as [_ HS]. unfold contents, quiet.
    destruct (decide (sc_id b = 4%nat)) as [E|E].
    - destruct Hc as [Hc _]. rewrite Hc in HS. inversion HS as [|c c' cs cs' [Hcc Hr] HS' E1 E2]; subst. inversion HS'; subst.
      change (c_relocations (chunk_new loader)) with (@nil (Rela * symref)) in Hr. inversion Hr as [E3|]. rewrite Hcc. rewrite bind_cons.
      change (c_data (chunk_new loader <| c_relocations := c_relocations c' |>)) with loader. split; [|split; [apply app_nil_r|reflexivity]].
      constructor; [|constructor]. symmetry; exact H0.
    - destruct Hc as [Hc _]. rewrite Hc in HS. inversion HS; subst. split; [constructor|]. split; reflexivity.
  Qed.

  Lemma same_bytes_bind (k k' : list chunk) : Forall2 same_bytes k k' -> (k' ≫= c_data) = (k ≫= c_data).
  Proof using. induction 1 as [|c c' cs cs' [H _] HF IH]; [done|]. rewrite !bind_cons. by rewrite H, IH. Qed.
  Lemma own_sy i b a0 a1 a3 a6 a7 pd gd : hist o wr ws w1 extra rest' w4 pd gd w5 w6 w7 w i a0 a1 a3 a6 a7 b -> (sc_id b < n0)%nat ->
    own (sc_id b) (sc_synth b) (sh_type (sc_sh b)) /\ ((14 <= sc_id b)%nat -> sc_synth b = Some KHash \/ sc_synth b = Some KGnuHash).
  Proof using O P.
    intros H Hlt. destruct (fixed_start _ _ (conj (h_pos H) Hlt) (h_wr H)) as (_ & Ho & _ & Hh & _). destruct (hist_decl _ _ _ _ _ _ _ _ _ H) as (D0 & _).
    rewrite (decl_synth _ _ D0), (decl_type _ _ D0). done.
  Qed.
  Lemma a7_final i b a0 a1 a3 a6 a7 pd gd : hist o wr ws w1 extra rest' w4 pd gd w5 w6 w7 w i a0 a1 a3 a6 a7 b ->
    sc_id a7 = sc_id b /\ sc_synth a7 = sc_synth b /\
    match sc_synth b with
    | Some KSym => is_Some ((sc_chunks a7 ++ tables_of w7 (sc_id b)) !! 0%nat) /\ sc_chunks b = <[0%nat := chunk_new (syt_chunk_data (o_sym o) (w_symtab w))]> (sc_chunks a7 ++ tables_of w7 (sc_id b))
    | Some KDynsym => is_Some ((sc_chunks a7 ++ tables_of w7 (sc_id b)) !! 0%nat) /\ sc_chunks b = <[0%nat := chunk_new (syt_chunk_data (o_dyn o) (w_dynsym w))]> (sc_chunks a7 ++ tables_of w7 (sc_id b))
    | _ => sc_chunks b = sc_chunks a7 ++ tables_of w7 (sc_id b)
    end.
  Proof using.
    intros H. destruct (finalize_spec _ _ _ _ (h_fin H)) as (_ & _ & Hc & _). destruct (tables_chunks w7 a7) as [Hk Ht].
    pose proof (finalize_decl _ _ _ _ (h_fin H)) as Hd. unfold same_decl in Hd. pose proof (kept_decl _ _ Hk) as Hd7. unfold same_decl in Hd7.
    assert (D7 : decl b = decl a7) by congruence.
    rewrite Ht, <- (decl_synth _ _ Hd) in Hc. rewrite <- (decl_id _ _ D7) in Hc. rewrite <- (decl_id _ _ D7), <- (decl_synth _ _ D7). done.
  Qed.
  Lemma fixed_contents i b a0 a1 a3 a6 a7 pd gd : hist o wr ws w1 extra rest' w4 pd gd w5 w6 w7 w i a0 a1 a3 a6 a7 b -> (sc_id b < n0)%nat ->
    sc_id b <> id_plt -> sc_id b <> id_got_plt -> contents b = fixed_bytes pd gd (sc_id b) (sc_synth b).
  Proof using O P.
    intros H Hlt N1 N2. destruct (quiet_start _ _ _ _ _ _ _ _ _ H Hlt) as (Hq & Hc1 & Hl1).
    pose proof (stage_a7 _ _ _ _ _ _ _ _ _ H N1 N2 Hq) as H7. pose proof (same_bytes_bind _ _ H7) as Hb. rewrite bind_app in Hb. fold (contents a1) in Hb. rewrite Hc1 in Hb.
    destruct (a7_final _ _ _ _ _ _ _ _ _ H) as (_ & _ & Hf). destruct (own_sy _ _ _ _ _ _ _ _ _ H Hlt) as [[Hsy _] Hh]. pose proof (h_pos H) as Hpos.
    pose proof (Forall2_length _ _ _ H7) as Hlen. rewrite app_length, Hl1 in Hlen. rewrite tables_w in Hf. clear H H7 Hq.
    unfold contents at 1.
    revert Hsy Hh Hf Hb Hlen Hpos N1 N2. generalize (sc_synth b). intros sy Hsy Hh Hf Hb Hlen Hpos N1 N2.
    revert Hsy Hh Hf Hb Hlen Hpos N1 N2. generalize (sc_id b). intros id Hsy Hh Hf Hb Hlen Hpos N1 N2.
    assert (Hc : forall c, [c] ≫= c_data = c_data c) by (intros c; rewrite bind_cons; apply app_nil_r).
    assert (H1 : forall (c : chunk) x, length x = 1%nat -> <[0%nat := c]> (x ++ []) = [c]).
    { intros c x. destruct x as [|y [|]]; [discriminate|reflexivity|discriminate]. }
    destruct id as [|id]; [lia|].
    do 3 (destruct id as [|id]; [subst sy; rewrite Hf, bind_app, Hb; apply Hc|]).
    destruct id as [|id]; [subst sy; rewrite Hf, bind_app, Hb; rewrite !app_nil_r; reflexivity|].
    destruct id as [|id]; [subst sy; rewrite Hf, bind_app, Hb; rewrite !app_nil_r; apply Hc|].
    destruct id as [|id]; [contradiction|]. destruct id as [|id]; [contradiction|].
    do 2 (destruct id as [|id]; [subst sy; destruct Hf as [_ Hf]; rewrite Hf; cbn [table_at]; rewrite H1 by exact (eq_sym Hlen); apply Hc|]).
    do 3 (destruct id as [|id]; [subst sy; rewrite Hf, bind_app, Hb; apply Hc|]).
    destruct id as [|id]; [subst sy; rewrite Hf, bind_app, Hb; reflexivity|].
    destruct (Hh ltac:(lia)) as [-> | ->]; rewrite Hf, bind_app, Hb; rewrite app_nil_r; apply Hc.
  Qed.

  (** ** Handles after layout *)
  Lemma w4_nodup : NoDup (sc_id <$> w_sections w4).
  Proof using O V.
    rewrite (w4_sections O), (run_w3_secs (oc_run O)). rewrite fmap_cons.
    assert (E : sc_id <$> rest' = sc_id <$> out).
    { apply list_eq. intros i. rewrite !list_lookup_fmap. destruct (rest' !! i) as [a|] eqn:Ea.
      - destruct (Forall2_lookup_l _ _ _ _ _ (oc_out O) Ea) as (b & Hb & Hw). rewrite Hb. cbn. f_equal. symmetry. exact (decl_id _ _ (proj1 Hw)).
      - rewrite (proj2 (lookup_ge_None out i)); [reflexivity|]. rewrite <- (Forall2_length _ _ _ (oc_out O)). by apply lookup_ge_None. }
    rewrite E. assert (Hn : sc_id (null <| sc_index := 0 |>) = 0%nat).
    { destruct (oc_null O) as (Hd & _). unfold same_decl in Hd. rewrite <- (decl_id _ _ Hd). exact (proj1 (null_facts O)). }
    rewrite Hn. constructor.
    - rewrite (ids_perm O V). rewrite elem_of_seq. lia.
    - rewrite (ids_perm O V). apply NoDup_seq.
  Qed.
  Lemma get_nodup (k : list section) i s : NoDup (sc_id <$> k) -> k !! i = Some s -> get_section (sc_id s) k = Some s.
  Proof using.
    revert i. induction k as [|a k IH]; intros i Hn Hi; [done|]. rewrite fmap_cons in Hn. apply NoDup_cons in Hn as [Hx Hn]. simpl.
    destruct i as [|i]; simpl in Hi; [injection Hi as ->; by rewrite Nat.eqb_refl|].
    destruct (Nat.eqb_spec (sc_id a) (sc_id s)) as [E|_]; [|by eapply IH]. exfalso. apply Hx. rewrite E. apply elem_of_list_fmap_1. by eapply elem_of_list_lookup_2.
  Qed.
  Lemma get_w4 i b a0 a1 a3 a6 a7 pd gd : hist o wr ws w1 extra rest' w4 pd gd w5 w6 w7 w i a0 a1 a3 a6 a7 b -> get_section (sc_id b) (w_sections w4) = Some a3.
  Proof using O V.
    intros H. destruct (hist_decl _ _ _ _ _ _ _ _ _ H) as (_ & _ & D3). rewrite (decl_id _ _ D3). eapply (get_nodup _ (S i)); [exact w4_nodup|].
    rewrite (w4_sections O), (run_w3_secs (oc_run O)). exact (h_w3 H).
  Qed.

  (** ** The PLT *)
  Lemma plt_start i b a0 a1 a3 a6 a7 pd gd : hist o wr ws w1 extra rest' w4 pd gd w5 w6 w7 w i a0 a1 a3 a6 a7 b -> sc_id b = id_plt \/ sc_id b = id_got_plt ->
    (sc_id b < n0)%nat /\ exists c3, sc_chunks a3 = [c3] /\ c_relocations c3 = [] /\
      c_data c3 = (if decide (sc_id b = id_plt) then plt_data (w_plt ws) else zeros (8 * (blen (w_got_plt ws) + 3))).
  Proof using O P.
    intros H Hid. assert (Hlt : (sc_id b < n0)%nat). { pose proof (n0_ge O) as Hn. fold n0 in Hn. destruct Hid as [-> | ->]; unfold id_plt, id_got_plt; lia. }
    split; [exact Hlt|]. destruct (own_hist _ _ _ _ _ _ _ _ _ H) as (Hown & Hid1 & Hsy & _).
    destruct (size_made o ws (w_hash w1) (w_gnu_hash w1) (blen (w_dyn_rels w1)) (blen (w_plt_rels w1)) extra a1 Hown) as [Hc _].
    destruct (quiet_start _ _ _ _ _ _ _ _ _ H Hlt) as (_ & _ & Hl). rewrite decide_False in Hl by (destruct Hid as [-> | ->]; discriminate).
    destruct (sc_chunks a1) as [|x xs] eqn:E1; [|discriminate Hl]. cbn [Datatypes.app] in Hc.
    destruct (h_placed H) as [_ HS]. unfold same_chunks in HS.
    match type of HS with Forall2 _ (sc_chunks (?x <| sc_index := _ |>)) _ => change (sc_chunks (x <| sc_index := N.of_nat (S i) |>)) with (sc_chunks x) in HS end.
    rewrite Hc in HS. rewrite Hid1 in HS. destruct Hown as [Hown _]. rewrite Hid1 in Hown. clear -HS Hid Hown.
    destruct Hid as [E|E]; rewrite E in *; cbn in Hown; rewrite Hown in HS; unfold made in HS; cbn [fst] in HS.
    - inversion HS as [|c c' cs cs' Hcc HS']; subst. inversion HS'; subst. exists c'. split; [reflexivity|]. rewrite Hcc. split; reflexivity.
    - unfold id_got_plt in HS. inversion HS as [|c c' cs cs' Hcc HS']; subst. inversion HS'; subst. exists c'. split; [reflexivity|]. rewrite Hcc. split; reflexivity.
  Qed.
  Lemma plt_contents i b a0 a1 a3 a6 a7 pd gd : hist o wr ws w1 extra rest' w4 pd gd w5 w6 w7 w i a0 a1 a3 a6 a7 b -> sc_id b = id_plt -> contents b = pd.
  Proof using O P.
    intros H Hid. destruct (plt_start _ _ _ _ _ _ _ _ _ H (or_introl Hid)) as (Hlt & c3 & E3 & Hr & _).
    destruct (hist_decl _ _ _ _ _ _ _ _ _ H) as (_ & _ & D3).
    assert (E5 : sc_chunks (patched_plt w4 pd gd a3) = [c3 <| c_data := pd |>]).
    { unfold patched_plt. rewrite (on_eq id_plt) by (rewrite <- (decl_id _ _ D3); exact Hid).
      assert (En : on id_got_plt (set_chunk_data 0 gd) (set_chunk_data 0 pd a3) = set_chunk_data 0 pd a3).
      { apply on_ne. change (sc_id (set_chunk_data 0 pd a3)) with (sc_id a3). rewrite <- (decl_id _ _ D3), Hid. discriminate. }
      assert (Es : sc_chunks (set_chunk_data 0 pd a3) = [c3 <| c_data := pd |>]) by (unfold set_chunk_data; cbn [sc_chunks]; change (alter (fun c => c <| c_data := pd |>) 0%nat (sc_chunks a3) = [c3 <| c_data := pd |>]); rewrite E3; reflexivity).
      destruct (w_got_plt w4); [exact Es|]. rewrite En. exact Es. }
    destruct (h_special H) as [_ HY]. rewrite E5 in HY. inversion HY as [|c c6 cs cs' Hc6 HY' X Y]; subst. inversion HY'; subst.
    pose proof (reloc_quiet _ _ _ _ (h_rel H)) as HQ. rewrite <- Y in HQ. unfold quiet in HQ. rewrite <- Y in HQ.
    specialize (HQ ltac:(constructor; [rewrite Hc6; exact Hr|constructor])). apply same_bytes_bind in HQ.
    destruct (a7_final _ _ _ _ _ _ _ _ _ H) as (_ & _ & Hf). destruct (own_sy _ _ _ _ _ _ _ _ _ H Hlt) as [[Hsy _] _]. rewrite Hid in Hsy, Hf. cbn in Hsy. rewrite Hsy in Hf.
    unfold contents. rewrite Hf. cbn [id_plt tables_of table_at]. rewrite app_nil_r, HQ, bind_cons, app_nil_r. rewrite Hc6. reflexivity.
  Qed.
  Lemma got_plt_contents i b a0 a1 a3 a6 a7 pd gd : hist o wr ws w1 extra rest' w4 pd gd w5 w6 w7 w i a0 a1 a3 a6 a7 b -> plt_patch w4 pd gd ->
    sc_id b = id_got_plt -> contents b = gd.
  Proof using O P V.
    intros H (ps & gs & pc & pd0 & _ & Hgs & _ & _ & Hf) Hid. destruct (plt_start _ _ _ _ _ _ _ _ _ H (or_intror Hid)) as (Hlt & c3 & E3 & Hr & _).
    pose proof (get_w4 _ _ _ _ _ _ _ _ _ H) as Hg. rewrite Hid, Hgs in Hg. apply (inj Some) in Hg. subst gs. rewrite E3 in Hf. cbn [default fmap option_fmap option_map] in Hf.
    destruct (hist_decl _ _ _ _ _ _ _ _ _ H) as (_ & _ & D3).
    assert (E5 : sc_chunks (patched_plt w4 pd gd a3) = [c3 <| c_data := gd |>]).
    { unfold patched_plt. rewrite (on_ne id_plt) by (rewrite <- (decl_id _ _ D3), Hid; discriminate). destruct (w_got_plt w4).
      - injection Hf as _ Hgd. rewrite E3. f_equal. change (c_data c3 = gd) in Hgd. rewrite <- Hgd. by destruct c3.
      - rewrite (on_eq id_got_plt) by (rewrite <- (decl_id _ _ D3); exact Hid).
        change (alter (fun c => c <| c_data := gd |>) 0%nat (sc_chunks a3) = [c3 <| c_data := gd |>]). rewrite E3. reflexivity. }
    destruct (h_special H) as [_ HY]. rewrite E5 in HY. inversion HY as [|c c6 cs cs' Hc6 HY' X Y]; subst. inversion HY'; subst.
    pose proof (reloc_quiet _ _ _ _ (h_rel H)) as HQ. rewrite <- Y in HQ. unfold quiet in HQ. rewrite <- Y in HQ.
    specialize (HQ ltac:(constructor; [rewrite Hc6; exact Hr|constructor])). apply same_bytes_bind in HQ.
    destruct (a7_final _ _ _ _ _ _ _ _ _ H) as (_ & _ & Hff). destruct (own_sy _ _ _ _ _ _ _ _ _ H Hlt) as [[Hsy _] _]. rewrite Hid in Hsy, Hff. cbn in Hsy. rewrite Hsy in Hff.
    unfold contents. rewrite Hff. cbn [id_got_plt tables_of table_at]. rewrite app_nil_r, HQ, bind_cons, app_nil_r. rewrite Hc6. reflexivity.
  Qed.
  Theorem own_contents i b a0 a1 a3 a6 a7 pd gd : hist o wr ws w1 extra rest' w4 pd gd w5 w6 w7 w i a0 a1 a3 a6 a7 b -> plt_patch w4 pd gd -> (sc_id b < n0)%nat ->
    contents b = fixed_bytes pd gd (sc_id b) (sc_synth b).
  Proof using O P V.
    intros H HP Hlt. destruct (decide (sc_id b = id_plt)) as [E|N1].
    - rewrite (plt_contents _ _ _ _ _ _ _ _ _ H E), E. reflexivity.
    - destruct (decide (sc_id b = id_got_plt)) as [E|N2].
      + rewrite (got_plt_contents _ _ _ _ _ _ _ _ _ H HP E), E. reflexivity.
      + by apply (fixed_contents _ _ _ _ _ _ _ _ _ H).
  Qed.
End bytes.
