(** The stages of a link, taken apart: what each does to the sections. *)
From Verif Require Export ProofInput.

(** Only chunks changed. *)
Definition kept (s s' : section) : Prop := s' = s <| sc_chunks := sc_chunks s' |>.
Lemma kept_refl s : kept s s.
Proof. by destruct s. Qed.
Lemma kept_trans a b c : kept a b -> kept b c -> kept a c.
Proof. unfold kept. intros -> ->. done. Qed.
Lemma kept_chunks s cs : kept s (s <| sc_chunks := cs |>).
Proof. done. Qed.
Lemma kept_sh s s' : kept s s' -> sc_sh s' = sc_sh s /\ sc_id s' = sc_id s /\ sc_index s' = sc_index s /\
  sc_link s' = sc_link s /\ sc_synth s' = sc_synth s.
Proof. intros ->. done. Qed.
Lemma F2_kept_refl l : Forall2 kept l l.
Proof. induction l; constructor; [apply kept_refl|done]. Qed.
Lemma F2_trans {A} (R : A -> A -> Prop) l1 l2 l3 : (forall a b c, R a b -> R b c -> R a c) ->
  Forall2 R l1 l2 -> Forall2 R l2 l3 -> Forall2 R l1 l3.
Proof. intros HR H. revert l3. induction H; intros l3 H3; inversion H3; subst; constructor; eauto. Qed.
Lemma F2_kept_trans a b c : Forall2 kept a b -> Forall2 kept b c -> Forall2 kept a c.
Proof. apply F2_trans. apply kept_trans. Qed.
Lemma upd_kept id f l : (forall s, kept s (f s)) -> Forall2 kept l (upd_section id f l).
Proof.
  intros Hf. unfold upd_section. induction l as [|s l IH]; [constructor|]. rewrite fmap_cons. constructor; [|done].
  destruct (_ =? _)%nat; [apply Hf|apply kept_refl].
Qed.
Lemma mapM_st_F2 {S A} (R : A -> A -> Prop) (f : S -> A -> res (S * A)) l s s' l' :
  (forall s a s' a', f s a = Ok (s', a') -> R a a') -> mapM_st f l s = Ok (s', l') -> Forall2 R l l'.
Proof.
  intros Hf H. apply (mapM_st_trace (fun pre pre' _ => Forall2 R pre pre')) in H; [done|constructor|].
  intros pre pre' post s1 a s2 a' _ HF Hs. apply Forall2_app; [done|]. constructor; [|done]. by eapply Hf.
Qed.
Lemma mapM_res_F2 {A B} (R : A -> B -> Prop) (f : A -> res B) l l' :
  (forall a b, f a = Ok b -> R a b) -> mapM_res f l = Ok l' -> Forall2 R l l'.
Proof.
  intros Hf. revert l'. induction l as [|a l IH]; intros l' H; simpl in H; [injection H as <-; constructor|].
  apply bind_Ok in H as (b & Hb & H). apply bind_Ok in H as (bs & Hbs & [= <-]). constructor; [by apply Hf|by apply IH].
Qed.
Lemma F2_kept_head null rest l : Forall2 kept (null :: rest) l -> exists null' rest', l = null' :: rest' /\ kept null null' /\ Forall2 kept rest rest'.
Proof. inversion 1; subst; eauto. Qed.

(** * Sizing *)
Definition on (id : nat) (f : section -> section) (s : section) : section := if (sc_id s =? id)%nat then f s else s.
Lemma upd_on id f l : upd_section id f l = on id f <$> l.
Proof. done. Qed.
Definition add_zeros (n : N) (s : section) : section :=
  sec_add_chunk (chunk_new (zeros n)) (s <| sc_sh := sc_sh s <| sh_size := blen (zeros n) |> |>).
Definition pre_dynamic (o : oracle) (ws : writer) (h : option hashtab) (g : option gnutab) (nd np : N) (s : section) : section :=
  on id_pltrel (ModelWriter.set_size (np * RELA_SIZE)) (on id_dynrel (ModelWriter.set_size (nd * RELA_SIZE))
    ((fun s => if sh_type (sc_sh s) =? SHT_DYNSYM then s else sec_expand o (ws <| w_hash := h |> <| w_gnu_hash := g |>) s)
    (on id_dynsym (sec_expand o ws) (on id_got_plt (add_zeros (8 * (blen (w_got_plt ws) + 3)))
    (on id_got (add_zeros (8 * w_got_len ws)) s))))).
Definition size_fn (o : oracle) (ws : writer) (h : option hashtab) (g : option gnutab) (nd np extra : N) (s : section) : section :=
  on id_dynamic (ModelWriter.set_size ((blen (w_dyn_entries ws) + (extra + 1)) * 2 * 8)) (pre_dynamic o ws h g nd np s).

(** What layout does not see changing. *)
Definition frame (w : writer) :=
  (w_eh w, w_program_headers w, (w_p_vaddr w, w_start_p_vaddr w, w_file_offset w),
   (w_shstrtab w, w_strtab w, w_dynstr w), w_dyn_entries w).

Lemma fill_hash_frame sorted w w' : fill_hash_tables sorted w = Ok w' ->
  w' = w <| w_hash := w_hash w' |> <| w_gnu_hash := w_gnu_hash w' |> /\
  match w_hash w with Some _ => exists h, w_hash w' = Some h /\ ht_add_symbols (s_hash <$> sorted) = Ok h | None => w_hash w' = None end /\
  match w_gnu_hash w with Some _ => exists g, w_gnu_hash w' = Some g /\ gt_add_symbols (s_gnu_hash <$> sorted) = Ok g | None => w_gnu_hash w' = None end.
Proof.
  unfold fill_hash_tables. intros H. apply bind_Ok in H as (w1 & H1 & H2).
  destruct (w_hash w) as [h|] eqn:Eh.
  - apply bind_Ok in H1 as (h1 & Hh & [= <-]). simpl in H2. destruct (w_gnu_hash w) as [g|] eqn:Eg.
    + apply bind_Ok in H2 as (g1 & Hg & [= <-]). simpl. split; [by destruct w|]. split; eauto.
    + injection H2 as <-. simpl. rewrite Eg. split; [destruct w; simpl in *; by subst|]. split; eauto.
  - injection H1 as <-. destruct (w_gnu_hash w) as [g|] eqn:Eg.
    + apply bind_Ok in H2 as (g1 & Hg & [= <-]). simpl. rewrite Eh. split; [destruct w; simpl in *; by subst|]. split; eauto.
    + injection H2 as <-. rewrite Eh, Eg. split; [by destruct w; simpl in *; subst|]. done.
Qed.

Lemma fill_hash_resec sorted w secs wh : fill_hash_tables sorted (w <| w_sections := secs |>) = Ok wh ->
  fill_hash_tables sorted w = Ok (wh <| w_sections := w_sections w |>).
Proof.
  unfold fill_hash_tables. simpl. intros H. apply bind_Ok in H as (w2 & H2 & H3). destruct (w_hash w) as [h|] eqn:Eh.
  - apply bind_Ok in H2 as (h1 & -> & [= <-]). simpl in *. destruct (w_gnu_hash w) as [g|] eqn:Eg.
    + apply bind_Ok in H3 as (g1 & -> & [= <-]). by destruct w.
    + injection H3 as <-. by destruct w.
  - injection H2 as <-. simpl in *. destruct (w_gnu_hash w) as [g|] eqn:Eg.
    + apply bind_Ok in H3 as (g1 & -> & [= <-]). by destruct w.
    + injection H3 as <-. by destruct w.
Qed.

Record sizing (o : oracle) (w ws w1 : writer) (extra : N) : Prop := {
  sz_scan : scan_relocations w = Ok ws;
  sz_hash : exists wh, fill_hash_tables (syt_sorted (o_dyn o) (w_dynsym ws)) ws = Ok wh /\ w_hash w1 = w_hash wh /\ w_gnu_hash w1 = w_gnu_hash wh;
  sz_secs : w_sections w1 = size_fn o ws (w_hash w1) (w_gnu_hash w1) (blen (w_dyn_rels w1)) (blen (w_plt_rels w1)) extra <$> w_sections ws;
  sz_extra : foldM (fun n s => k ← dyn_entries (w_shstrtab ws) (sc_sh s); Ok (n + k))
    (pre_dynamic o ws (w_hash w1) (w_gnu_hash w1) (blen (w_dyn_rels w1)) (blen (w_plt_rels w1)) <$> w_sections ws) 0 = Ok extra;
  sz_rels : exists st, foldM (dynrel_step (dyn_sym_indices (syt_sorted (o_dyn o) (w_dynsym ws)))) (o_sym o (keys (syt_symbols (w_symtab ws))))
     (mkDynrel (syt_symbols (w_symtab ws)) (w_dynsym ws) (w_copyrel ws) (w_dyn_rels ws) (w_plt_rels ws)) = Ok st /\
     w_symtab w1 = w_symtab ws <| syt_symbols := dr_symbols st |> /\ w_dynsym w1 = dr_dynsym st /\ w_copyrel w1 = dr_copyrel st /\
     w_dyn_rels w1 = dr_dyn_rels st /\ w_plt_rels w1 = dr_plt_rels st;
  sz_frame : frame w1 = frame w;
  sz_got : w_got_len w1 = w_got_len ws /\ w_got_plt w1 = w_got_plt ws /\ w_plt w1 = w_plt ws }.

Lemma assign_sizes_spec o w w1 : assign_sizes o w = Ok w1 -> exists ws extra, sizing o w ws w1 extra.
Proof.
  unfold assign_sizes. intros H. apply bind_Ok in H as (ws & Hs & H).
  apply bind_Ok in H as (wh & Hh & H). apply bind_Ok in H as (wr & Hr & H).
  pose proof (fill_hash_frame _ _ _ Hh) as (Ewh & _).
  unfold build_dynrels in Hr. apply bind_Ok in Hr as (st & Hst & Hr). injection Hr as Ewr.
  unfold size_dynamic in H. apply bind_Ok in H as (extra & Hextra & H). injection H as Ew1.
  destruct (scan_flat _ _ Hs) as (sst & _ & Ews).
  exists ws, extra. split.
  - done.
  - (* hash *)
    match type of Hh with fill_hash_tables ?l ?x = _ =>
      change (fill_hash_tables (syt_sorted (o_dyn o) (w_dynsym ws)) (ws <| w_sections := w_sections x |>) = Ok wh) in Hh end.
    apply fill_hash_resec in Hh as Hx.
    eexists. split; [exact Hx|]. subst w1 wr. done.
  - subst w1 wr. simpl. rewrite Ewh. simpl. rewrite !upd_on, <- !list_fmap_compose. reflexivity.
  - subst w1 wr. simpl in *. rewrite Ewh in *. simpl in *. rewrite !upd_on, <- !list_fmap_compose in Hextra. exact Hextra.
  - exists st. subst w1 wr. rewrite Ewh in *. simpl in *. done.
  - subst w1 wr. rewrite Ewh, Ews. unfold frame. simpl. done.
  - subst w1 wr. rewrite Ewh. done.
Qed.

(** Sizes, sh_info and chunks are what sizing changes. *)
Definition sized (s s' : section) : Prop :=
  s' = s <| sc_sh := sc_sh s <| sh_size := memsz s' |> <| sh_info := sh_info (sc_sh s') |> |> <| sc_chunks := sc_chunks s' |>.
Lemma sized_trans a b c : sized a b -> sized b c -> sized a c.
Proof. unfold sized. intros Hb Hc. rewrite Hb in Hc. rewrite Hc. done. Qed.
Lemma sized_refl s : sized s s.
Proof. by destruct s as [? ? ? ? [] ?]. Qed.
Lemma sized_on id f s : (forall s, sized s (f s)) -> sized s (on id f s).
Proof. intros Hf. unfold on. destruct (_ =? _)%nat; [apply Hf|apply sized_refl]. Qed.
Lemma sized_expand o w s : sized s (sec_expand o w s).
Proof. unfold sec_expand. destruct s as [id ix lk sy [] cs]. destruct sy as [[]|]; done. Qed.
Lemma sized_pre o ws h g nd np s : sized s (pre_dynamic o ws h g nd np s).
Proof.
  unfold pre_dynamic.
  eapply sized_trans; [|apply sized_on; intros s1; by destruct s1 as [? ? ? ? [] ?]].
  eapply sized_trans; [|apply sized_on; intros s1; by destruct s1 as [? ? ? ? [] ?]].
  eapply sized_trans; [|cbv beta; destruct (_ =? _); [apply sized_refl|apply sized_expand]].
  eapply sized_trans; [|apply sized_on; intros s1; apply sized_expand].
  eapply sized_trans; [|apply sized_on; intros s1; by destruct s1 as [? ? ? ? [] ?]].
  apply sized_on; intros s1; by destruct s1 as [? ? ? ? [] ?].
Qed.
Lemma sized_fn o ws h g nd np extra s : sized s (size_fn o ws h g nd np extra s).
Proof.
  unfold size_fn. eapply sized_trans; [apply sized_pre|]. apply sized_on; intros s1; by destruct s1 as [? ? ? ? [] ?].
Qed.
Lemma sized_sig s s' : sized s s' -> sc_id s' = sc_id s /\ sc_index s' = sc_index s /\ sc_link s' = sc_link s /\ sc_synth s' = sc_synth s /\
  sh_name (sc_sh s') = sh_name (sc_sh s) /\ sh_type (sc_sh s') = sh_type (sc_sh s) /\ flags s' = flags s /\ align s' = align s.
Proof. intros ->. done. Qed.
Lemma scan_secs w ws : scan_relocations w = Ok ws -> Forall2 (fun s s' => kept s s' /\ contents s' = contents s /\ length (sc_chunks s') = length (sc_chunks s))
  (w_sections w) (w_sections ws).
Proof.
  intros H. eapply Forall2_impl; [by apply scan_relocations_scanned|]. intros s s' [Hk HF]. split; [done|]. split.
  - unfold contents. clear Hk. induction HF as [|c c' cs cs' [Hc _] HF IH]; [done|]. rewrite !bind_cons, IH. by rewrite Hc.
  - symmetry. by eapply Forall2_length.
Qed.

(** * Layout *)
Lemma sort_spec o l l' : sort_sections o l = Ok l' -> exists null rest, l = null :: rest /\ l' = set_indices (null :: o_sort o rest).
Proof. destruct l as [|null rest]; [done|]. intros [= <-]. eauto. Qed.
Lemma gph_spec w w' null rest : w_sections w = null :: rest -> generate_program_headers w = Ok w' -> exists st rest',
  mapM_st (layout_step (w_shstrtab w)) rest
    (mkLayout (w_file_offset w) (w_p_vaddr w) (Some (count_program_headers (null :: rest) * e_phentsize (w_eh w) + EHDR_SIZE)) 0 None (w_program_headers w)) = Ok (st, rest') /\
  w' = w <| w_sections := null :: rest' |> <| w_file_offset := ly_file_offset st |> <| w_p_vaddr := ly_p_vaddr st |>
         <| w_program_headers := mkPhdr PT_PHDR PF_R 0 0 0 0 0 8 :: ly_phs st |>.
Proof.
  intros Hs H. unfold generate_program_headers in H. rewrite Hs in H. apply bind_Ok in H as ([st rest'] & H & [= <-]). eauto.
Qed.

(** * After layout *)
Lemma add_dyn_spec w w' : add_dyn_entries w = Ok w' -> exists es,
  foldM (fun es s => new ← section_dyn_entries (w_shstrtab w) (sc_sh s); Ok (es ++ new)) (w_sections w) (w_dyn_entries w) = Ok es /\
  w' = w <| w_dyn_entries := es ++ [(DT_NULL, 0)] |>.
Proof. unfold add_dyn_entries. intros H. apply bind_Ok in H as (es & H & [= <-]). eauto. Qed.

Lemma set_chunk_kept i d s : kept s (set_chunk_data i d s).
Proof. done. Qed.
Lemma patch_plt_spec w w' : patch_plt_and_got_plt w = Ok w' -> w' = w <| w_sections := w_sections w' |> /\ Forall2 kept (w_sections w) (w_sections w').
Proof.
  unfold patch_plt_and_got_plt, patch_plt_and_got_plt_in. intros H.
  apply bind_Ok in H as (p & _ & H). apply bind_Ok in H as (g & _ & H). apply bind_Ok in H as (pc & _ & H). apply bind_Ok in H as (pd & _ & H).
  destruct (w_got_plt w).
  - injection H as <-. split; [by destruct w|]. apply upd_kept. intros s. apply set_chunk_kept.
  - apply bind_Ok in H as (gc & _ & H). apply bind_Ok in H as ([pd' gd'] & _ & [= <-]). split; [by destruct w|].
    eapply F2_kept_trans; apply upd_kept; intros s; apply set_chunk_kept.
Qed.
Lemma bound_symbols_kept sn a b t s t' s' : bound_symbols sn a b t s = Ok (t', s') -> kept s s' /\ contents s' = contents s /\ length (sc_chunks s') = length (sc_chunks s).
Proof.
  assert (Hal : forall r i (cs : list chunk), (alter (chunk_add_symbol r) i cs ≫= c_data) = cs ≫= c_data).
  { intros r i cs. revert i. induction cs as [|c cs IH]; intros [|i]; [done|done| |].
    - change (alter (chunk_add_symbol r) 0%nat (c :: cs)) with (chunk_add_symbol r c :: cs). rewrite !bind_cons. by rewrite (proj1 (chunk_add_symbol_same r c)).
    - change (alter (chunk_add_symbol r) (S i) (c :: cs)) with (c :: alter (chunk_add_symbol r) i cs). rewrite !bind_cons. by rewrite IH. }
  unfold bound_symbols. intros H. apply bind_Ok in H as (s1 & H1 & H).
  assert (K1 : kept s s1 /\ contents s1 = contents s /\ length (sc_chunks s1) = length (sc_chunks s)).
  { destruct (st_get sn a); [apply bind_Ok in H1 as (c & _ & [= <-])|injection H1 as <-; split; [apply kept_refl|done]].
    split; [done|]. split; [unfold contents; simpl; apply Hal|simpl; by rewrite alter_length]. }
  destruct (st_get sn b); [|by injection H as <- <-]. apply bind_Ok in H as (x & _ & H).
  destruct K1 as (K1 & K2 & K3).
  destruct (sc_chunks s1) as [|c0 cs0] eqn:E; [done|]. injection H as <- <-. split; [|split].
  - eapply kept_trans; [exact K1|done].
  - rewrite <- K2. unfold contents at 1. cbn [sc_chunks]. simpl sc_chunks. rewrite Hal. unfold contents. by rewrite E.
  - simpl sc_chunks. rewrite alter_length, <- K3. done.
Qed.
Lemma special_step_kept sn secn skip t s t' s' : special_step sn secn skip t s = Ok (t', s') -> kept s s' /\ contents s' = contents s /\ length (sc_chunks s') = length (sc_chunks s).
Proof.
  unfold special_step. destruct (bool_decide _); [intros [= <- <-]; split; [apply kept_refl|done]|].
  destruct (bool_decide _); [apply bound_symbols_kept|]. destruct (bool_decide _); [apply bound_symbols_kept|].
  intros [= <- <-]; split; [apply kept_refl|done].
Qed.
Lemma special_spec w w' : handle_special_symbols w = Ok w' ->
  w' = w <| w_symtab := w_symtab w' |> <| w_sections := w_sections w' |> <| w_dynsym := w_dynsym w' |> /\
  Forall2 (fun s s' => kept s s' /\ contents s' = contents s /\ length (sc_chunks s') = length (sc_chunks s)) (w_sections w) (w_sections w').
Proof.
  unfold handle_special_symbols. intros H. apply bind_Ok in H as ([t secs] & H & [= <-]). simpl in H.
  assert (Hg : set_got_symbol w = w <| w_symtab := w_symtab (set_got_symbol w) |>).
  { unfold set_got_symbol. destruct (st_get _ _); by destruct w. }
  rewrite Hg in H |- *. simpl in *. split; [by destruct w|]. eapply mapM_st_F2; [|exact H]. intros s a s' a'. apply special_step_kept.
Qed.
Lemma apply_relocs_data got plt t d c c' : chunk_apply_relocations got plt t d c = Ok c' -> c' = c <| c_data := c_data c' |> /\ length (c_data c') = length (c_data c).
Proof.
  intros H. split; [|apply (chunk_frame _ _ _ _ _ _ H)]. destruct (chunk_apply_fold _ _ _ _ _ _ H) as (d' & _ & ->). done.
Qed.

Lemma handle_relocs_spec w w' null rest : w_sections w = null :: rest -> handle_relocations w = Ok w' ->
  exists t rest', w' = w <| w_symtab := t |> <| w_sections := null :: rest' |> /\
    t = fold_left (fun t s => if relocatable w s then patch_symbol_values s t else t) rest (w_symtab w) /\
    Forall2 (fun s s' => kept s s' /\
      if relocatable w s then mapM_res (chunk_apply_relocations (sh_addr (hdr_of id_got (w_sections w))) (sh_addr (hdr_of id_plt (w_sections w))) t (w_dynsym w)) (sc_chunks s) = Ok (sc_chunks s')
      else s' = s) rest rest'.
Proof.
  intros Hs H. unfold handle_relocations in H. apply bind_Ok in H as (secs & H & [= <-]). rewrite Hs in *. simpl in H.
  rewrite Hs in H. simpl in H. rewrite drop_0 in H.
  eexists _, secs. split; [done|]. split; [done|].
  eapply mapM_res_F2; [|exact H]. intros s s' Hss. cbv beta in Hss.
  change (relocatable (w <| w_symtab := _ |>) s) with (relocatable w s) in Hss.
  destruct (relocatable w s).
  - apply bind_Ok in Hss as (cs & Hcs & [= <-]). split; [done|]. exact Hcs.
  - injection Hss as <-. split; [apply kept_refl|done].
Qed.

Lemma compute_tables_spec w : w_sections (compute_tables w) =
  (fun s => on id_pltrel (sec_add_chunk (chunk_new (w_plt_rels (compute_tables w) ≫= ser_rela)))
    (on id_dynrel (sec_add_chunk (chunk_new (w_dyn_rels (compute_tables w) ≫= ser_rela)))
    (on id_dynamic (sec_add_chunk (chunk_new (ser_dyns (w_dyn_entries w))))
    (on id_dynstr (sec_add_chunk (chunk_new (st_chunk_data (w_dynstr w))))
    (on id_symstr (sec_add_chunk (chunk_new (st_chunk_data (w_strtab w))))
    (on id_shstr (sec_add_chunk (chunk_new (st_chunk_data (w_shstrtab w)))) s)))))) <$> w_sections w.
Proof. unfold compute_tables. simpl. rewrite !upd_on, <- !list_fmap_compose. done. Qed.
Lemma compute_tables_kept w : Forall2 kept (w_sections w) (w_sections (compute_tables w)).
Proof.
  assert (Hon : forall id d s, kept s (on id (sec_add_chunk d) s)).
  { intros id d s. unfold on. destruct (_ =? _)%nat; [done|apply kept_refl]. }
  rewrite compute_tables_spec. induction (w_sections w) as [|s l IH]; [constructor|]. rewrite fmap_cons. constructor; [|done].
  repeat (eapply kept_trans; [|apply Hon]). apply kept_refl.
Qed.

Lemma finish_spec w w' : finish_header w = Ok w' -> exists entry ph phs,
  w_program_headers w = ph :: phs /\
  match st_get (w_strtab w) "_start" with
  | Some e => exists s, syt_get (w_symtab w) (RNamed (u32 (en_offset e))) = Some s /\ entry = st_value (s_sym s)
  | None => entry = e_entry (w_eh w)
  end /\
  u16 (blen (w_program_headers w)) * e_phentsize (w_eh w) < 2^16 /\
  let sz := u16 (blen (w_program_headers w)) * e_phentsize (w_eh w) in
  let va := e_phoff (w_eh w) + w_start_p_vaddr w in
  w' = w <| w_eh := w_eh w <| e_entry := entry |> <| e_shnum := u16 (blen (w_sections w)) |>
                   <| e_phnum := u16 (blen (w_program_headers w)) |>
                   <| e_shstrndx := (match get_section id_shstr (w_sections w) with Some s => u16 (sc_index s) | None => 0 end) |>
                   <| e_shoff := w_file_offset w |> |>
         <| w_program_headers := ph <| p_offset := e_phoff (w_eh w) |> <| p_memsz := sz |> <| p_filesz := sz |>
                     <| p_vaddr := va |> <| p_paddr := va |> :: phs |>.
Proof.
  unfold finish_header. intros H. apply bind_Ok in H as (entry & He & H).
  destruct (w_program_headers w) as [|ph phs] eqn:Ep; [done|]. cbv zeta in H.
  match type of H with (if ?b then _ else _) = _ => destruct b eqn:Eb end; [done|]. apply N.leb_gt in Eb.
  injection H as <-. exists entry, ph, phs. split; [done|]. split.
  - destruct (st_get (w_strtab w) "_start") as [e|]; [|by injection He as <-].
    apply bind_Ok in He as (s & Hs & [= <-]). apply unwrap_Ok in Hs. eauto.
  - split; [exact Eb|]. by destruct w as [[] ? ? ? ? ? ? ? ? ? ? ? ? ? ? ? ? ? ? ? ? ?].
Qed.

(** * Finalizing *)
Lemma finalize_spec o w s s' : sec_finalize o w s = Ok s' ->
  s' = s <| sc_sh := sc_sh s <| sh_size := memsz s' |> <| sh_link := sh_link (sc_sh s') |> |> <| sc_chunks := sc_chunks s' |> /\
  memsz s' = (if decide (sc_synth s = Some KCopyRel) then cr_size (w_copyrel w) else memsz s) /\
  match sc_synth s with
  | Some KSym => is_Some (sc_chunks s !! 0%nat) /\ sc_chunks s' = <[0%nat := chunk_new (syt_chunk_data (o_sym o) (w_symtab w))]> (sc_chunks s)
  | Some KDynsym => is_Some (sc_chunks s !! 0%nat) /\ sc_chunks s' = <[0%nat := chunk_new (syt_chunk_data (o_dyn o) (w_dynsym w))]> (sc_chunks s)
  | _ => sc_chunks s' = sc_chunks s
  end /\
  match sc_link s with
  | Some id => exists t, get_section id (w_sections w) = Some t /\ sh_link (sc_sh s') = u32 (sc_index t)
  | None => sh_link (sc_sh s') = sh_link (sc_sh s)
  end.
Proof.
  unfold sec_finalize. intros H. apply bind_Ok in H as (s1 & H1 & H2).
  assert (E1 : s1 = s <| sc_sh := sc_sh s <| sh_size := memsz s1 |> |> <| sc_chunks := sc_chunks s1 |> /\
    memsz s1 = (if decide (sc_synth s = Some KCopyRel) then cr_size (w_copyrel w) else memsz s) /\
    match sc_synth s with
    | Some KSym => is_Some (sc_chunks s !! 0%nat) /\ sc_chunks s1 = <[0%nat := chunk_new (syt_chunk_data (o_sym o) (w_symtab w))]> (sc_chunks s)
    | Some KDynsym => is_Some (sc_chunks s !! 0%nat) /\ sc_chunks s1 = <[0%nat := chunk_new (syt_chunk_data (o_dyn o) (w_dynsym w))]> (sc_chunks s)
    | _ => sc_chunks s1 = sc_chunks s
    end).
  { destruct s as [id ix lk sy sh cs]. simpl in *. destruct sy as [[]|];
    try (injection H1 as <-; simpl; split; [by destruct sh|]; split; [first [done|by rewrite decide_False by done]|done]).
    - apply bind_Ok in H1 as (c & Hc & [= <-]). apply index_Ok in Hc. simpl. split; [by destruct sh|]. split; [done|]. split; [eauto|done].
    - apply bind_Ok in H1 as (c & Hc & [= <-]). apply index_Ok in Hc. simpl. split; [by destruct sh|]. split; [done|]. split; [eauto|done]. }
  destruct E1 as (E1 & E2 & E3). rewrite E1 in H2. simpl in H2.
  destruct (sc_link s) as [id|] eqn:El; simpl in H2.
  - apply bind_Ok in H2 as (t & Ht & [= <-]). apply unwrap_Ok in Ht. simpl. split; [by destruct s as [? ? ? ? [] ?]|].
    split; [done|]. split; [done|]. eauto.
  - injection H2 as <-. simpl. split; [by destruct s as [? ? ? ? [] ?]|]. split; [done|]. split; [done|]. done.
Qed.

(** * A whole run *)
Definition indexed (l : list section) : list section := imap (fun i s => s <| sc_index := N.of_nat (S i) |>) l.
Definition phdrs_room (l : list section) : N := count_load_headers 0 l + 3.
Definition x0_of (l : list section) : N := phdrs_room l * 56 + 64.

Record run (o : oracle) (wr ws w1 : writer) (extra : N) (null : section) (rest rest' : list section) (st : layout)
    (w3 w4 w5 w6 w7 w : writer) : Prop := {
  rn_sizing : sizing o wr ws w1 extra;
  rn_secs1 : w_sections w1 = null :: rest;
  rn_layout : mapM_st (layout_step (w_shstrtab w1)) (indexed (o_sort o rest))
    (mkLayout (w_file_offset w1) (w_p_vaddr w1) (Some (phdrs_room (indexed (o_sort o rest)) * e_phentsize (w_eh w1) + EHDR_SIZE)) 0 None (w_program_headers w1)) = Ok (st, rest');
  rn_w3 : w3 = w1 <| w_sections := null <| sc_index := 0 |> :: rest' |> <| w_file_offset := ly_file_offset st |> <| w_p_vaddr := ly_p_vaddr st |>
         <| w_program_headers := mkPhdr PT_PHDR PF_R 0 0 0 0 0 8 :: ly_phs st |>;
  rn_dyn : add_dyn_entries w3 = Ok w4;
  rn_plt : patch_plt_and_got_plt w4 = Ok w5;
  rn_special : handle_special_symbols w5 = Ok w6;
  rn_rel : handle_relocations w6 = Ok w7;
  rn_fin : finish_header (compute_tables w7) = Ok w;
  rn_sizes : assign_sizes o wr = Ok w1;
  rn_assign : assign_layout o w1 = Ok w5 }.

Global Arguments rn_sizing {_ _ _ _ _ _ _ _ _ _ _ _ _ _ _} _.
Global Arguments rn_secs1 {_ _ _ _ _ _ _ _ _ _ _ _ _ _ _} _.
Global Arguments rn_layout {_ _ _ _ _ _ _ _ _ _ _ _ _ _ _} _.
Global Arguments rn_w3 {_ _ _ _ _ _ _ _ _ _ _ _ _ _ _} _.
Global Arguments rn_dyn {_ _ _ _ _ _ _ _ _ _ _ _ _ _ _} _.
Global Arguments rn_plt {_ _ _ _ _ _ _ _ _ _ _ _ _ _ _} _.
Global Arguments rn_special {_ _ _ _ _ _ _ _ _ _ _ _ _ _ _} _.
Global Arguments rn_rel {_ _ _ _ _ _ _ _ _ _ _ _ _ _ _} _.
Global Arguments rn_fin {_ _ _ _ _ _ _ _ _ _ _ _ _ _ _} _.
Global Arguments rn_sizes {_ _ _ _ _ _ _ _ _ _ _ _ _ _ _} _.
Global Arguments rn_assign {_ _ _ _ _ _ _ _ _ _ _ _ _ _ _} _.

Lemma link_steps wd lo l fuel w : link_writer wd lo l fuel = Ok w -> exists wr,
  resolve wd lo l fuel = Ok wr /\ compute_sections (lo_writer lo) wr = Ok w /\ undefined_symbols (lo_writer lo) w = [].
Proof.
  unfold link_writer. intros H. apply bind_Ok in H as (wr & Hr & H). apply bind_Ok in H as (wc & Hc & H). apply bind_Ok in H as ([] & Hu & [= <-]).
  exists wr. split; [done|]. split; [done|]. unfold check_undefined in Hu. destruct (undefined_symbols _ _); [done|]. by apply bind_Ok in Hu as (? & _ & ?).
Qed.
Lemma link_settled wd lo l fuel w : link_writer wd lo l fuel = Ok w -> undefined_symbols (lo_writer lo) w = [].
Proof. intros H. by destruct (link_steps _ _ _ _ _ H) as (wr & _ & _ & E). Qed.
Lemma compute_run o wr w : compute_sections o wr = Ok w -> exists ws w1 extra null rest rest' st w3 w4 w5 w6 w7,
  run o wr ws w1 extra null rest rest' st w3 w4 w5 w6 w7 w.
Proof.
  intros Hc. unfold compute_sections, assign_section_addresses in Hc.
  apply bind_Ok in Hc as (w5 & H5 & Hc). apply bind_Ok in Hc as (w6 & H6 & Hc). apply bind_Ok in Hc as (w7 & H7 & Hc).
  apply bind_Ok in H5 as (w1 & H1 & H5). pose proof H5 as H5'. unfold assign_layout in H5. apply bind_Ok in H5 as (s2 & H2 & H5). apply bind_Ok in H5 as (w3 & H3 & H5). apply bind_Ok in H5 as (w4 & H4 & H5).
  destruct (assign_sizes_spec _ _ _ H1) as (ws & extra & Hsz). destruct (sort_spec _ _ _ H2) as (null & rest & E1 & E2).
  assert (E3 : w_sections (w1 <| w_sections := s2 |>) = null <| sc_index := 0 |> :: indexed (o_sort o rest)).
  { simpl. rewrite E2. unfold set_indices, indexed. done. }
  destruct (gph_spec _ _ _ _ E3 H3) as (st & rest' & Hl & Ew3). simpl in Hl.
  exists ws, w1, extra, null, rest, rest', st, w3, w4, w5, w6, w7. clear -H1 H5' H4 H5 H6 H7 Hc E1 Hsz Hl Ew3. split; assumption.
Qed.
Lemma link_run wd lo l fuel w : link_writer wd lo l fuel = Ok w -> exists wr ws w1 extra null rest rest' st w3 w4 w5 w6 w7,
  resolve wd lo l fuel = Ok wr /\ run (lo_writer lo) wr ws w1 extra null rest rest' st w3 w4 w5 w6 w7 w.
Proof.
  intros H. destruct (link_steps _ _ _ _ _ H) as (wr & Hr & Hc & _). destruct (compute_run _ _ _ Hc) as (ws & w1 & extra & null & rest & rest' & st & w3 & w4 & w5 & w6 & w7 & R).
  exists wr, ws, w1, extra, null, rest, rest', st, w3, w4, w5, w6, w7. split; assumption.
Qed.

Section run_facts.
  Context {o : oracle} {wr ws w1 : writer} {extra : N} {null : section} {rest rest' : list section} {st : layout} {w3 w4 w5 w6 w7 w : writer}.
  Context (R : run o wr ws w1 extra null rest rest' st w3 w4 w5 w6 w7 w).

  Lemma run_w3_secs : w_sections w3 = null <| sc_index := 0 |> :: rest'.
  Proof. by rewrite (rn_w3 R). Qed.
  Lemma run_w4 : exists es, w4 = w3 <| w_dyn_entries := es ++ [(DT_NULL, 0)] |> /\
    foldM (fun es s => new ← section_dyn_entries (w_shstrtab w3) (sc_sh s); Ok (es ++ new)) (w_sections w3) (w_dyn_entries w3) = Ok es.
  Proof. destruct (add_dyn_spec _ _ (rn_dyn R)) as (es & He & E). eauto. Qed.
  Lemma run_kept : exists null' fin, w_sections w = null' :: fin /\ kept (null <| sc_index := 0 |>) null' /\ Forall2 kept rest' fin.
  Proof.
    pose proof run_w3_secs as E3. destruct run_w4 as (es & E4 & _).
    destruct (patch_plt_spec _ _ (rn_plt R)) as [E5 K5].
    destruct (special_spec _ _ (rn_special R)) as [E6 K6].
    assert (K56 : Forall2 kept (w_sections w5) (w_sections w6)) by (eapply Forall2_impl; [exact K6|]; by intros ? ? [? _]).
    assert (Es4 : w_sections w4 = null <| sc_index := 0 |> :: rest') by (rewrite E4; exact E3).
    rewrite Es4 in K5. pose proof (F2_kept_trans _ _ _ K5 K56) as K36.
    destruct (F2_kept_head _ _ _ K36) as (n6 & r6 & Es6 & Kn6 & Kr6).
    destruct (handle_relocs_spec _ _ _ _ Es6 (rn_rel R)) as (t & r7 & E7 & _ & F7).
    assert (K67 : Forall2 kept r6 r7) by (eapply Forall2_impl; [exact F7|]; by intros ? ? [? _]).
    pose proof (compute_tables_kept w7) as K8. rewrite E7 in K8 at 1. simpl in K8.
    destruct (F2_kept_head _ _ _ K8) as (n8 & r8 & Es8 & Kn8 & Kr8).
    destruct (finish_spec _ _ (rn_fin R)) as (entry & ph & phs & _ & _ & _ & Ew).
    exists n8, r8. split; [rewrite Ew; exact Es8|]. split; [by eapply kept_trans|].
    eapply F2_kept_trans; [exact Kr6|]. eapply F2_kept_trans; [exact K67|exact Kr8].
  Qed.
  (** Fields that come straight from earlier stages. *)
  Lemma run_fields : w_shstrtab w = w_shstrtab wr /\ w_strtab w = w_strtab wr /\ w_dynstr w = w_dynstr wr /\
    w_file_offset w = ly_file_offset st /\ w_dyn_entries w = w_dyn_entries w4 /\ w_copyrel w = w_copyrel w1 /\
    w_symtab w = w_symtab w7 /\ w_dynsym w = w_dynsym w6 /\
    w_dyn_rels w = w_dyn_rels (compute_tables w7) /\ w_plt_rels w = w_plt_rels (compute_tables w7) /\
    w_dyn_rels w7 = w_dyn_rels w1 /\ w_plt_rels w7 = w_plt_rels w1 /\ w_dyn_entries w7 = w_dyn_entries w4 /\
    w_shstrtab w7 = w_shstrtab wr /\ w_strtab w7 = w_strtab wr /\ w_dynstr w7 = w_dynstr wr /\
    w_program_headers w7 = mkPhdr PT_PHDR PF_R 0 0 0 0 0 8 :: ly_phs st /\ w_eh w7 = w_eh wr /\ w_start_p_vaddr w7 = w_start_p_vaddr wr /\
    w_file_offset w7 = ly_file_offset st /\ w_sections w = w_sections (compute_tables w7) /\ w_copyrel w7 = w_copyrel w1.
  Proof.
    destruct run_w4 as (es & E4 & _).
    destruct (patch_plt_spec _ _ (rn_plt R)) as [E5 _].
    destruct (special_spec _ _ (rn_special R)) as [E6 _].
    assert (E7 : w7 = w6 <| w_symtab := w_symtab w7 |> <| w_sections := w_sections w7 |>).
    { pose proof (rn_rel R) as H. unfold handle_relocations in H. apply bind_Ok in H as (secs & _ & [= <-]). by destruct w6. }
    destruct (finish_spec _ _ (rn_fin R)) as (entry & ph & phs & _ & _ & _ & Ew).
    pose proof (sz_frame _ _ _ _ _ (rn_sizing R)) as Hf. unfold frame in Hf.
    injection Hf as F1 F2 F3 F4 F5 F6 F7 F8 F9.
    pose proof (rn_w3 R) as E3.
    assert (G7 : w7 = w1 <| w_sections := w_sections w7 |> <| w_file_offset := ly_file_offset st |> <| w_p_vaddr := ly_p_vaddr st |>
         <| w_program_headers := mkPhdr PT_PHDR PF_R 0 0 0 0 0 8 :: ly_phs st |> <| w_dyn_entries := w_dyn_entries w4 |> <| w_symtab := w_symtab w7 |> <| w_dynsym := w_dynsym w6 |>).
    { rewrite E7. rewrite E6. rewrite E5. rewrite E4. rewrite E3. done. }
    assert (Gd : w_dynsym w7 = w_dynsym w6) by (rewrite E7; done).
    clear E7 E6 E5 E4 E3. rewrite Ew. cbn [w_shstrtab w_strtab]. simpl. rewrite Gd.
    rewrite <- F6, <- F7, <- F8, <- F1, <- F4.
    set (secs7 := w_sections w7) in *. set (t7 := w_symtab w7) in *. set (d6 := w_dynsym w6) in *. set (e4 := w_dyn_entries w4) in *.
    clearbody secs7 t7 d6 e4. subst w7. simpl. split_and!; reflexivity.
  Qed.
End run_facts.
