(** The shape of the writer while input is added: which sections it has and
    how they are named. *)
From Verif Require Export ProofRun ProofLayout ProofStr.

(** What never changes in a section once it exists. *)
Definition sec_sig (s : section) :=
  (sc_id s, sc_index s, sc_link s, sc_synth s, sh_name (sc_sh s), sh_type (sc_sh s), flags s,
   (sh_addr (sc_sh s), sh_offset (sc_sh s), sh_link (sc_sh s), sh_info (sc_sh s), sh_entsize (sc_sh s))).
Lemma sec_sig_id a b : sec_sig a = sec_sig b -> sc_id a = sc_id b.
Proof. by intros [= -> _]. Qed.
(** What never changes in the writer while input is added. *)
Definition wconst (w : writer) :=
  (w_eh w, w_dyn_rels w, w_plt_rels w, w_got_len w, w_got_plt w, w_program_headers w,
   (w_p_vaddr w, w_start_p_vaddr w, w_file_offset w), (w_plt w, w_copyrel w), (w_hash w, w_gnu_hash w, w_hash_id w, w_gnu_hash_id w)).

(** The sections every link starts from. *)
Definition ref_writer (style : hash_style) : res writer := writer_new (options_default <| opt_hash_style := style |>).
Definition ref_sections (style : hash_style) : list section :=
  match ref_writer style with Ok w => w_sections w | _ => [] end.
Definition ref_names (style : hash_style) : strtab :=
  match ref_writer style with Ok w => w_shstrtab w | _ => st_default end.

Global Opaque ref_writer ref_sections ref_names.

Lemma goc_section_strtab t n : stt_section_strtab (st_get_or_create t n).1 = stt_section_strtab t.
Proof. unfold st_get_or_create. by destruct (assoc n (stt_names t)) as [[]|]. Qed.

Lemma writer_new_ref opts w : writer_new opts = Ok w ->
  sec_sig <$> w_sections w = sec_sig <$> ref_sections (opt_hash_style opts) /\
  align <$> w_sections w = align <$> ref_sections (opt_hash_style opts) /\
  w_shstrtab w = ref_names (opt_hash_style opts) /\
  (exists w0, ref_writer (opt_hash_style opts) = Ok w0 /\ wconst w = wconst w0) /\
  w_strtab w = st_default /\ w_symtab w = syt_new false /\ w_dynsym w = syt_new true.
Proof.
  unfold writer_new. intros H. apply bind_Ok in H as (n & _ & H).
  pose proof (goc_section_strtab st_default n) as Hs.
  destruct (st_get_or_create st_default n) as [dn ie]. simpl in Hs.
  unfold fill_strtab in H. rewrite Hs in H. clear Hs.
  revert H. generalize (string_bytes (opt_dynamic_linker opts) ++ [0]). intros loader H.
  revert H. generalize (opt_hash_style opts). intros style H. clear opts n.
  destruct style; vm_compute in H; injection H as <-; (split; [vm_compute; reflexivity|]); (split; [vm_compute; reflexivity|]); (split; [vm_compute; reflexivity|]);
  (split; [eexists; (split; [vm_compute; reflexivity|]); vm_compute; reflexivity|]); done.
Qed.

(** Chunks only gain symbols and relocations; new ones are appended. *)
Definition chunks_grow (cs cs' : list chunk) : Prop :=
  forall i c, cs !! i = Some c -> exists c', cs' !! i = Some c' /\
    c_data c' = c_data c /\ c_address c' = c_address c.
Definition grown (s s' : section) : Prop :=
  sec_sig s' = sec_sig s /\ align s <= align s' /\ chunks_grow (sc_chunks s) (sc_chunks s').

Lemma chunks_grow_refl cs : chunks_grow cs cs.
Proof. intros i c Hc. eauto. Qed.
Lemma chunks_grow_trans a b c : chunks_grow a b -> chunks_grow b c -> chunks_grow a c.
Proof.
  intros H1 H2 i x Hx. destruct (H1 i x Hx) as (y & Hy & E1 & E2). destruct (H2 i y Hy) as (z & Hz & E3 & E4).
  exists z. split; [done|]. split; congruence.
Qed.
Lemma grown_refl s : grown s s.
Proof. split; [done|]. split; [lia|apply chunks_grow_refl]. Qed.
Lemma grown_trans a b c : grown a b -> grown b c -> grown a c.
Proof.
  intros (H1 & H2 & H3) (G1 & G2 & G3). split; [congruence|]. split; [lia|]. by eapply chunks_grow_trans.
Qed.

(** A section added by input: no synthesized contents, not one of the skipped types. *)
Definition plain_input (s : section) : Prop :=
  sc_synth s = None /\ sc_link s = None /\ sc_index s = 0 /\ sh_type (sc_sh s) ∉ SKIPPED_SECTIONS /\
  sh_addr (sc_sh s) = 0 /\ sh_offset (sc_sh s) = 0.

(** The invariant: the initial sections are still there, the further ones are
    input sections, each section's id is its position and its name the
    position's entry of the name table. *)
Record winv (n0 : nat) (w0 w : writer) : Prop := {
  wi_n0 : n0 = length (w_sections w0);
  wi_const : wconst w = wconst w0;
  wi_fixed : forall i s0, w_sections w0 !! i = Some s0 -> exists s, w_sections w !! i = Some s /\ grown s0 s;
  wi_ids : forall i s, w_sections w !! i = Some s -> sc_id s = i;
  wi_new : forall i s, (n0 <= i)%nat -> w_sections w !! i = Some s -> plain_input s;
  wi_st : st_reach (w_shstrtab w);
  wi_prefix : exists tl, stt_names (w_shstrtab w) = stt_names (w_shstrtab w0) ++ tl;
  wi_len : length (stt_names (w_shstrtab w)) = length (w_sections w);
  wi_names : forall i s, (n0 <= i)%nat -> w_sections w !! i = Some s -> exists n o,
     stt_names (w_shstrtab w) !! i = Some (n, (N.of_nat i, o)) /\ sh_name (sc_sh s) = u32 o }.

Definition same_but_sections (w w' : writer) : Prop := wconst w' = wconst w /\ w_shstrtab w' = w_shstrtab w.

(** Preserved when sections only grow in place. *)
Lemma winv_grow n0 w0 w w' : winv n0 w0 w -> wconst w' = wconst w -> w_shstrtab w' = w_shstrtab w ->
  Forall2 grown (w_sections w) (w_sections w') -> winv n0 w0 w'.
Proof.
  intros [I1 I2 I3 I4 I5 I6 I7 I8 I9] Hc Hs HF. rewrite <- Hs in *.
  assert (Hback : forall i s', w_sections w' !! i = Some s' -> exists s, w_sections w !! i = Some s /\ grown s s').
  { intros i s' Hi. exact (Forall2_lookup_r _ _ _ _ _ HF Hi). }
  split; [done|congruence| | | |done|done| |].
  - intros i s0 Hi. destruct (I3 i s0 Hi) as (s & Hs1 & Hg). destruct (Forall2_lookup_l _ _ _ _ _ HF Hs1) as (s' & Hs' & Hg').
    exists s'. split; [done|]. by eapply grown_trans.
  - intros i s' Hi. destruct (Hback i s' Hi) as (s & Hsi & Hg & _). rewrite <- (I4 i s Hsi). unfold sec_sig in Hg. congruence.
  - intros i s' Hn Hi. destruct (Hback i s' Hi) as (s & Hsi & Hg & _). specialize (I5 i s Hn Hsi).
    unfold plain_input in *. injection Hg as E1 E2 E3 E4 E5 E6 E7 E8 E9. rewrite E2, E3, E4, E6, E8, E9. done.
  - rewrite I8. by eapply Forall2_length.
  - intros i s' Hn Hi. destruct (Hback i s' Hi) as (s & Hsi & Hg & _). destruct (I9 i s Hn Hsi) as (n & o & H1 & H2).
    exists n, o. split; [done|]. injection Hg as E1 E2 E3 E4 E5. congruence.
Qed.

Lemma upd_grown id f secs : (forall s, grown s (f s)) -> Forall2 grown secs (upd_section id f secs).
Proof.
  intros Hf. induction secs as [|s secs IH]; [constructor|]. unfold upd_section in *. rewrite fmap_cons.
  constructor; [|done]. destruct (_ =? _)%nat; [apply Hf|apply grown_refl].
Qed.
Lemma alter_grown i (f : chunk -> chunk) s : (forall c, c_data (f c) = c_data c /\ c_address (f c) = c_address c) ->
  grown s (s <| sc_chunks := alter f i (sc_chunks s) |>).
Proof.
  intros Hf. split; [done|]. split; [unfold align; simpl; lia|]. simpl. intros j c Hj.
  destruct (decide (j = i)) as [->|Hne].
  - rewrite list_lookup_alter, Hj. simpl. exists (f c). split; [done|apply Hf].
  - rewrite list_lookup_alter_ne by done. eauto.
Qed.
Lemma Forall2_grown_refl l : Forall2 grown l l.
Proof. induction l; constructor; [apply grown_refl|done]. Qed.

Lemma add_symbol_inner_grown sym sr name ref names t secs names' t' secs' r :
  add_symbol_inner sym sr name ref names t secs = Ok (names', t', secs', r) -> Forall2 grown secs secs'.
Proof.
  unfold add_symbol_inner. destruct (st_get_or_create names name) as [n1 e].
  destruct (syt_add_symbol _ _ _ _ _) as [[t1 r1]|]; [|done].
  destruct sr as [sr|]; [|intros [= <- <- <- <-]; apply Forall2_grown_refl].
  destruct (_ =? _); [intros [= <- <- <- <-]; apply Forall2_grown_refl|].
  intros H. apply bind_Ok in H as (secs1 & H & [= <- <- <- <-]). apply mod_chunk_Ok in H as (s & c & _ & _ & ->).
  apply upd_grown. intros s1. apply alter_grown. intros c1. unfold chunk_add_symbol. by destruct (decide _).
Qed.

Lemma winv_symbol n0 w0 w sym sr name ref w' r : winv n0 w0 w -> add_symbol w sym sr name ref = Ok (w', r) -> winv n0 w0 w'.
Proof.
  intros HI H. unfold add_symbol in H. apply bind_Ok in H as ([[[names t] secs] r1] & H & [= <- <-]).
  eapply winv_grow; [done|done|done|]. simpl. by eapply add_symbol_inner_grown.
Qed.
Lemma winv_dyn n0 w0 w sym sr name ref w' r : winv n0 w0 w -> add_dyn_symbol w sym sr name ref = Ok (w', r) -> winv n0 w0 w'.
Proof.
  intros HI H. unfold add_dyn_symbol in H. apply bind_Ok in H as ([[[names t] secs] r1] & H & H2).
  assert (Forall2 grown (w_sections w) secs) as HF by (by eapply add_symbol_inner_grown).
  destruct (st_get _ name) as [e|].
  - apply bind_Ok in H2 as (s & _ & [= <- <-]). by eapply winv_grow.
  - injection H2 as <- <-. by eapply winv_grow.
Qed.
Lemma winv_reloc n0 w0 w rel r sr w' : winv n0 w0 w -> add_relocation w rel r sr = Ok w' -> winv n0 w0 w'.
Proof.
  intros HI H. unfold add_relocation in H. destruct (_ || _); [done|].
  apply bind_Ok in H as (secs & H & [= <-]). apply mod_chunk_Ok in H as (s & c & _ & _ & ->).
  eapply winv_grow; [done|done|done|]. simpl. apply upd_grown. intros s1. apply alter_grown. done.
Qed.
Lemma winv_needed n0 w0 w so : winv n0 w0 w -> winv n0 w0 (add_needed w so).
Proof.
  intros HI. unfold add_needed. destruct (st_get_or_create (w_dynstr w) so) as [names e].
  destruct (en_new e); (eapply winv_grow; [done|done|done|apply Forall2_grown_refl]).
Qed.

Lemma goc_cases t n t' e : st_get_or_create t n = (t', e) ->
  (en_new e = false /\ t' = t /\ assoc n (stt_names t) = Some (en_index e, en_offset e)) \/
  (en_new e = true /\ t' = intern t n /\ stt_names t' = stt_names t ++ [(n, (blen (stt_names t), en_offset e))] /\
   en_index e = blen (stt_names t) /\ en_offset e = stt_total_len t).
Proof.
  unfold intern, st_get_or_create. destruct (assoc n (stt_names t)) as [[i o]|]; intros [= <- <-]; [by left|by right].
Qed.

Lemma winv_section n0 w0 w name sh data w' r : winv n0 w0 w -> sh_type sh ∉ SKIPPED_SECTIONS ->
  add_section w name sh data = Ok (w', r) -> winv n0 w0 w'.
Proof.
  intros HI Hty H. unfold add_section in H. destruct (st_get_or_create (w_shstrtab w) name) as [names e] eqn:E.
  apply goc_cases in E as [(En & -> & Ea)|(En & Ei & Enames & Eidx & Eoff)]; rewrite En in H.
  - apply bind_Ok in H as (s & Hs & H). apply index_Ok in Hs. simpl in Hs.
    set (i := N.to_nat (en_index e)) in *.
    set (s1 := s <| sc_sh := _ |>) in H.
    assert (Hg : forall cs, chunks_grow (sc_chunks s) cs -> Forall2 grown (w_sections w) (<[i := s1 <| sc_chunks := cs |>]> (w_sections w))).
    { intros cs Hcs. apply Forall2_same_length_lookup_2; [by rewrite insert_length|].
      intros j a b Ha Hb. destruct (decide (j = i)) as [->|Hne].
      - rewrite list_lookup_insert in Hb by (by eapply lookup_lt_Some). injection Hb as <-. rewrite Hs in Ha. injection Ha as <-.
        split; [done|]. split; [unfold align; simpl; lia|done].
      - rewrite list_lookup_insert_ne in Hb by done. rewrite Ha in Hb. injection Hb as <-. apply grown_refl. }
    destruct data as [d|].
    + injection H as <- <-. eapply winv_grow; [done|done|done|]. simpl.
      apply (Hg (sc_chunks s ++ [chunk_new d])). intros j c Hj. exists c. split; [|done]. by apply lookup_app_l_Some.
    + destruct (sc_chunks s1) eqn:Ec; [done|]. injection H as <- <-. eapply winv_grow; [done|done|done|]. simpl.
      replace s1 with (s1 <| sc_chunks := sc_chunks s |>) by done. apply Hg, chunks_grow_refl.
  - injection H as <- <-. destruct HI as [I1 I2 I3 I4 I5 I6 I7 I8 I9].
    set (s1 := section_new _ _ <| sc_chunks := _ |>).
    assert (Hlk : forall i s, (w_sections w ++ [s1]) !! i = Some s -> w_sections w !! i = Some s \/ (i = length (w_sections w) /\ s = s1)).
    { intros i s Hi. apply lookup_app_Some in Hi as [Hi|[Hge Hi]]; [by left|]. right.
      destruct (i - length (w_sections w))%nat as [|k] eqn:Ek; [|by destruct k]. injection Hi as <-. split; [lia|done]. }
    assert (Hn0 : (n0 <= length (w_sections w))%nat).
    { rewrite I1. destruct (decide (length (w_sections w0) <= length (w_sections w))%nat) as [|Hlt]; [done|].
      destruct (lookup_lt_is_Some_2 (w_sections w0) (length (w_sections w))) as [x Hx]; [lia|].
      destruct (I3 _ _ Hx) as (s & Hs & _). apply lookup_lt_Some in Hs. lia. }
    assert (Hbl : blen (stt_names (w_shstrtab w)) = N.of_nat (length (w_sections w))) by (unfold blen; by rewrite I8).
    split; simpl.
    + done.
    + done.
    + intros i s0 Hi. destruct (I3 i s0 Hi) as (s & Hs & Hg). exists s. split; [by apply lookup_app_l_Some|done].
    + intros i s Hi. apply Hlk in Hi as [Hi|[-> ->]]; [by apply I4|done].
    + intros i s Hn Hi. apply Hlk in Hi as [Hi|[-> ->]]; [by eapply I5|]. done.
    + rewrite Ei. by constructor.
    + destruct I7 as [tl Htl]. rewrite Enames, Htl. eexists. by rewrite <- app_assoc.
    + rewrite Enames, !app_length. simpl. by rewrite I8.
    + intros i s Hn Hi. rewrite Enames. apply Hlk in Hi as [Hi|[-> ->]].
      * destruct (I9 i s Hn Hi) as (n & o & H1 & H2). exists n, o. split; [by apply lookup_app_l_Some|done].
      * exists name, (en_offset e). split; [|done]. rewrite lookup_app_r by lia. rewrite <- I8, Nat.sub_diag. simpl. rewrite Hbl, I8. done.
Qed.

(** The new writer. *)
Definition with_loader (loader : bytes) (s : section) : section :=
  if (sc_id s =? id_interp)%nat
  then s <| sc_sh := sc_sh s <| sh_size := blen loader |> |> <| sc_chunks := [chunk_new loader] |> else s.
Lemma writer_new_sections opts w : writer_new opts = Ok w ->
  w_sections w = with_loader (string_bytes (opt_dynamic_linker opts) ++ [0]) <$> ref_sections (opt_hash_style opts).
Proof.
  unfold writer_new. intros H. apply bind_Ok in H as (n & _ & H).
  pose proof (goc_section_strtab st_default n) as Hs.
  destruct (st_get_or_create st_default n) as [dn ie]. simpl in Hs.
  unfold fill_strtab in H. rewrite Hs in H. clear Hs.
  revert H. generalize (string_bytes (opt_dynamic_linker opts) ++ [0]). intros loader H.
  revert H. generalize (opt_hash_style opts). intros style H. clear opts n.
  destruct style; vm_compute in H; injection H as <-; vm_compute; reflexivity.
Qed.
Lemma writer_new_0 opts w : writer_new opts = Ok w -> exists s, w_sections w !! 0%nat = Some s /\ sc_chunks s = [] /\ memsz s = 0.
Proof.
  intros H. rewrite (writer_new_sections _ _ H), list_lookup_fmap. clear H.
  generalize (string_bytes (opt_dynamic_linker opts) ++ [0]). intros loader.
  assert (Hr : forall st, exists s, ref_sections st !! 0%nat = Some s /\ sc_id s = 0%nat /\ sc_chunks s = [] /\ memsz s = 0).
  { intros []; exists (section_new 0 shdr0); vm_compute; done. }
  destruct (Hr (opt_hash_style opts)) as (s & Hs & Hid & Hc & Hm). rewrite Hs. clear Hs Hr. exists s. cbn [fmap option_fmap option_map].
  assert (with_loader loader s = s) as -> by (unfold with_loader; rewrite Hid; reflexivity). split; [reflexivity|]. split; [exact Hc|exact Hm].
Qed.
(** Its name table is built by interning. *)
Lemma writer_new_reach opts w : writer_new opts = Ok w -> st_reach (w_shstrtab w).
Proof.
  assert (Hg : forall t n t' e, st_reach t -> st_get_or_create t n = (t', e) -> st_reach t').
  { intros t n t' e Ht E. replace t' with (intern t n) by (unfold intern; by rewrite E). by apply reach_intern. }
  unfold writer_new. pose proof (reach_with_name ".shstrtab") as H0. generalize dependent (st_with_name ".shstrtab"). intros t0 H0 H.
  repeat match type of H with
  | context [let '(_, _) := st_get_or_create ?t ?n in _] =>
    lazymatch n with ".hash" => fail | _ => idtac end;
    lazymatch goal with
    | Ht : st_reach t |- _ =>
      let t1 := fresh "t" in let e1 := fresh "e" in let E := fresh "E" in
      destruct (st_get_or_create t n) as [t1 e1] eqn:E; apply (Hg _ _ _ _ Ht) in E; clear Ht
    end
  end.
  apply bind_Ok in H as (n & _ & H). destruct (st_get_or_create st_default n) as [dn ie].
  repeat match type of H with
  | context [let '(_, _) := st_get_or_create ?t ?n in _] =>
    lazymatch n with ".hash" => fail | _ => idtac end;
    lazymatch goal with
    | Ht : st_reach t |- _ =>
      let t1 := fresh "t" in let e1 := fresh "e" in let E := fresh "E" in
      destruct (st_get_or_create t n) as [t1 e1] eqn:E; apply (Hg _ _ _ _ Ht) in E; clear Ht
    end
  end.
  destruct (opt_hash_style opts); 
  (repeat match type of H with
   | context [wants_sysv ?x] => let b := eval vm_compute in (wants_sysv x) in change (wants_sysv x) with b in H
   | context [wants_gnu ?x] => let b := eval vm_compute in (wants_gnu x) in change (wants_gnu x) with b in H
   end); lazy beta iota zeta in H;
  (repeat match type of H with
  | context [st_get_or_create ?t ?n] =>
    lazymatch goal with
    | Ht : st_reach t |- _ =>
      let t1 := fresh "t" in let e1 := fresh "e" in let E := fresh "E" in
      destruct (st_get_or_create t n) as [t1 e1] eqn:E; apply (Hg _ _ _ _ Ht) in E; clear Ht; lazy beta iota zeta in H
    end
  end).
  all: injection H as <-; assumption.
Qed.
Lemma ref_ids st : imap (fun i _ => i) (ref_sections st) = sc_id <$> ref_sections st.
Proof. destruct st; by vm_compute. Qed.
Lemma ref_lens st : length (stt_names (ref_names st)) = length (ref_sections st).
Proof. destruct st; by vm_compute. Qed.
Global Opaque writer_new.
Lemma winv_0 opts w0 : writer_new opts = Ok w0 -> winv (length (w_sections w0)) w0 w0.
Proof.
  intros Hw0.
    destruct (writer_new_ref _ _ Hw0) as (Hsig & _ & Hnm & _).
    pose proof ref_ids as Hid. pose proof ref_lens as Hln.
    assert (Hlen : length (w_sections w0) = length (ref_sections (opt_hash_style opts))).
    { apply (f_equal length) in Hsig. by rewrite !fmap_length in Hsig. }
  split.
    + reflexivity.
    + reflexivity.
    + intros i s0 Hi. exists s0. split; [done|apply grown_refl].
    + intros i s Hi. specialize (Hid (opt_hash_style opts)).
      revert Hsig Hid Hlen. generalize (ref_sections (opt_hash_style opts)). intros rs Hsig Hid Hlen.
      destruct (lookup_lt_is_Some_2 rs i) as [s1 E1]; [rewrite <- Hlen; by eapply lookup_lt_Some|].
      assert (E : sec_sig s = sec_sig s1).
      { apply (f_equal (fun l => l !! i)) in Hsig. rewrite !list_lookup_fmap, Hi, E1 in Hsig. apply (inj Some) in Hsig. exact Hsig. }
      apply (f_equal (fun l => l !! i)) in Hid. rewrite list_lookup_imap, list_lookup_fmap, E1 in Hid.
      injection Hid as Hid. apply sec_sig_id in E. congruence.
    + intros i s Hn Hi. apply lookup_lt_Some in Hi. lia.
    + by eapply writer_new_reach.
    + exists []. by rewrite app_nil_r.
    + rewrite Hnm, Hln. done.
    + intros i s Hn Hi. apply lookup_lt_Some in Hi. lia.
Qed.

Lemma resolve_winv wd lo l fuel w : resolve wd lo l fuel = Ok w ->
  exists w0, writer_new (lk_options l) = Ok w0 /\ winv (length (w_sections w0)) w0 w.
Proof.
  intros H. pose proof H as Hr. unfold resolve in Hr. apply bind_Ok in Hr as (w0 & Hw0 & _).
  exists w0. split; [done|]. revert H. apply resolve_inv.
  - intros w1 e name sh data w2 r HI (_ & _ & Hty & _) _ Ha. by eapply winv_section.
  - intros; by eapply winv_symbol.
  - intros; by eapply winv_reloc.
  - intros; apply winv_needed. by eapply winv_dyn.
  - intros w1 Hw1. assert (w1 = w0) as -> by congruence. by apply winv_0 with (lk_options l).
Qed.
