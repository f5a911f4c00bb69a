(** Names of output sections, and the dynamic section. *)
From Verif Require Export ProofNeeded.

(** * Names *)
Definition own_names (st : hash_style) : list string :=
  [""; ".shstrtab"; ".strtab"; ".dynstr"; ".interp"; ".got"; ".got.plt"; ".plt"; ".symtab"; ".dynsym"; ".dynamic"; ".rela.dyn"; ".rela.plt"; ".copyrel"] ++
  match st with HSysv => [".hash"] | HGnu => [".gnu.hash"] | HBoth => [".hash"; ".gnu.hash"] end.
Lemma ref_own_names st : (fun s => st_name_at (ref_names st) (sh_name (sc_sh s))) <$> ref_sections st = Some <$> own_names st.
Proof. destruct st; vm_compute; reflexivity. Qed.
Lemma entry_name t i n k o : st_reach t -> stt_total_len t < 2^32 -> stt_names t !! i = Some (n, (k, o)) -> st_name_at t (u32 o) = Some n.
Proof.
  intros HR Ht Hn. pose proof (st_reach_ok _ HR) as Hok.
  assert (Hu : u32 o = o).
  { unfold u32. apply N.mod_small. destruct (ok_entry _ Hok _ _ _ _ Hn) as [_ Ho].
    pose proof (ok_total _ Hok) as Htot. rewrite <- (take_drop i (stt_names t)), emit_app, blen_app in Htot. change (2^32) with 4294967296 in *. lia. }
  rewrite Hu. apply (ProofStr.reverse_lookup _ _ _ _ HR (Permutation_refl _)). exists (mkStrEntry k o false). split; [|reflexivity].
  unfold st_get. assert (Ha : ModelTables.assoc n (stt_names t) = Some (k, o)) by (apply assoc_elem_Some; [apply Hok|by eapply elem_of_list_lookup_2]).
  rewrite Ha. reflexivity.
Qed.

(** * Entries of one section *)
Lemma alloc_land s : N.land (sh_flags (sc_sh s)) SHF_ALLOC = SHF_ALLOC <-> alloc s = true.
Proof.
  unfold alloc, flags, SHF_ALLOC. generalize (sh_flags (sc_sh s)). intros n. split; intros H.
  - assert (H2 : N.testbit (N.land n 2) 1 = N.testbit 2 1) by (rewrite H; reflexivity). rewrite N.land_spec, andb_true_r in H2. exact H2.
  - apply N.bits_inj. intros m. rewrite N.land_spec. change 2 with (2^1). rewrite N.pow2_bits_eqb. destruct (N.eqb_spec 1 m) as [<-|]; [by rewrite H|apply andb_false_r].
Qed.
Lemma entries_sound w a es e : section_dyn_entries (w_shstrtab w) (sc_sh a) = Ok es ->
  (sec_name w a = Some ".rela.dyn" \/ sh_type (sc_sh a) = 11 -> sh_entsize (sc_sh a) = 24) -> e ∈ es -> states w a e.
Proof.
  unfold section_dyn_entries. intros H Hes He. apply bind_Ok in H as (n & Hn & [= <-]). apply unwrap_Ok in Hn.
  assert (Hn' : sec_name w a = Some n) by exact Hn. clear Hn.
  repeat case_bool_decide; cbv zeta in He.
  1-5: subst n; repeat (apply elem_of_cons in He as [->|He]); [..|by apply elem_of_nil in He]; cbn; try (split; [exact Hn'|reflexivity]).
  - split; [exact Hn'|]. apply Hes. by left.
  - destruct (N.eqb_spec (sh_type (sc_sh a)) SHT_DYNSYM) as [E|_].
    { repeat (apply elem_of_cons in He as [->|He]); [..|by apply elem_of_nil in He]; cbn; (split; [exact E|]); [reflexivity|]. apply Hes. by right. }
    destruct (N.eqb_spec (sh_type (sc_sh a)) SHT_STRTAB) as [E|_]; [destruct (N.eqb_spec (N.land (sh_flags (sc_sh a)) SHF_ALLOC) SHF_ALLOC) as [E2|_]|]; cbn [andb] in He.
    { assert (Ha : alloc a = true) by (apply alloc_land; exact E2).
      repeat (apply elem_of_cons in He as [->|He]); [..|by apply elem_of_nil in He]; cbn; (split; [exact E|]); (split; [exact Ha|]); reflexivity. }
    all: destruct (N.eqb_spec (sh_type (sc_sh a)) SHT_INIT_ARRAY) as [E1|_];
      [repeat (apply elem_of_cons in He as [->|He]); [..|by apply elem_of_nil in He]; cbn; (split; [exact E1|]); reflexivity|].
    all: destruct (N.eqb_spec (sh_type (sc_sh a)) SHT_FINI_ARRAY) as [E2|_];
      [repeat (apply elem_of_cons in He as [->|He]); [..|by apply elem_of_nil in He]; cbn; (split; [exact E2|]); reflexivity|].
    all: destruct (N.eqb_spec (sh_type (sc_sh a)) SHT_HASH) as [E3|_];
      [repeat (apply elem_of_cons in He as [->|He]); [..|by apply elem_of_nil in He]; cbn; (split; [exact E3|]); reflexivity|].
    all: destruct (N.eqb_spec (sh_type (sc_sh a)) SHT_GNU_HASH) as [E4|_];
      [repeat (apply elem_of_cons in He as [->|He]); [..|by apply elem_of_nil in He]; cbn; (split; [exact E4|]); reflexivity|by apply elem_of_nil in He].
Qed.

(** The tags alone. *)
Definition tags_of (n : string) (ty : N) (al : bool) : list N :=
  if bool_decide (n = ".init") then [12] else if bool_decide (n = ".fini") then [13]
  else if bool_decide (n = ".rela.dyn") then [7; 9; 8; 0x6ffffff9]
  else if bool_decide (n = ".rela.plt") then [23; 20; 2]
  else if bool_decide (n = ".got.plt") then [3]
  else if ty =? 11 then [6; 11] else if (ty =? 3) && al then [5; 10]
  else if ty =? 14 then [25; 27] else if ty =? 15 then [26; 28] else if ty =? 5 then [4] else if ty =? 0x6ffffff6 then [0x6ffffef5] else [].
Lemma entries_tags w a es n : section_dyn_entries (w_shstrtab w) (sc_sh a) = Ok es -> sec_name w a = Some n ->
  es.*1 = tags_of n (sh_type (sc_sh a)) (alloc a).
Proof.
  unfold section_dyn_entries. intros H Hn. apply bind_Ok in H as (n' & Hn' & [= <-]). apply unwrap_Ok in Hn'.
  assert (n' = n) as -> by (unfold sec_name in Hn; congruence). unfold tags_of.
  do 5 (destruct (bool_decide _); [reflexivity|]). cbv zeta. unfold SHT_DYNSYM, SHT_STRTAB, SHT_INIT_ARRAY, SHT_FINI_ARRAY, SHT_HASH, SHT_GNU_HASH.
  destruct (sh_type (sc_sh a) =? 11); [reflexivity|]. assert (Ha : (N.land (sh_flags (sc_sh a)) SHF_ALLOC =? SHF_ALLOC) = alloc a).
  { destruct (alloc a) eqn:E; [apply N.eqb_eq; by apply alloc_land|]. apply N.eqb_neq. intros E'. apply alloc_land in E'. congruence. }
  rewrite Ha. clear Ha. destruct (_ && _); [reflexivity|]. do 3 (destruct (_ =? _); [reflexivity|]). destruct (_ =? _); reflexivity.
Qed.
Lemma entries_complete w a es e : section_dyn_entries (w_shstrtab w) (sc_sh a) = Ok es ->
  (sec_name w a = Some ".rela.dyn" \/ sh_type (sc_sh a) = 11 -> sh_entsize (sc_sh a) = 24) -> states w a e ->
  (forall n, sec_name w a = Some n -> e.1 ∈ tags_of n (sh_type (sc_sh a)) (alloc a)) -> e ∈ es.
Proof.
  intros H Hes Hst Ht. pose proof H as H'. unfold section_dyn_entries in H'. apply bind_Ok in H' as (n & Hn & _). apply unwrap_Ok in Hn.
  assert (Hn' : sec_name w a = Some n) by exact Hn. specialize (Ht n Hn'). rewrite <- (entries_tags _ _ _ _ H Hn') in Ht.
  apply elem_of_list_fmap in Ht as (e' & E & He'). pose proof (entries_sound _ _ _ _ H Hes He') as Hst'.
  assert (e = e') as -> by (clear -E Hst Hst'; destruct e as [t v], e' as [t' v']; cbn in E; subst t'; f_equal;
    unfold states in *; cbn [fst snd] in *; repeat (case_match; try contradiction); intuition congruence). exact He'.
Qed.

(** The linker's own sections: name, type, allocated, entry size. *)
Definition own_rows (hs : hash_style) : list (string * N * bool * N) :=
  [("", 0, false, 0); (".shstrtab", 3, false, 0); (".strtab", 3, false, 0); (".dynstr", 3, true, 0); (".interp", 1, true, 0); (".got", 1, true, 0); (".got.plt", 1, true, 0);
   (".plt", 1, true, 0); (".symtab", 2, false, 24); (".dynsym", 11, true, 24); (".dynamic", 6, true, 16); (".rela.dyn", 4, true, 24); (".rela.plt", 4, true, 24); (".copyrel", 8, true, 0)] ++
  let h := (".hash", 5, true, 4) in let g := (".gnu.hash", 0x6ffffff6, true, 4) in
  match hs with HSysv => [h] | HGnu => [g] | HBoth => [h; g] end.
Definition ref_full (hs : hash_style) (s : section) : option (string * N * bool * N) :=
  n ← st_name_at (ref_names hs) (sh_name (sc_sh s)); Some (n, sh_type (sc_sh s), alloc s, sh_entsize (sc_sh s)).
Lemma ref_fulls hs : ref_full hs <$> ref_sections hs = Some <$> own_rows hs.
Proof. destruct hs; vm_compute; reflexivity. Qed.

(** .copyrel is the only section sized at the very end. *)
Definition ref_copy_b (hs : hash_style) : bool :=
  forallb (fun s => implb (bool_decide (sc_synth s = Some KCopyRel)) (bool_decide (ref_full hs s = Some (".copyrel", 8, true, 0)))) (ref_sections hs).
Lemma ref_copy hs i s : ref_sections hs !! i = Some s -> sc_synth s = Some KCopyRel -> ref_full hs s = Some (".copyrel", 8, true, 0).
Proof.
  intros Hi H. assert (HB : ref_copy_b hs = true) by (destruct hs; vm_compute; reflexivity). unfold ref_copy_b in HB. rewrite forallb_forall in HB.
  apply elem_of_list_lookup_2, elem_of_list_In, HB in Hi. rewrite bool_decide_eq_true_2 in Hi by exact H. apply bool_decide_eq_true_1 in Hi. exact Hi.
Qed.

Definition own_ent_b (hs : hash_style) : bool :=
  forallb (fun r : string * N * bool * N => implb (bool_decide (r.1.1.1 = ".rela.dyn") || (r.1.1.2 =? 11)) (r.2 =? 24)) (own_rows hs).
Lemma own_ent hs i n ty al e : own_rows hs !! i = Some (n, ty, al, e) -> n = ".rela.dyn" \/ ty = 11 -> e = 24.
Proof.
  intros Hi H. assert (HB : own_ent_b hs = true) by (destruct hs; vm_compute; reflexivity). unfold own_ent_b in HB. rewrite forallb_forall in HB.
  specialize (HB (n, ty, al, e)). cbn [fst snd] in HB. rewrite <- N.eqb_eq. apply elem_of_list_lookup_2, elem_of_list_In in Hi. apply HB in Hi.
  destruct H as [-> | ->]; [|rewrite N.eqb_refl, orb_true_r in Hi; exact Hi]. rewrite bool_decide_eq_true_2 in Hi by reflexivity. exact Hi.
Qed.
(** Tags that describe one section of the linker's own. *)
Definition owners : list (N * nat) :=
  [(5, 3%nat); (10, 3%nat); (6, 9%nat); (11, 9%nat); (7, 11%nat); (9, 11%nat); (8, 11%nat); (0x6ffffff9, 11%nat);
   (23, 12%nat); (20, 12%nat); (2, 12%nat); (3, 6%nat)].
Definition tag_count (t : N) (k : list N) : nat := length (filter (fun x => x = t) k).
Definition own_count_b (hs : hash_style) : bool :=
  forallb (fun x : nat * (string * N * bool * N) => forallb (fun o : N * nat =>
    Nat.eqb (tag_count o.1 (tags_of x.2.1.1.1 x.2.1.1.2 x.2.1.2)) (if decide (x.1 = o.2) then 1 else 0)) owners) (imap pair (own_rows hs)).
Lemma own_count hs i n ty al e t k : own_rows hs !! i = Some (n, ty, al, e) -> (t, k) ∈ owners ->
  tag_count t (tags_of n ty al) = if decide (i = k) then 1%nat else 0%nat.
Proof.
  intros Hi H. assert (HB : own_count_b hs = true) by (destruct hs; vm_compute; reflexivity). unfold own_count_b in HB. rewrite forallb_forall in HB.
  assert (Hin : (i, (n, ty, al, e)) ∈ imap pair (own_rows hs)) by (apply elem_of_lookup_imap; eauto). apply elem_of_list_In, HB in Hin.
  rewrite forallb_forall in Hin. apply elem_of_list_In, Hin in H. apply Nat.eqb_eq in H. exact H.
Qed.
Lemma owners_none L t k : forallb (fun o : N * nat => Nat.eqb (tag_count o.1 L) 0) owners = true -> (t, k) ∈ owners -> tag_count t L = 0%nat.
Proof. intros HB Ho. rewrite forallb_forall in HB. apply elem_of_list_In, HB, Nat.eqb_eq in Ho. exact Ho. Qed.
Lemma user_count n ty al t k : n ∉ reserved -> ty ∉ [2; 11; 3; 4; 6; 9; 10] -> (t, k) ∈ owners -> tag_count t (tags_of n ty al) = 0%nat.
Proof.
  intros Hn Hty Ho.
  assert (N1 : n <> ".rela.dyn") by (intros ->; apply Hn, (bool_decide_unpack _); vm_compute; exact I).
  assert (N2 : n <> ".rela.plt") by (intros ->; apply Hn, (bool_decide_unpack _); vm_compute; exact I).
  assert (N3 : n <> ".got.plt") by (intros ->; apply Hn, (bool_decide_unpack _); vm_compute; exact I).
  assert (T1 : ty <> 11) by (intros ->; apply Hty, (bool_decide_unpack _); vm_compute; exact I).
  assert (T2 : ty <> 3) by (intros ->; apply Hty, (bool_decide_unpack _); vm_compute; exact I).
  clear Hn Hty. apply N.eqb_neq in T1, T2. eapply owners_none; [|exact Ho]. clear Ho t k. unfold tags_of.
  repeat case_bool_decide; try contradiction; try (vm_compute; reflexivity). rewrite T1, T2. cbn [andb].
  repeat (match goal with |- context [ty =? ?c] => destruct (ty =? c) end; [vm_compute; reflexivity|]). destruct al; vm_compute; reflexivity.
Qed.
Lemma concat_count t k (ids : list nat) (ess : list (list (N * N))) : NoDup ids ->
  Forall2 (fun i es => tag_count t es.*1 = if decide (i = k) then 1%nat else 0%nat) ids ess ->
  tag_count t (concat ess).*1 = if decide (k ∈ ids) then 1%nat else 0%nat.
Proof.
  intros HN HF. induction HF as [|i es ids ess Hi HF IH]; [reflexivity|]. apply NoDup_cons in HN as [H1 H2]. specialize (IH H2).
  change (concat (es :: ess)) with (es ++ concat ess). rewrite fmap_app. unfold tag_count in *. rewrite filter_app, app_length, Hi, IH.
  destruct (decide (i = k)) as [->|Hne].
  - rewrite (decide_False (P := k ∈ ids)) by done. rewrite decide_True by left. reflexivity.
  - destruct (decide (k ∈ ids)) as [Hk|Hk].
    + rewrite decide_True by (by right). reflexivity.
    + rewrite decide_False by (rewrite elem_of_cons; intros [?|?]; congruence). reflexivity.
Qed.

(** Type 6 is .dynamic's alone, and the names that decide entries have fixed types. *)
Definition own_types_b (hs : hash_style) : bool :=
  forallb (fun x : nat * (string * N * bool * N) => implb (x.2.1.1.2 =? 6) (Nat.eqb x.1 10) &&
    implb (bool_decide (x.2.1.1.1 ∈ [".rela.dyn"; ".rela.plt"; ".got.plt"])) ((x.2.1.1.2 =? 1) || (x.2.1.1.2 =? 4)) &&
    bool_decide (x.2.1.1.1 ∉ [".init"; ".fini"])) (imap pair (own_rows hs)).
Lemma own_types hs i n ty al e : own_rows hs !! i = Some (n, ty, al, e) ->
  (ty = 6 -> i = 10%nat) /\ (n ∈ [".rela.dyn"; ".rela.plt"; ".got.plt"] -> ty = 1 \/ ty = 4) /\ n ∉ [".init"; ".fini"].
Proof.
  intros Hi. assert (HB : own_types_b hs = true) by (destruct hs; vm_compute; reflexivity). unfold own_types_b in HB. rewrite forallb_forall in HB.
  assert (Hin : (i, (n, ty, al, e)) ∈ imap pair (own_rows hs)) by (apply elem_of_lookup_imap; eauto). apply elem_of_list_In, HB in Hin. cbn [fst snd] in Hin.
  rewrite !andb_true_iff in Hin. destruct Hin as [[H1 H2] H3]. split; [intros ->; apply Nat.eqb_eq; exact H1|]. split; [|apply bool_decide_eq_true_1 in H3; exact H3].
  intros Hn. rewrite bool_decide_eq_true_2 in H2 by exact Hn. cbn [implb] in H2. apply orb_true_iff in H2 as [H2|H2]; apply N.eqb_eq in H2; tauto.
Qed.
Lemma tags_plain n ty al : n ∉ [".init"; ".fini"; ".rela.dyn"; ".rela.plt"; ".got.plt"] -> tags_of n ty al =
  if ty =? 11 then [6; 11] else if (ty =? 3) && al then [5; 10]
  else if ty =? 14 then [25; 27] else if ty =? 15 then [26; 28] else if ty =? 5 then [4] else if ty =? 0x6ffffff6 then [0x6ffffef5] else [].
Proof.
  intros Hn. rewrite !not_elem_of_cons in Hn. destruct Hn as (H1 & H2 & H3 & H4 & H5 & _). unfold tags_of. rewrite !bool_decide_eq_false_2 by assumption. reflexivity.
Qed.
Lemma states_tag w a n e : sec_name w a = Some n -> states w a e ->
  (n ∈ [".rela.dyn"; ".rela.plt"; ".got.plt"] -> sh_type (sc_sh a) = 1 \/ sh_type (sc_sh a) = 4) ->
  (n ∈ [".init"; ".fini"] -> e.1 ∈ [12; 13]) -> e.1 ∈ tags_of n (sh_type (sc_sh a)) (alloc a).
Proof.
  intros Hn Hs Hty Hif. assert (Hpl : e.1 ∉ [12; 13] -> sh_type (sc_sh a) ∉ [1; 4] -> n ∉ [".init"; ".fini"; ".rela.dyn"; ".rela.plt"; ".got.plt"]).
  { intros H1 H2 H3. change (n ∈ [".init"; ".fini"] ++ [".rela.dyn"; ".rela.plt"; ".got.plt"]) in H3. apply elem_of_app in H3 as [H3|H3]; [exact (H1 (Hif H3))|].
    apply H2. rewrite !elem_of_cons. destruct (Hty H3); tauto. }
  clear Hty Hif. revert Hs Hpl. unfold states. rewrite Hn. generalize (sh_type (sc_sh a)) (alloc a). intros ty al. destruct e as [t v]. cbn [fst snd].
  assert (HN : forall m (k : list N), Some n = Some m -> t ∈ tags_of m ty al -> t ∈ tags_of n ty al) by (intros m _ [= <-]; exact (fun x => x)).
  assert (HT : forall c (k : list N), ty = c -> c ∉ [1; 4] -> t ∉ [12; 13] -> (t ∉ [12; 13] -> ty ∉ [1; 4] -> n ∉ [".init"; ".fini"; ".rela.dyn"; ".rela.plt"; ".got.plt"]) ->
     t ∈ (if c =? 11 then [6; 11] else if (c =? 3) && al then [5; 10]
       else if c =? 14 then [25; 27] else if c =? 15 then [26; 28] else if c =? 5 then [4] else if c =? 0x6ffffff6 then [0x6ffffef5] else []) -> t ∈ tags_of n ty al).
  { intros c _ -> H1 H2 H3 H4. rewrite tags_plain by (apply H3; assumption). exact H4. }
  repeat (match goal with |- (match ?x with _ => _ end) -> _ => is_var x; destruct x end); intros Hs Hpl; try (exfalso; exact Hs).
  all: try (destruct Hs as [Hs _]; eapply (HN _ [] Hs); apply (bool_decide_unpack _); vm_compute; exact I).
  all: try (destruct Hs as [Hs _]; eapply (HT _ [] Hs); [apply (bool_decide_unpack _); vm_compute; exact I..|exact Hpl|apply (bool_decide_unpack _); vm_compute; exact I]).
  all: destruct Hs as [Hs [Ha _]]; rewrite Ha in *; eapply (HT _ [] Hs); [apply (bool_decide_unpack _); vm_compute; exact I..|exact Hpl|apply (bool_decide_unpack _); vm_compute; exact I].
Qed.

Lemma elem_of_concat {A} (x : A) (ls : list (list A)) : x ∈ concat ls <-> exists l, x ∈ l /\ l ∈ ls.
Proof.
  induction ls as [|l ls IH]; cbn [concat]; [split; [intros H; by apply elem_of_nil in H|intros (l & _ & H); by apply elem_of_nil in H]|].
  rewrite elem_of_app, IH. split.
  - intros [H|(l' & H & H')]; [exists l; split; [exact H|left]|exists l'; split; [exact H|right; exact H']].
  - intros (l' & H & H'). apply elem_of_cons in H' as [-> |H']; [left; exact H|right; eauto].
Qed.
Lemma Forall2_on {A B C} (R : A -> B -> Prop) (S : C -> B -> Prop) (g : A -> C) la lb : Forall2 R la lb -> (forall a b, a ∈ la -> R a b -> S (g a) b) -> Forall2 S (g <$> la) lb.
Proof.
  intros HF. induction HF as [|a b la lb HR HF IH]; intros H; [constructor|]. rewrite fmap_cons. constructor; [apply H; [left|exact HR]|].
  apply IH. intros a' b' Ha. apply H. right. exact Ha.
Qed.
Lemma filter_none {A} (Q : A -> Prop) `{!forall x, Decision (Q x)} (k : list A) : (forall x, x ∈ k -> ¬ Q x) -> filter Q k = [].
Proof.
  induction k as [|x k IH]; intros Hq; [reflexivity|]. rewrite filter_cons_False by (apply Hq; left). apply IH. intros y Hy. apply Hq. right. exact Hy.
Qed.
Lemma tag_count_fst t (es : list (N * N)) : tag_count t es.*1 = length (filter (fun e => e.1 = t) es).
Proof.
  unfold tag_count. induction es as [|[t' v] es IH]; [reflexivity|]. rewrite fmap_cons. cbn [fst]. rewrite !filter_cons. cbn [fst].
  destruct (decide (t' = t)); [cbn; f_equal; exact IH|exact IH].
Qed.
Lemma count_once t es : tag_count t es.*1 = 1%nat -> exists v, once es t v.
Proof.
  rewrite tag_count_fst. unfold once. destruct (filter _ es) as [|[t' v] [|? ?]] eqn:E; intros H; try discriminate H. exists v. f_equal. f_equal.
  assert (Hin : (t', v) ∈ filter (fun e => e.1 = t) es) by (rewrite E; left). apply elem_of_list_filter in Hin as [<- _]. reflexivity.
Qed.
Lemma once_elem es t v : once es t v -> (t, v) ∈ es.
Proof. unfold once. intros H. assert (Hin : (t, v) ∈ filter (fun e => e.1 = t) es) by (rewrite H; left). apply elem_of_list_filter in Hin as [_ Hin]. exact Hin. Qed.
Lemma rd_dynamic_ser es : Forall dyn_fits es -> rd_dynamic (ser_dyns es) = Some es.
Proof.
  intros HF. unfold rd_dynamic. assert (HL : length (ser_dyns es) = (16 * length es)%nat).
  { unfold ser_dyns. rewrite (bind_length ser_dyn es 16) by apply ser_dyn_length. lia. }
  rewrite HL, Nat.mul_comm, Nat.div_mul by lia. pose proof (rd_table_ser rd_dyn ser_dyn dyn_fits 16 rd_dyn_ser ser_dyn_length es [] [] HF) as H.
  rewrite app_nil_l, app_nil_r in H. exact H.
Qed.

Lemma file_name_nonempty p : file_name p <> Some "".
Proof.
  unfold file_name. destruct (last _) as [c|] eqn:E; [|discriminate]. destruct (decide (c = "..")); [discriminate|]. intros [= ->].
  apply last_Some in E as [k E]. assert (H : "" ∈ filter (fun c => c ≠ "" ∧ c ≠ ".") (path_components "" p)) by (rewrite E; apply elem_of_app; right; left).
  apply elem_of_list_filter in H as [[H _] _]. exact (H eq_refl).
Qed.
Lemma states_fit w s e : states w s e -> shdr_fits (sc_sh s) -> dyn_fits e.
Proof.
  intros Hs (_ & _ & _ & Ha & _ & Hm & _). unfold states in Hs. destruct e as [t v]. unfold dyn_fits. cbn [fst snd] in *. unfold addr, memsz in Hs.
  revert Hs. repeat (match goal with |- (match ?x with _ => _ end) -> _ => is_var x; destruct x end); intros Hs; try (exfalso; exact Hs).
  all: split; [apply N.ltb_lt; vm_compute; reflexivity|].
  all: repeat match goal with H : _ /\ _ |- _ => destruct H end; subst; try assumption; apply N.ltb_lt; vm_compute; reflexivity.
Qed.
Section dyn.
  Context {wd : world} {lo : lib_oracle} {l : linker} {fuel : nat} {w : writer} {secs : list section}
    {w0 wr ws w1 : writer} {extra : N} {null : section} {rest rest' : list section} {st : layout} {w3 w4 w5 w6 w7 : writer}
    {null' : section} {out : list section}.
  Context (O : outcome wd lo l fuel w secs w0 wr ws w1 extra null rest rest' st w3 w4 w5 w6 w7 null' out).
  Context (Fin : mapM_res (sec_finalize (lo_writer lo) w) (w_sections w) = Ok secs).
  Context (V : valid_oracle (lo_writer lo)) (P : plain_inputs wd l).
  Let o := lo_writer lo.
  Let n0 := length (w_sections w0).

  Lemma fixed_name s i sr : w_sections wr !! i = Some sr -> decl s = decl sr -> (i < n0)%nat -> sec_name w s = own_names (opt_hash_style (lk_options l)) !! i.
  Proof using O.
    intros Hi E Hlt. unfold sec_name. rewrite (names_w O). pose proof (oc_winv O) as HI.
    destruct (writer_new_ref _ _ (oc_new O)) as (Hsig & _ & Hnm & _). set (hs := opt_hash_style (lk_options l)) in *.
    apply lookup_lt_is_Some_2 in Hlt as [s0 E0]. destruct (wi_fixed _ _ _ HI _ _ E0) as (s1 & Es & G1 & _).
    assert (s1 = sr) as -> by congruence.
    assert (Hsr : (sec_sig <$> ref_sections hs) !! i = Some (sec_sig s0)) by (rewrite <- Hsig, list_lookup_fmap, E0; reflexivity).
    rewrite list_lookup_fmap in Hsr. destruct (ref_sections hs !! i) as [r|] eqn:Er; [|discriminate Hsr]. cbn in Hsr. apply (inj Some) in Hsr.
    assert (Hn : sh_name (sc_sh s) = sh_name (sc_sh r)) by (rewrite (decl_name _ _ E); unfold sec_sig in *; congruence).
    assert (Hat : st_name_at (w_shstrtab wr) (sh_name (sc_sh s)) = st_name_at (ref_names hs) (sh_name (sc_sh r))).
    { destruct (wi_prefix _ _ _ HI) as [tl Htl]. unfold st_name_at at 1. rewrite Htl, name_in_app, Hnm, Hn.
      fold (st_name_at (ref_names hs) (sh_name (sc_sh r))).
      pose proof (ref_names_known hs) as HK. rewrite List.Forall_forall in HK.
      destruct (HK r) as [n Hn']; [apply elem_of_list_In; eapply elem_of_list_lookup_2; exact Er|]. rewrite Hn'. reflexivity. }
    rewrite Hat. pose proof (f_equal (fun k => k !! i) (ref_own_names hs)) as HE. cbv beta in HE. rewrite !list_lookup_fmap, Er in HE. revert HE. generalize (own_names hs !! i). clear.
    intros [n|] HE; [|discriminate HE]. cbn [fmap option_fmap option_map] in HE. apply (inj Some) in HE. exact HE.
  Qed.
  Lemma user_name s i sr : stt_total_len (w_shstrtab w) < 2^32 -> w_sections wr !! i = Some sr -> decl s = decl sr -> (n0 <= i)%nat ->
    exists e name sh, input_section wd l e name sh /\ sec_name w s = Some name /\ sh_type sh = sh_type (sc_sh s) /\ sh_flags sh = flags s.
  Proof using O P.
    intros Ht Hi E Hge. pose proof (oc_winv O) as HI. destruct (user_start O P _ _ Hge Hi) as (_ & _ & _ & _ & HF).
    destruct HF as ((e & name & sh & of' & Hin & Hn & Hty & Hfl) & _). destruct (wi_names _ _ _ HI i sr Hge Hi) as (n & o' & Hn' & Hsn).
    rewrite Hn in Hn'. injection Hn' as <- <-. exists e, name, sh. split; [done|]. rewrite (decl_type _ _ E), (decl_flags _ _ E). split; [|done].
    unfold sec_name. rewrite (decl_name _ _ E), Hsn. rewrite (names_w O) in *. eapply entry_name; [exact (wi_st _ _ _ HI)|exact Ht|exact Hn].
  Qed.

  Lemma fixed_class s i sr : w_sections wr !! i = Some sr -> decl s = decl sr -> (i < n0)%nat -> sh_entsize (sc_sh s) = sh_entsize (sc_sh sr) ->
    exists n, sec_name w s = Some n /\ own_rows (opt_hash_style (lk_options l)) !! i = Some (n, sh_type (sc_sh s), alloc s, sh_entsize (sc_sh s)).
  Proof using O.
    intros Hi E Hlt Hes. pose proof (fixed_name s i sr Hi E Hlt) as Hn. pose proof (oc_winv O) as HI.
    destruct (writer_new_ref _ _ (oc_new O)) as (Hsig & _). set (hs := opt_hash_style (lk_options l)) in *.
    apply lookup_lt_is_Some_2 in Hlt as [s0 E0]. destruct (wi_fixed _ _ _ HI _ _ E0) as (s1 & Es & G1 & _).
    assert (s1 = sr) as -> by congruence.
    assert (Hsr : (sec_sig <$> ref_sections hs) !! i = Some (sec_sig s0)) by (rewrite <- Hsig, list_lookup_fmap, E0; reflexivity).
    rewrite list_lookup_fmap in Hsr. destruct (ref_sections hs !! i) as [r|] eqn:Er; [|discriminate Hsr]. cbn in Hsr. apply (inj Some) in Hsr.
    pose proof (f_equal (fun k => k !! i) (ref_fulls hs)) as HE. cbv beta in HE. rewrite !list_lookup_fmap, Er in HE.
    pose proof (f_equal (fun k => k !! i) (ref_own_names hs)) as HE2. cbv beta in HE2. rewrite !list_lookup_fmap, Er in HE2.
    rewrite <- G1 in Hsr. unfold sec_sig in Hsr. injection Hsr as _ _ _ _ _ Hty Hfl _ _ _ _ Hent. unfold ref_full in HE.
    revert HE HE2 Hn. generalize (own_names hs !! i) (own_rows hs !! i). intros nm row HE HE2 Hn. destruct nm as [n|]; [|discriminate HE2].
    cbn [fmap option_fmap option_map] in HE, HE2. apply (inj Some) in HE2. rewrite HE2 in HE. cbn [mbind option_bind] in HE. destruct row as [row|]; [|discriminate HE]. apply (inj Some) in HE.
    apply (inj Some) in HE. exists n. split; [exact Hn|]. rewrite <- HE. rewrite (decl_type _ _ E), (decl_alloc _ _ E), Hes.
    unfold alloc. change (flags r) with (sh_flags (sc_sh r)) in *. change (flags sr) with (sh_flags (sc_sh sr)) in *. congruence.
  Qed.
  Lemma copy_class i sr : w_sections wr !! i = Some sr -> sc_synth sr = Some KCopyRel -> sh_type (sc_sh sr) = 8 /\ sec_name w sr = Some ".copyrel".
  Proof using O.
    intros Hi Hsy. pose proof (oc_winv O) as HI. destruct (decide (i < n0)%nat) as [Hlt|Hge].
    - pose proof (fixed_name sr i sr Hi eq_refl Hlt) as Hn.
      destruct (writer_new_ref _ _ (oc_new O)) as (Hsig & _). set (hs := opt_hash_style (lk_options l)) in *.
      apply lookup_lt_is_Some_2 in Hlt as [s0 E0]. destruct (wi_fixed _ _ _ HI _ _ E0) as (s1 & Es & G1 & _). assert (s1 = sr) as -> by congruence.
      assert (Hsr : (sec_sig <$> ref_sections hs) !! i = Some (sec_sig s0)) by (rewrite <- Hsig, list_lookup_fmap, E0; reflexivity).
      rewrite list_lookup_fmap in Hsr. destruct (ref_sections hs !! i) as [r|] eqn:Er; [|discriminate Hsr]. cbn in Hsr. apply (inj Some) in Hsr.
      rewrite <- G1 in Hsr. unfold sec_sig in Hsr. injection Hsr as _ _ _ Hsyn _ Hty _ _ _ _ _ _. rewrite Hsy in Hsyn. pose proof (ref_copy _ _ _ Er Hsyn) as HC.
      pose proof (f_equal (fun k => k !! i) (ref_own_names hs)) as HE2. cbv beta in HE2. rewrite !list_lookup_fmap, Er in HE2.
      unfold ref_full in HC. revert HE2 Hn. generalize (own_names hs !! i). intros nm HE2 Hn. destruct nm as [n|]; [|discriminate HE2].
      cbn [fmap option_fmap option_map] in HE2. apply (inj Some) in HE2. rewrite HE2 in HC. cbn [mbind option_bind] in HC. injection HC as -> Ht _ _. split; [congruence|exact Hn].
    - destruct (wi_new _ _ _ HI i sr ltac:(lia) Hi) as [E _]. congruence.
  Qed.
  (** The classes of sections, as laid out. *)
  Definition sec_class (s : section) (n : string) : Prop :=
    sec_name w s = Some n /\
    ((exists e, own_rows (opt_hash_style (lk_options l)) !! sc_id s = Some (n, sh_type (sc_sh s), alloc s, e) /\ ((0 < sc_id s)%nat -> sh_entsize (sc_sh s) = e)) \/
     (n ∉ reserved /\ sh_type (sc_sh s) ∉ [2; 11; 3; 4; 6; 9; 10] /\ (n0 <= sc_id s)%nat)) /\
    (sc_synth s = Some KCopyRel -> sh_type (sc_sh s) = 8 /\ n = ".copyrel").
  Lemma hist_entsize i b a0 a1 a3 a6 a7 pd gd : hist o wr ws w1 extra rest' w4 pd gd w5 w6 w7 w i a0 a1 a3 a6 a7 b ->
    sh_entsize (sc_sh a3) = sh_entsize (sc_sh a0) /\ sh_entsize (sc_sh b) = sh_entsize (sc_sh a0).
  Proof using.
    intros H. destruct (h_scan H) as [Hk _].
    pose proof (sized_fn o ws (w_hash w1) (w_gnu_hash w1) (blen (w_dyn_rels w1)) (blen (w_plt_rels w1)) extra a1) as Hsz.
    destruct (h_placed H) as [Hp _].
    assert (E3 : sh_entsize (sc_sh a3) = sh_entsize (sc_sh a0)) by (rewrite Hp; unfold sized in Hsz; rewrite Hsz, Hk; reflexivity).
    split; [exact E3|]. rewrite <- E3. destruct (finalize_spec _ _ _ _ (h_fin H)) as (E & _). rewrite E.
    destruct (h_rel H) as [Kr _]. destruct (h_special H) as [Ks _].
    assert (T : forall s, sh_entsize (sc_sh (tables_fn w7 s)) = sh_entsize (sc_sh s)).
    { intros s. unfold tables_fn, on. repeat (destruct (Nat.eqb _ _)); reflexivity. }
    assert (Tp : sh_entsize (sc_sh (patched_plt w4 pd gd a3)) = sh_entsize (sc_sh a3)).
    { unfold patched_plt, on. destruct (w_got_plt w4); repeat (destruct (Nat.eqb _ _)); reflexivity. }
    cbn. rewrite T, Kr. cbn. rewrite Ks. cbn. exact Tp.
  Qed.
  Lemma wr_class s i sr : stt_total_len (w_shstrtab w) < 2^32 -> w_sections wr !! i = Some sr -> decl s = decl sr ->
    ((0 < i)%nat -> sh_entsize (sc_sh s) = sh_entsize (sc_sh sr)) -> exists n, sec_class s n.
  Proof using O P.
    intros Ht Hi E Hes. assert (Hid : sc_id s = i) by (rewrite (decl_id _ _ E); exact (wi_ids _ _ _ (oc_winv O) _ _ Hi)).
    assert (HC : forall n, sec_name w s = Some n -> sc_synth s = Some KCopyRel -> sh_type (sc_sh s) = 8 /\ n = ".copyrel").
    { intros n Hn Hs. rewrite (decl_synth _ _ E) in Hs. destruct (copy_class _ _ Hi Hs) as [C1 C2]. rewrite (decl_type _ _ E). split; [exact C1|].
      unfold sec_name in *. rewrite (decl_name _ _ E) in Hn. congruence. }
    destruct (decide (i < n0)%nat) as [Hlt|Hge].
    - destruct (fixed_class sr i sr Hi eq_refl Hlt eq_refl) as (n & Hn & Hrow). exists n. assert (Hn' : sec_name w s = Some n) by (unfold sec_name; rewrite (decl_name _ _ E); exact Hn).
      split; [exact Hn'|]. split; [|exact (HC _ Hn')].
      + left. exists (sh_entsize (sc_sh sr)). rewrite Hid, (decl_type _ _ E), (decl_alloc _ _ E). split; [exact Hrow|exact Hes].
    - destruct (user_name s i sr Ht Hi E ltac:(lia)) as (e & name & sh & Hin & Hn & Hty & Hfl). exists name. split; [exact Hn|]. split; [right|exact (HC _ Hn)].
      split; [exact (pi_names _ _ P _ _ _ Hin)|]. split; [rewrite <- Hty; apply Hin|lia].
  Qed.
  Lemma laid_class a : stt_total_len (w_shstrtab w) < 2^32 -> a ∈ null <| sc_index := 0 |> :: rest' -> exists n, sec_class a n.
  Proof using O P V Fin.
    intros Ht Ha. apply elem_of_cons in Ha as [->|Ha].
    - pose proof (rest_decls O) as HD. destruct (w_sections wr) as [|s0 k] eqn:Es; [discriminate HD|]. rewrite fmap_cons in HD. apply (inj2 cons) in HD as [HD _].
      apply (wr_class _ 0 s0 Ht); [rewrite Es; reflexivity|exact HD|lia].
    - apply elem_of_list_lookup in Ha as [i Hi]. destruct (history O Fin V) as (pd & gd & _ & Hh).
      destruct (Forall2_lookup_l _ _ _ _ _ (oc_out O) Hi) as (b & Hb & _). destruct (Hh _ _ Hb) as (a0 & a1 & a3 & a6 & a7 & H).
      pose proof (h_w3 H) as H3. rewrite Hi in H3. apply (inj Some) in H3. subst a3. destruct (hist_decl _ _ _ _ _ _ _ _ _ H) as (D0 & _ & D3).
      apply (wr_class a _ a0 Ht (h_wr H)); [congruence|]. intros _. exact (proj1 (hist_entsize _ _ _ _ _ _ _ _ _ H)).
  Qed.
  Lemma class_ent a n : sec_class a n -> sec_name w a = Some ".rela.dyn" \/ sh_type (sc_sh a) = 11 -> sh_entsize (sc_sh a) = 24.
  Proof using.
    intros [Hn [[(e & Hrow & He)|(Hn1 & Hty & _)] _]] Hc.
    - assert (He24 : e = 24). { eapply own_ent; [exact Hrow|]. destruct Hc as [Hc|Hc]; [left; congruence|right; exact Hc]. }
      rewrite <- He24. apply He. destruct (sc_id a) as [|j] eqn:Ej; [|apply Nat.lt_0_succ]. exfalso. cbn in Hrow. injection Hrow as E1 E2 _ _. destruct Hc as [Hc|Hc]; congruence.
    - exfalso. destruct Hc as [Hc|Hc]; [apply Hn1; rewrite Hn in Hc; injection Hc as ->; apply (bool_decide_unpack _); vm_compute; exact I|apply Hty; rewrite Hc; apply (bool_decide_unpack _); vm_compute; exact I].
  Qed.
  Lemma states_written a b e n : written w a b -> sec_class a n -> states w a e <-> states w b e.
  Proof using.
    intros Hw (Hn & _ & HC). destruct (decide (sc_synth a = Some KCopyRel)) as [E|E].
    - destruct (HC E) as [Ht ->]. assert (Hn' : sec_name w b = Some ".copyrel") by (unfold sec_name; rewrite (decl_name _ _ (proj1 Hw)); exact Hn).
      assert (Ht' : sh_type (sc_sh b) = 8) by (rewrite (decl_type _ _ (proj1 Hw)); exact Ht).
      unfold states. rewrite Hn, Hn', Ht, Ht'. destruct e as [t v]. cbn [fst snd]. repeat (match goal with |- context [match ?x with _ => _ end] => is_var x; destruct x end); split; intros H; try exact H; decompose [and] H; discriminate.
    - rewrite <- (written_synth _ _ _ Hw) in E. pose proof (written_memsz _ _ _ Hw E) as Hm.
      unfold states. unfold sec_name. rewrite (decl_name _ _ (proj1 Hw)), (decl_type _ _ (proj1 Hw)), (decl_alloc _ _ (proj1 Hw)), Hm. destruct Hw as (_ & _ & -> & _). reflexivity.
  Qed.
  Lemma all_written : Forall2 (written w) (null <| sc_index := 0 |> :: rest') secs.
  Proof using O. rewrite (oc_secs O). constructor; [exact (oc_null O)|exact (oc_out O)]. Qed.
  Lemma out_class b : stt_total_len (w_shstrtab w) < 2^32 -> b ∈ secs -> exists a n, a ∈ null <| sc_index := 0 |> :: rest' /\ written w a b /\ sec_class a n.
  Proof using O P V Fin.
    intros Ht Hb. apply elem_of_list_lookup in Hb as [i Hi]. destruct (Forall2_lookup_r _ _ _ _ _ all_written Hi) as (a & Ha & Hw). apply elem_of_list_lookup_2 in Ha.
    destruct (laid_class _ Ht Ha) as [n Hn]. eauto.
  Qed.
  Lemma laid_ids : NoDup (sc_id <$> (null <| sc_index := 0 |> :: rest')) /\ forall i, (i < n0)%nat -> i ∈ sc_id <$> (null <| sc_index := 0 |> :: rest').
  Proof using O V.
    assert (E : sc_id <$> (null <| sc_index := 0 |> :: rest') = sc_id <$> secs).
    { pose proof all_written as HF. clear -HF. induction HF as [|a b la lb Hw HF IH]; [reflexivity|]. rewrite !fmap_cons, IH. f_equal. symmetry. exact (decl_id _ _ (proj1 Hw)). }
    revert E. generalize (sc_id <$> (null <| sc_index := 0 |> :: rest')). intros ids ->. rewrite (oc_secs O), fmap_cons. destruct (null_facts O) as (-> & _). pose proof (wi_n0 _ _ _ (oc_winv O)) as Hn.
    assert (Hle : (n0 <= length (w_sections wr))%nat). { destruct n0 as [|k] eqn:En; [lia|]. assert (Hk : (k < length (w_sections w0))%nat) by lia. apply lookup_lt_is_Some_2 in Hk as [s0 Hs0].
      destruct (wi_fixed _ _ _ (oc_winv O) _ _ Hs0) as (s1 & Hs1 & _). apply lookup_lt_Some in Hs1. lia. }
    split.
    - apply NoDup_cons. split; [rewrite (ids_perm O V), elem_of_seq; lia|rewrite (ids_perm O V); apply NoDup_seq].
    - intros i Hi. apply elem_of_cons. destruct i as [|i]; [by left|]. right. rewrite (ids_perm O V). apply elem_of_seq. lia.
  Qed.
  Lemma dynamic_facts : stt_total_len (w_shstrtab w) < 2^32 -> exists facts, w_dyn_entries w = w_dyn_entries wr ++ facts ++ [(0, 0)] /\
    (forall e, e ∈ facts -> exists s, s ∈ secs /\ states w s e) /\
    (forall s e, s ∈ secs -> states w s e -> (forall n, sec_name w s = Some n -> n ∈ [".init"; ".fini"] -> e.1 ∈ [12; 13]) -> e ∈ facts) /\
    (forall t, t ∈ once_tags -> exists v, once facts t v).
  Proof using O P V Fin.
    intros Ht. destruct (dyn_count O V) as (new & Hd & HF & _). exists (concat new). split; [exact Hd|]. split; [|split].
    - intros e He. rewrite elem_of_concat in He. destruct He as (es & He & Hes). apply elem_of_list_lookup in Hes as [i Hi].
      destruct (Forall2_lookup_r _ _ _ _ _ HF Hi) as (a & Ha & Hse). pose proof (elem_of_list_lookup_2 _ _ _ Ha) as Hin. destruct (laid_class a Ht Hin) as [n Hn].
      pose proof (entries_sound _ _ _ _ Hse (class_ent a n Hn) He) as Hst. destruct (Forall2_lookup_l _ _ _ _ _ all_written Ha) as (b & Hb & Hw).
      exists b. split; [eapply elem_of_list_lookup_2; exact Hb|]. apply (states_written a b e n Hw Hn). exact Hst.
    - intros s e Hs Hst Hif. apply elem_of_list_lookup in Hs as [i Hi]. destruct (Forall2_lookup_r _ _ _ _ _ all_written Hi) as (a & Ha & Hw).
      destruct (laid_class a Ht (elem_of_list_lookup_2 _ _ _ Ha)) as [n Hn]. apply (states_written a s e n Hw Hn) in Hst.
      destruct (Forall2_lookup_l _ _ _ _ _ HF Ha) as (es & Hes & Hse). rewrite elem_of_concat. exists es. split; [|eapply elem_of_list_lookup_2; exact Hes].
      eapply entries_complete; [exact Hse|exact (class_ent a n Hn)|exact Hst|]. intros n' Hn'. assert (n' = n) as -> by (destruct Hn as [Hn _]; congruence).
      apply (states_tag w a n e Hn' Hst).
      + intros Hin. destruct Hn as (_ & [(e' & Hrow & _)|(Hnr & _)] & _); [exact (proj1 (proj2 (own_types _ _ _ _ _ _ Hrow)) Hin)|].
        exfalso. apply Hnr. clear -Hin. rewrite !elem_of_cons in Hin. destruct Hin as [->|[->|[->|Hin]]]; [apply (bool_decide_unpack _); vm_compute; exact I..|by apply elem_of_nil in Hin].
      + intros Hin. apply (Hif n); [|exact Hin]. unfold sec_name in *. rewrite (decl_name _ _ (proj1 Hw)). exact Hn'.
    - intros t Htag. apply count_once. assert (Hk : exists k, (t, k) ∈ owners).
      { clear -Htag. assert (HB : forallb (fun t => existsb (fun o => o.1 =? t) owners) once_tags = true) by (vm_compute; reflexivity). rewrite forallb_forall in HB. apply elem_of_list_In, HB in Htag.
        apply existsb_exists in Htag as ([t' k] & Hin & Heq). apply N.eqb_eq in Heq. cbn in Heq. subst t'. exists k. apply elem_of_list_In. exact Hin. }
      destruct Hk as [k Hk]. destruct laid_ids as [HN HI].
      rewrite (concat_count t k _ new HN).
      + assert (Hkl : (k < 14)%nat). { clear -Hk. assert (HB : forallb (fun o : N * nat => Nat.ltb o.2 14) owners = true) by (vm_compute; reflexivity). rewrite forallb_forall in HB. apply elem_of_list_In, HB in Hk. apply Nat.ltb_lt in Hk. exact Hk. }
        rewrite decide_True; [reflexivity|]. apply HI. pose proof (n0_ge O). unfold n0. lia.
      + eapply Forall2_on; [exact HF|]. intros a es Ha Hse. destruct (laid_class a Ht Ha) as [n Hn]. rewrite (entries_tags _ _ _ _ Hse (proj1 Hn)).
        destruct Hn as (_ & [(e' & Hrow & _)|(Hnr & Hty & Hge)] & _); [exact (own_count _ _ _ _ _ _ _ _ Hrow Hk)|]. rewrite (user_count _ _ _ _ _ Hnr Hty Hk).
        rewrite decide_False; [reflexivity|]. intros E. clear -Hk Hge E O. assert (HB : forallb (fun o : N * nat => Nat.ltb o.2 14) owners = true) by (vm_compute; reflexivity). rewrite forallb_forall in HB.
        apply elem_of_list_In, HB in Hk. apply Nat.ltb_lt in Hk. cbn in Hk. pose proof (n0_ge O). unfold n0 in Hge. lia.
  Qed.
  (** The linker's own sections in the output. *)
  Lemma own_sections : exists pd gd, plt_patch w4 pd gd /\ forall i, (0 < i < n0)%nat -> exists b, b ∈ out /\ sc_id b = i /\
    contents b = fixed_bytes (lo := lo) (l := l) (w := w) (ws := ws) (w1 := w1) pd gd i (sc_synth b) /\ blen (contents b) = filesz b.
  Proof using O P V Fin.
    destruct (history O Fin V) as (pd & gd & Hpp & Hh). exists pd, gd. split; [exact Hpp|]. intros i Hi. destruct laid_ids as [_ HI].
    specialize (HI i (proj2 Hi)). rewrite fmap_cons in HI. apply elem_of_cons in HI as [HI|HI].
    - exfalso. destruct (null_facts O) as (N0 & _). pose proof (decl_id _ _ (proj1 (oc_null O))) as E. cbn in HI, E. lia.
    - apply elem_of_list_fmap in HI as (a & -> & Ha). apply elem_of_list_lookup in Ha as [j Hj]. destruct (Forall2_lookup_l _ _ _ _ _ (oc_out O) Hj) as (b & Hb & Hw).
      pose proof (decl_id _ _ (proj1 Hw)) as E. destruct (Hh _ _ Hb) as (a0 & a1 & a3 & a6 & a7 & H). exists b. split; [eapply elem_of_list_lookup_2; exact Hb|]. split; [exact E|].
      assert (Hlt : (sc_id b < n0)%nat) by (rewrite E; apply Hi). rewrite <- E.
      split; [exact (own_contents O V P _ _ _ _ _ _ _ _ _ H Hpp Hlt)|]. apply (contents_size O Fin V P). eapply elem_of_list_lookup_2; exact Hb.
  Qed.
  Lemma secs_class b : stt_total_len (w_shstrtab w) < 2^32 -> b ∈ secs -> exists n, sec_name w b = Some n /\
    ((exists e, own_rows (opt_hash_style (lk_options l)) !! sc_id b = Some (n, sh_type (sc_sh b), alloc b, e)) \/
     (n ∉ reserved /\ sh_type (sc_sh b) ∉ [2; 11; 3; 4; 6; 9; 10] /\ (n0 <= sc_id b)%nat)).
  Proof using O P V Fin.
    intros Ht Hb. destruct (out_class b Ht Hb) as (a & n & _ & Hw & Hn & Hc & _). exists n. unfold sec_name in *.
    rewrite (decl_name _ _ (proj1 Hw)), (decl_id _ _ (proj1 Hw)), (decl_type _ _ (proj1 Hw)), (decl_alloc _ _ (proj1 Hw)). split; [exact Hn|].
    destruct Hc as [(e & Hc & _)|Hc]; [left; eauto|right; exact Hc].
  Qed.
  Lemma dynamic_one : stt_total_len (w_shstrtab w) < 2^32 -> exists d, d ∈ secs /\ sh_type (sc_sh d) = 6 /\ (forall d', d' ∈ secs -> sh_type (sc_sh d') = 6 -> d' = d) /\
    contents d = ser_dyns (w_dyn_entries w) /\ blen (contents d) = filesz d.
  Proof using O P V Fin.
    intros Ht. destruct own_sections as (pd & gd & _ & Hown). destruct (Hown 10%nat) as (d & Hd & Hid & Hc & Hb); [pose proof (n0_ge O); unfold n0; lia|].
    assert (Hds : d ∈ secs) by (rewrite (oc_secs O); right; exact Hd). exists d. split; [exact Hds|].
    split; [|split; [|split; [exact Hc|exact Hb]]].
    - destruct (secs_class d Ht Hds) as (n & _ & [(e & Hrow)|(_ & _ & Hge)]); rewrite Hid in *; [cbn in Hrow; injection Hrow; congruence|]. pose proof (n0_ge O). unfold n0 in Hge. lia.
    - intros d' Hd' H6. destruct (secs_class d' Ht Hd') as (n & _ & [(e & Hrow)|(_ & H & _)]); [|exfalso; apply H; rewrite H6; apply (bool_decide_unpack _); vm_compute; exact I].
      assert (E : sc_id d' = 10%nat) by (exact (proj1 (own_types _ _ _ _ _ _ Hrow) H6)).
      rewrite (oc_secs O) in Hd'. apply elem_of_cons in Hd' as [->|Hd']; [destruct (null_facts O) as (N0 & _); congruence|].
      apply elem_of_list_lookup in Hd, Hd'. destruct Hd as [i Hi], Hd' as [j Hj]. assert (i = j) by (eapply (out_nodup O V); [exact Hi|exact Hj|congruence]). congruence.
  Qed.
  Lemma needed_final : stt_total_len (w_shstrtab w) < 2^32 -> exists loader ns ds, file_name (opt_dynamic_linker (lk_options l)) = Some loader /\
    ds ∈ secs /\ sec_name w ds = Some ".dynstr" /\
    Forall2 (fun e n => e.1 = 1 /\ e.2 < memsz ds /\ (nonul n -> cstr_at (contents ds) e.2 = Some (string_bytes n))) (w_dyn_entries wr) ns /\
    NoDup ns /\ head ns = Some loader /\ (forall n, n ∈ ns -> n = loader \/ lib_name wd l n) /\
    (forall k s, syt_symbols (w_dynsym w) !! k = Some s -> k = 0 \/
       exists e so, is_lib wd l (s_reference s) e /\ file_name (s_reference s) = Some so /\ (so ∈ ns \/ lib_symbol wd l so)).
  Proof using O P V Fin.
    intros Ht. destruct (resolve_needs _ _ _ _ _ (oc_resolve O)) as (loader & ns & Hl & [N1 N2 N3 N4 N5 N6]).
    destruct own_sections as (pd & gd & _ & Hown). destruct (Hown 3%nat) as (d & Hd & Hid & Hc & Hb); [pose proof (n0_ge O); unfold n0; lia|]. cbn [fixed_bytes] in Hc.
    assert (Hds : d ∈ secs) by (rewrite (oc_secs O); right; exact Hd).
    assert (Hwn : sec_name w d = Some ".dynstr").
    { destruct (secs_class d Ht Hds) as (n & Hn & [(e & Hrow)|(_ & _ & Hge)]); rewrite Hid in *; [cbn in Hrow; injection Hrow as <-; exact Hn|]. pose proof (n0_ge O). unfold n0 in Hge. lia. }
    destruct (run_fields (oc_run O)) as (_ & _ & Edn & _). pose proof (proj2 (resolve_reach _ _ _ _ _ (oc_resolve O))) as Hre. pose proof (st_reach_ok _ Hre) as Hok. rewrite Edn in Hc.
    exists loader, ns, d. split; [exact Hl|]. split; [exact Hds|]. split; [exact Hwn|]. split; [|split; [exact N2|]; split; [exact N3|]; split; [exact N4|]].
    - eapply Forall2_impl; [exact N1|]. intros e n [E1 (i & Hin)]. split; [exact E1|]. apply elem_of_list_lookup in Hin as [j Hj]. split.
      + destruct (ok_entry _ Hok _ _ _ _ Hj) as [_ Ho]. assert (Hle : blen (contents d) <= memsz d) by (rewrite Hb; unfold filesz; destruct (is_nobits d); lia).
        eapply N.lt_le_trans; [|exact Hle]. rewrite Hc, chunk_data_emit by exact Hok. rewrite Ho. rewrite <- (take_drop_middle _ _ _ Hj) at 2. rewrite emit_app, blen_app.
        change (emit ((n, (i, e.2)) :: drop (S j) (stt_names (w_dynstr wr)))) with (ser_name n ++ emit (drop (S j) (stt_names (w_dynstr wr)))). rewrite blen_app. unfold ser_name. rewrite blen_app. change (blen [0]) with 1. lia.
      + intros Hnn. rewrite Hc. eapply cstr_at_entry; [exact Hok|exact Hj|exact Hnn].
    - intros k s Hk. destruct (keeps_all O sym_static) as [_ Hkeep]. destruct (keeps_lookup _ _ _ _ _ Hkeep Hk) as (s0 & Hs0 & E). unfold sym_static in E.
      assert (Er : s_reference s = s_reference s0) by congruence. rewrite Er. destruct (N6 _ _ Hs0) as [?|(e & so & H1 & H2 & H3)]; [by left|]. right. exists e, so. split; [exact H1|]. split; [exact H2|].
      destruct (N5 _ H3) as [->|H]; [|exact H]. exfalso. exact (file_name_nonempty _ H2).
  Qed.
  Lemma entries_fit : stt_total_len (w_shstrtab w) < 2^32 -> Forall shdr_fits (sc_sh <$> secs) -> Forall dyn_fits (w_dyn_entries w).
  Proof using O P V Fin.
    intros Ht F3. destruct (dynamic_facts Ht) as (facts & He & Hs & _). destruct (needed_final Ht) as (loader & ns & ds & _ & Hds & _ & HN & _).
    assert (F : forall s, s ∈ secs -> shdr_fits (sc_sh s)) by (intros s Hin; rewrite Forall_fmap, List.Forall_forall in F3; apply F3, elem_of_list_In, Hin).
    rewrite He. apply Forall_app. split; [|apply Forall_app; split; [|constructor; [split; reflexivity|constructor]]].
    - pose proof (F _ Hds) as (_ & _ & _ & _ & _ & Hm & _). clear -HN Hm. induction HN as [|e n es ns (E1 & E2 & _) HN IH]; constructor; [|exact IH].
      split; [rewrite E1; reflexivity|]. unfold memsz in E2. eapply N.lt_trans; [exact E2|exact Hm].
    - apply List.Forall_forall. intros e Hin. apply elem_of_list_In in Hin. destruct (Hs e Hin) as (s & Hins & Hst). exact (states_fit w s e Hst (F _ Hins)).
  Qed.
End dyn.
