(** The dynamic linking tables of a finished link. *)
From Verif Require Export ProofGot.

(** Strings at corresponding places are equal, whatever follows them. *)
Lemma cstr_cut l r r' : cstr (l ++ 0 :: r) = cstr (l ++ 0 :: r').
Proof. induction l as [|b l IH]; [reflexivity|]. cbn. by rewrite IH. Qed.
Lemma cstr_some l r : is_Some (cstr (l ++ 0 :: r)).
Proof. induction l as [|b l IH]; [by eexists|]. cbn. destruct (b =? 0); [by eexists|]. destruct IH as [x ->]. by eexists. Qed.
Lemma entry_string t n i o : st_ok t -> (n, (i, o)) ∈ stt_names t -> exists rest, drop (N.to_nat o) (st_chunk_data t) = string_bytes n ++ 0 :: rest.
Proof.
  intros Hok H. apply elem_of_list_lookup in H as [j Hj]. rewrite chunk_data_emit by exact Hok. destruct (ok_entry t Hok _ _ _ _ Hj) as [_ Ho].
  exists (emit (drop (S j) (stt_names t))). rewrite <- (take_drop_middle (stt_names t) j _ Hj) at 1. rewrite emit_app, Ho. unfold blen at 1. rewrite Nat2N.id, drop_app.
  unfold emit. rewrite bind_cons. unfold ser_name. cbn [fst]. by rewrite <- app_assoc.
Qed.
Lemma same_name_string a b n m : st_ok a -> st_ok b -> stt_total_len a < 2^32 -> stt_total_len b < 2^32 -> same_name a b n m -> same_string (st_chunk_data a) (st_chunk_data b) n m.
Proof.
  intros Ha Hb La Lb (x & i & o & j & p & H1 & -> & H2 & ->). pose proof (entry_off_lt _ _ _ _ Ha H1). pose proof (entry_off_lt _ _ _ _ Hb H2).
  unfold u32. rewrite !N.mod_small by lia. destruct (entry_string _ _ _ _ Ha H1) as [r1 E1]. destruct (entry_string _ _ _ _ Hb H2) as [r2 E2].
  destruct (cstr_some (string_bytes x) r1) as [s Hs]. exists s. unfold cstr_at. rewrite E1, E2. split; [exact Hs|]. rewrite <- Hs. apply cstr_cut.
Qed.
Lemma pigeon (n : nat) (k : list nat) : NoDup k -> Forall (fun x => (x < n)%nat) k -> (length k <= n)%nat.
Proof.
  intros ND F. rewrite <- (seq_length n 0). apply NoDup_incl_length.
  - by apply NoDup_ListNoDup.
  - intros x Hx. apply in_seq. apply elem_of_list_In in Hx. rewrite Forall_forall in F. specialize (F x Hx). lia.
Qed.
Lemma keys_bound (m : gmap N symbol) b : (forall n s, m !! n = Some s -> n < b) -> N.of_nat (size m) <= b.
Proof.
  intros H. assert (E : size m = length (N.to_nat <$> (map_to_list m).*1)) by (rewrite !fmap_length; reflexivity). rewrite E.
  assert (length (N.to_nat <$> (map_to_list m).*1) <= N.to_nat b)%nat; [|lia]. apply pigeon.
  - apply (NoDup_fmap_2 N.to_nat). apply NoDup_fst_map_to_list.
  - apply Forall_forall. intros x Hx. apply elem_of_list_fmap in Hx as (n & -> & Hn). apply elem_of_list_fmap in Hn as ([n' s] & -> & Hn). apply elem_of_map_to_list in Hn. cbn. specialize (H _ _ Hn). lia.
Qed.
Lemma keeps_patched t t' : ProofStatic.keeps sym_static t t' -> patched t t'.
Proof.
  intros H n. unfold ProofStatic.keeps in H. pose proof (f_equal (fun m => m !! n) H) as E. cbn in E. rewrite !lookup_fmap in E.
  destruct (syt_symbols t !! n), (syt_symbols t' !! n); cbn in E; try discriminate E; [|exact I].
  unfold sym_static in E. injection E as E1 E2 E3 E4 E5 E6 E7 E8. by split_and!.
Qed.

Lemma blen_zeros n : blen (zeros n) = n.
Proof. unfold blen, zeros. rewrite replicate_length. lia. Qed.
(** Tables of records. *)
Lemma indices_lookup (k : list symbol) n i : dyn_sym_indices k !! n = Some i -> exists s, k !! i = Some s /\ st_name (s_sym s) = n.
Proof.
  unfold dyn_sym_indices. intros H. apply elem_of_list_to_map_2 in H. rewrite elem_of_reverse in H. apply elem_of_lookup_imap in H as (j & s & E & Hs). injection E as -> ->. eauto.
Qed.
Lemma hdr_kept id k k' : Forall2 kept k k' -> hdr_of id k' = hdr_of id k.
Proof.
  intros H. unfold hdr_of. induction H as [|a b k k' Hk H IH]; [reflexivity|]. cbn. rewrite Hk. cbn. destruct (Nat.eqb _ _); [reflexivity|exact IH].
Qed.
Lemma rd_rela_table (rs : list Rela) : Forall rela_fits rs -> rd_table rd_rela 24 (length rs) (rs ≫= ser_rela) 0 = Some rs.
Proof. intros F. pose proof (rd_table_ser rd_rela ser_rela rela_fits 24 rd_rela_ser ser_rela_length rs [] [] F) as H. rewrite app_nil_l, app_nil_r in H. exact H. Qed.
Lemma rd_rela_nth (rs : list Rela) i r : rs !! i = Some r -> rela_fits r -> rd_rela (rs ≫= ser_rela) (24 * N.of_nat i) = Some r.
Proof. intros Hi F. pose proof (rd_nth_ser rd_rela ser_rela rela_fits 24 rd_rela_ser ser_rela_length rs [] [] i r Hi F) as H. rewrite app_nil_l, app_nil_r in H. exact H. Qed.
Lemma omap_lookup {A B} (f : A -> option B) pre a post b : f a = Some b -> omap f (pre ++ a :: post) !! length (omap f pre) = Some b.
Proof. intros H. rewrite omap_app, lookup_app_r by lia. rewrite Nat.sub_diag. cbn. by rewrite H. Qed.

Lemma omap_count {A B C} (f : A -> option B) (g : A -> C) (k : list A) (k' : list C) : (forall a a', g a = g a' -> a = a') -> NoDup k -> NoDup k' ->
  (forall c, c ∈ k' <-> exists a, a ∈ k /\ is_Some (f a) /\ c = g a) -> length (omap f k) = length k'.
Proof.
  intros Hg ND ND' HE. pose (h := fun a => match f a with Some _ => Some (g a) | None => None end).
  assert (E : length (omap f k) = length (omap h k)). { clear. induction k as [|a k IH]; [reflexivity|]. cbn. unfold h at 1. destruct (f a); cbn; congruence. }
  rewrite E. clear E. apply Permutation_length, NoDup_Permutation.
  - clear HE. induction k as [|a k IH]; [constructor|]. apply NoDup_cons in ND as [Ha ND]. cbn. unfold h at 1. destruct (f a) as [b|] eqn:Ea.
    + constructor; [|apply IH; exact ND]. intros Hin. apply elem_of_list_omap in Hin as (x & Hx & E). unfold h in E. destruct (f x) as [y|] eqn:Ex; [|discriminate E].
      injection E as E. rewrite (Hg a x) in Ha by congruence. exact (Ha Hx).
    + apply IH; exact ND.
  - exact ND'.
  - intros c. rewrite HE, elem_of_list_omap. split.
    + intros (a & Ha & E). unfold h in E. destruct (f a) eqn:Ef; [|discriminate E]. injection E as <-. exists a. split; [exact Ha|]. rewrite Ef. split; [by eexists|reflexivity].
    + intros (a & Ha & [b Eb] & ->). exists a. split; [exact Ha|]. unfold h. by rewrite Eb.
Qed.

(** ** GOT slots *)
Definition got_inv (t : symtab) (len : N) : Prop :=
  (forall r s off, syt_get t r = Some s -> s_in_got s = Some off -> off mod 8 = 0 /\ off + 8 <= 8 * len) /\
  (forall r s r' s' off, syt_get t r = Some s -> s_in_got s = Some off -> syt_get t r' = Some s' -> s_in_got s' = Some off -> r = r').
Lemma got_inv_scan w w' : scan_relocations w = Ok w' -> no_slots w -> got_inv (w_symtab w') (w_got_len w').
Proof.
  intros H (E1 & _ & _ & Hn). destruct (scan_flat _ _ H) as (st & Hs & ->). cbn.
  assert (G0 : got_inv (sn_symbols (mkScan (w_symtab w) (w_got_len w) (w_got_plt w) (w_plt w))) (sn_got_len (mkScan (w_symtab w) (w_got_len w) (w_got_plt w) (w_plt w)))).
  { split; cbn; [intros r s off Hr Ho|intros r s r' s' off Hr Ho]; destruct (Hn _ _ Hr) as (X & _); congruence. }
  revert Hs G0. generalize (mkScan (w_symtab w) (w_got_len w) (w_got_plt w) (w_plt w)). generalize (all_relocs (w_sections w')). intros k' s Hs G0.
  apply (mapM_st_trace (fun _ _ t' => got_inv (sn_symbols t') (sn_got_len t'))) in Hs; [exact Hs|exact G0|].
  intros _ _ _ t1 [rel r] t2 a' _ [I1 I2] H2. clear -I1 I2 H2. unfold scan_reloc in H2. cbv zeta in H2. destruct (needs_got _).
  - apply bind_Ok in H2 as (sym & Hsym & H2). apply unwrap_Ok in Hsym. destruct (s_in_got sym) as [x|] eqn:Ex; [injection H2 as <- _; by split|]. injection H2 as <- _. cbn.
    set (n := if _ && _ then 2 else 1). assert (1 <= n) by (unfold n; destruct (_ && _); lia). clearbody n.
    assert (A : forall r' s' off, syt_get (syt_modify (sn_symbols t1) r (fun s => s <| s_in_got := Some (sn_got_len t1 * 8) |>)) r' = Some s' -> s_in_got s' = Some off ->
      (r' = r /\ off = sn_got_len t1 * 8) \/ (r' <> r /\ exists s0, syt_get (sn_symbols t1) r' = Some s0 /\ s_in_got s0 = Some off)).
    { intros r' s' off Hr Ho. rewrite syt_get_modify in Hr. destruct (decide (r' = r)) as [->|Hne].
      - left. rewrite Hsym in Hr. cbn in Hr. injection Hr as <-. cbn in Ho. injection Ho as <-. done.
      - right. split; [congruence|eauto]. }
    split.
    + intros r' s' off Hr Ho. destruct (A _ _ _ Hr Ho) as [[-> ->]|(_ & s0 & H0 & H0')]; [lia|]. destruct (I1 _ _ _ H0 H0'). lia.
    + intros ra sa rb sb off Ha Oa Hb Ob. destruct (A _ _ _ Ha Oa) as [[-> ->]|(Na & a0 & A0 & A0')], (A _ _ _ Hb Ob) as [[-> Eb]|(Nb & b0 & B0 & B0')].
      * reflexivity.
      * destruct (I1 _ _ _ B0 B0'). lia.
      * subst off. destruct (I1 _ _ _ A0 A0'). lia.
      * exact (I2 _ _ _ _ _ A0 A0' B0 B0').
  - destruct (_ =? _); [|injection H2 as <- _; by split]. apply bind_Ok in H2 as (sym & Hsym & H2). destruct (s_dynamic sym); [|injection H2 as <- _; by split].
    destruct (or_insert _ _ _) as [gp offset]. destruct (plt_insert _ _) as [pl idx]. injection H2 as <- _. cbn.
    assert (A : forall r' s' off, syt_get (syt_modify (sn_symbols t1) r (fun s => s <| s_in_got_plt := Some offset |> <| s_in_plt := Some idx |>)) r' = Some s' -> s_in_got s' = Some off ->
      exists s0, syt_get (sn_symbols t1) r' = Some s0 /\ s_in_got s0 = Some off).
    { intros r' s' off Hr Ho. rewrite syt_get_modify in Hr. destruct (decide (r' = r)) as [->|Hne]; [|eauto].
      destruct (syt_get (sn_symbols t1) r) as [s0|]; [|discriminate Hr]. cbn in Hr. injection Hr as <-. exists s0. split; [reflexivity|exact Ho]. }
    split.
    + intros r' s' off Hr Ho. destruct (A _ _ _ Hr Ho) as (s0 & H0 & H0'). exact (I1 _ _ _ H0 H0').
    + intros ra sa rb sb off Ha Oa Hb Ob. destruct (A _ _ _ Ha Oa) as (a0 & A0 & A0'), (A _ _ _ Hb Ob) as (b0 & B0 & B0'). exact (I2 _ _ _ _ _ A0 A0' B0 B0').
Qed.
Lemma adjust_record a b c off i ty : i < 2^32 -> ty = 5 \/ ty = 6 \/ ty = 7 -> adjust_rel a b c (rela off i ty) = dyn_record (off + (if ty =? 6 then a else if ty =? 7 then b else c)) i ty.
Proof.
  intros Hi Ht. pose proof (rela_type off i ty ltac:(lia)) as E. change (reloc_type (rela off i ty)) with (r_type (r_info (rela off i ty))) in E. unfold adjust_rel. rewrite E, (rela_small _ _ _ Hi). unfold dyn_record.
  destruct Ht as [->|[->| ->]]; reflexivity.
Qed.
Lemma record_fits a i ty : a < 2^64 -> i < 2^32 -> ty < 2^32 -> rela_fits (dyn_record a i ty).
Proof. intros. unfold rela_fits, dyn_record. cbn. lia. Qed.
Lemma record_type a i ty : ty < 2^32 -> reloc_type (dyn_record a i ty) = ty.
Proof. intros. unfold reloc_type, dyn_record. cbn. lia. Qed.
Lemma record_sym a i ty : ty < 2^32 -> reloc_sym (dyn_record a i ty) = i.
Proof. intros. unfold reloc_sym, dyn_record. cbn. lia. Qed.
Lemma filter_at {A} (P : A -> Prop) `{!forall x, Decision (P x)} (k : list A) i x : k !! i = Some x -> (forall i' y, k !! i' = Some y -> P y <-> i' = i) -> filter P k = [x].
Proof.
  revert i. induction k as [|a k IH]; intros i Hi HP; [destruct i; discriminate Hi|]. rewrite filter_cons. destruct i as [|i]; cbn in Hi.
  - injection Hi as ->. rewrite decide_True by (apply (HP 0%nat); reflexivity). f_equal. clear IH.
    assert (HN : forall y, y ∈ k -> ~ P y). { intros y Hy Py. apply elem_of_list_lookup in Hy as [i Hi]. apply (HP (S i)) in Py; [discriminate Py|exact Hi]. }
    clear HP. induction k as [|y k IH]; [reflexivity|]. rewrite filter_cons, decide_False by (apply HN; by left). apply IH. intros z Hz. apply HN. by right.
  - rewrite decide_False by (intros Pa; apply (HP 0%nat) in Pa; [discriminate Pa|reflexivity]). apply (IH i); [exact Hi|]. intros i' y Hy. rewrite (HP (S i') y Hy). split; congruence.
Qed.
Lemma filter_adj a b c t (k : list Rela) : filter (fun r => reloc_type r = t) (adjust_rel a b c <$> k) = adjust_rel a b c <$> filter (fun r => reloc_type r = t) k.
Proof.
  assert (E : forall r, reloc_type (adjust_rel a b c r) = reloc_type r) by (intros r; unfold adjust_rel; repeat (destruct (_ =? _)); reflexivity).
  induction k as [|r k IH]; [reflexivity|]. rewrite fmap_cons, !filter_cons, E. destruct (decide _); [rewrite fmap_cons|]; by rewrite IH.
Qed.
Lemma filter_both {A} (P Q : A -> Prop) `{!forall x, Decision (P x), !forall x, Decision (Q x)} (k : list A) : filter (fun x => P x /\ Q x) k = filter Q (filter P k).
Proof.
  induction k as [|x k IH]; [reflexivity|]. rewrite !filter_cons. destruct (decide (P x)) as [Px|Px].
  - rewrite filter_cons. destruct (decide (Q x)) as [Qx|Qx]; [rewrite decide_True by done|rewrite decide_False by tauto]; by rewrite IH.
  - rewrite decide_False by tauto. exact IH.
Qed.

Lemma omap_lookup_inv {A B} (f : A -> option B) (k : list A) i b : omap f k !! i = Some b -> exists pre a post, k = pre ++ a :: post /\ f a = Some b /\ length (omap f pre) = i.
Proof.
  revert i. induction k as [|a k IH]; intros i H; [destruct i; discriminate H|]. cbn in H. destruct (f a) as [b'|] eqn:Ea.
  - destruct i as [|i]; cbn in H; [injection H as ->; exists [], a, k; done|]. destruct (IH _ H) as (pre & x & post & -> & Hx & Hl). exists (a :: pre), x, post. split; [reflexivity|]. split; [exact Hx|].
    cbn. rewrite Ea. cbn. by rewrite Hl.
  - destruct (IH _ H) as (pre & x & post & -> & Hx & Hl). exists (a :: pre), x, post. split; [reflexivity|]. split; [exact Hx|]. cbn. rewrite Ea. exact Hl.
Qed.
Lemma split_unique {A} (pre pre' post post' : list A) x : NoDup (pre ++ x :: post) -> pre ++ x :: post = pre' ++ x :: post' -> pre = pre' /\ post = post'.
Proof.
  revert pre'. induction pre as [|a pre IH]; intros [|a' pre'] ND E; cbn in *.
  - injection E as ->. done.
  - injection E as -> ->. apply NoDup_cons in ND as [Hn _]. exfalso. apply Hn. apply elem_of_app. right. by left.
  - injection E as -> <-. apply NoDup_cons in ND as [Hn _]. exfalso. apply Hn. apply elem_of_app. right. by left.
  - injection E as -> E. apply NoDup_cons in ND as [_ ND]. destruct (IH _ ND E) as [-> ->]. done.
Qed.
Lemma blen_relas (rs : list Rela) : blen (rs ≫= ser_rela) = 24 * blen rs.
Proof. unfold blen. rewrite (bind_length ser_rela rs 24) by apply ser_rela_length. lia. Qed.

Section bind.
  Context {wd : world} {lo : lib_oracle} {l : linker} {fuel : nat} {w : writer} {secs : list section}
    {w0 wr ws w1 : writer} {extra : N} {null : section} {rest rest' : list section} {st : layout} {w3 w4 w5 w6 w7 : writer}
    {null' : section} {out : list section}.
  Context (O : outcome wd lo l fuel w secs w0 wr ws w1 extra null rest rest' st w3 w4 w5 w6 w7 null' out).
  Context (Fin : mapM_res (sec_finalize (lo_writer lo) w) (w_sections w) = Ok secs).
  Context (V : valid_oracle (lo_writer lo)) (P : plain_inputs wd l) (PL : plain_libs wd l) (NF : names_fit w).
  Let o := lo_writer lo.
  Let n0 := length (w_sections w0).

  Lemma wr_tables : tinv wr.
  Proof using O PL. exact (resolve_tables wd l PL _ _ _ (oc_resolve O)). Qed.
  Lemma wr_small : small wr.
  Proof using O NF. destruct (run_fields (oc_run O)) as (_ & E1 & E2 & _). unfold small. rewrite <- E1, <- E2. exact (proj2 NF). Qed.
  Lemma wr_no_slots : no_slots wr.
  Proof using O PL.
    destruct (winv_const _ _ _ _ (oc_new O) (oc_winv O)) as (_ & _ & _ & _ & _ & E1 & E2 & E3 & _). split; [exact E1|]. split; [exact E2|]. split; [exact E3|].
    intros r sym Hr. destruct (ti_fresh _ wr_tables _ _ Hr) as (? & ? & ? & _). done.
  Qed.
  Lemma ws_fields : w_dynsym ws = w_dynsym wr /\ w_copyrel ws = mkCopyrel 0 [] /\ w_dyn_rels ws = [] /\ w_plt_rels ws = [] /\ ProofStatic.keeps sym_static (w_symtab wr) (w_symtab ws).
  Proof using O.
    destruct (scan_flat _ _ (sz_scan _ _ _ _ _ (rn_sizing (oc_run O)))) as (sn & _ & E). destruct (winv_const _ _ _ _ (oc_new O) (oc_winv O)) as (_ & _ & _ & _ & _ & _ & _ & _ & E1 & E2 & E3).
    split_and!; [rewrite E; reflexivity|rewrite E; exact E1|rewrite E; exact E2|rewrite E; exact E3|]. exact (keeps_scan sym_static _ _ (sz_scan _ _ _ _ _ (rn_sizing (oc_run O)))).
  Qed.
  Definition the_index : gmap N nat := dyn_sym_indices (syt_sorted (o_dyn o) (w_dynsym wr)).
  Definition the_keys : list N := o_sym o (keys (syt_symbols (w_symtab ws))).
  Lemma ws_link n s r : syt_symbols (w_symtab ws) !! n = Some s -> s_dynamic s = Some r ->
    exists m d, r = RNamed m /\ syt_symbols (w_dynsym wr) !! m = Some d /\ same_name (w_strtab wr) (w_dynstr wr) n m.
  Proof using O PL.
    intros Hs Hd. destruct ws_fields as (_ & _ & _ & _ & K). destruct (keeps_lookup _ _ _ _ _ K Hs) as (s0 & H0 & E). unfold sym_static in E. injection E as _ _ _ _ _ _ _ E.
    eapply (ti_link _ wr_tables); [exact H0|]. by rewrite <- E.
  Qed.
  Lemma ws_inj n n' s s' d : syt_symbols (w_symtab ws) !! n = Some s -> syt_symbols (w_symtab ws) !! n' = Some s' -> s_dynamic s = Some d -> s_dynamic s' = Some d -> n = n'.
  Proof using O PL NF.
    intros H1 H2 D1 D2. destruct (ws_link _ _ _ H1 D1) as (m & _ & -> & _ & N1). destruct (ws_link _ _ _ H2 D2) as (m' & _ & [= <-] & _ & N2).
    destruct (ti_reach _ wr_tables) as [R1 R2]. eapply same_name_inj; [exact (st_reach_ok _ R1)|exact (st_reach_ok _ R2)|exact (proj2 wr_small)|exact N1|exact N2].
  Qed.
  Lemma keys_nodup : NoDup the_keys.
  Proof using V. unfold the_keys, o. rewrite (vo_sym _ V). unfold keys. apply NoDup_elements. Qed.
  Lemma elem_keys n : n ∈ the_keys <-> is_Some (syt_symbols (w_symtab ws) !! n).
  Proof using V. unfold the_keys, o. rewrite (vo_sym _ V). unfold keys. rewrite elem_of_elements. apply elem_of_dom. Qed.
  Lemma the_records : exists dr, dr_inv the_index (syt_symbols (w_symtab ws)) (w_dynsym wr) the_keys dr /\
    syt_symbols (w_symtab w1) = dr_symbols dr /\ w_dynsym w1 = dr_dynsym dr /\ w_copyrel w1 = dr_copyrel dr /\ w_dyn_rels w1 = dr_dyn_rels dr /\ w_plt_rels w1 = dr_plt_rels dr.
  Proof using O V PL NF.
    destruct (sz_rels _ _ _ _ _ (rn_sizing (oc_run O))) as (dr & Hf & E1 & E2 & E3 & E4 & E5). destruct ws_fields as (F1 & F2 & F3 & F4 & _). rewrite F1, F2, F3, F4 in Hf.
    exists dr. split; [|split_and!; [rewrite E1; reflexivity|assumption..]]. eapply dr_fold; [exact ws_inj|exact keys_nodup|exact Hf].
  Qed.

  (** ** Entries of .dynsym *)
  Lemma dyn_keyed : keyed (w_dynsym w).
  Proof using O PL. intros n s Hs. destruct (keeps_all O sym_static) as [_ K]. destruct (keeps_lookup _ _ _ _ _ K Hs) as (s0 & H0 & E). destruct (ti_dyn _ wr_tables _ _ H0) as [E0 _]. unfold sym_static in E. congruence. Qed.
  Lemma sym_keyed : keyed (w_symtab w).
  Proof using O PL. intros n s Hs. destruct (keeps_all O sym_static) as [K _]. destruct (keeps_lookup _ _ _ _ _ K Hs) as (s0 & H0 & E). destruct (ti_sym _ wr_tables _ _ H0) as [E0 _]. unfold sym_static in E. congruence. Qed.
  Lemma dyn_index_final m j : all_fit (w_dynsym w) -> dyn_index the_index (RNamed m) = Some j ->
    exists ds, syt_symbols (w_dynsym w) !! m = Some ds /\ rd_sym (syt_chunk_data (o_dyn o) (w_dynsym w)) (24 * j) = Some (s_sym ds) /\ st_name (s_sym ds) = m /\ j < 2^32.
  Proof using O V PL.
    intros F H. unfold dyn_index in H. cbn [ref_st_name] in H. destruct (the_index !! m) as [i|] eqn:Ei; [|discriminate H]. cbn in H. apply (inj Some) in H. subst j.
    apply indices_lookup in Ei as (s0 & Hs0 & En). destruct (keeps_all O sym_static) as [_ K]. pose proof (patched_sorted (o_dyn o) _ _ (keeps_patched _ _ K)) as F2.
    destruct (Forall2_lookup_l _ _ _ _ _ F2 Hs0) as (s & Hs & Hk). assert (Hm : st_name (s_sym s) = m) by (rewrite <- En; exact (proj1 Hk)).
    exists s. split; [|split; [|split; [exact Hm|]]].
    - assert (Hin : s ∈ syt_sorted (o_dyn o) (w_dynsym w)) by (eapply elem_of_list_lookup_2; exact Hs). apply (elem_of_sorted _ _ _ (vo_dyn _ V)) in Hin as [n Hn].
      rewrite <- Hm, (dyn_keyed _ _ Hn). exact Hn.
    - unfold o in Hs. rewrite (rd_chunk_sym _ _ _ (vo_dyn _ V) F), Hs. reflexivity.
    - apply lookup_lt_Some in Hs0. unfold o in Hs0. rewrite (sorted_length _ _ (vo_dyn _ V)) in Hs0. pose proof (keys_bound (syt_symbols (w_dynsym wr)) (2^32)) as B. 
      enough (N.of_nat (size (syt_symbols (w_dynsym wr))) <= 2^32) by lia. apply B. intros n s' Hn. destruct (ti_dyn _ wr_tables _ _ Hn) as (_ & x & a & b & _ & -> & _). unfold u32. lia.
  Qed.

  (** ** Own sections by name *)
  Lemma own_the i n : (0 < i < 14)%nat -> (fst ∘ fst ∘ fst) <$> own_rows (opt_hash_style (lk_options l)) !! i = Some n -> forall b, b ∈ secs -> sc_id b = i -> the_sec w secs n b.
  Proof using O Fin V P NF.
    intros Hi Hn b Hb Hid. split; [exact Hb|]. pose proof (n0_ge O) as Hge. assert (Hnm : sec_name w b = Some n).
    { destruct (secs_class O Fin V P b (proj1 NF) Hb) as (n' & Hn' & [(e & Hrow)|(_ & _ & Hbad)]); [|lia]. rewrite Hid in Hrow. rewrite Hrow in Hn. cbn in Hn. injection Hn as <-. exact Hn'. }
    split; [exact Hnm|]. intros s' Hs' Hn'. destruct (secs_class O Fin V P s' (proj1 NF) Hs') as (n' & Hn2 & Hc). rewrite Hn' in Hn2. injection Hn2 as <-.
    assert (Hid' : sc_id s' = i).
    { destruct Hc as [(e & Hrow)|(Hres & _)].
      - destruct (own_rows (opt_hash_style (lk_options l)) !! i) as [row|] eqn:Er; [|discriminate Hn]. cbn in Hn. injection Hn as Hn.
        assert (ND : NoDup ((fst ∘ fst ∘ fst) <$> own_rows (opt_hash_style (lk_options l)))) by (destruct (opt_hash_style (lk_options l)); apply (bool_decide_unpack _); vm_compute; exact I).
        eapply (NoDup_lookup _ _ _ n ND); rewrite list_lookup_fmap; [rewrite Hrow|rewrite Er; cbn; rewrite <- Hn]; reflexivity.
      - exfalso. apply Hres. destruct (opt_hash_style (lk_options l)); do 14 (destruct i as [|i]; [cbn in Hn; try lia; injection Hn as <-; apply (bool_decide_unpack _); vm_compute; exact I|]); lia. }
    rewrite (oc_secs O) in Hb, Hs'. destruct (null_facts O) as (N0 & _).
    apply elem_of_cons in Hb as [->|Hb]; [rewrite N0 in Hid; lia|]. apply elem_of_cons in Hs' as [->|Hs']; [rewrite N0 in Hid'; lia|].
    apply elem_of_list_lookup in Hb as [x Hx]. apply elem_of_list_lookup in Hs' as [y Hy]. assert (x = y) by (eapply (out_nodup O V); [exact Hx|exact Hy|congruence]). congruence.
  Qed.
  Lemma kept_stages : Forall2 kept (w_sections w4) (w_sections w5) /\ Forall2 kept (w_sections w4) (w_sections w6) /\ Forall2 kept (w_sections w4) (w_sections w7).
  Proof using O.
    destruct (patch_plt_spec _ _ (rn_plt (oc_run O))) as [_ K5]. destruct (special_spec _ _ (rn_special (oc_run O))) as [_ K6].
    assert (K56 : Forall2 kept (w_sections w5) (w_sections w6)) by (eapply Forall2_impl; [exact K6|]; by intros ? ? [? _]).
    pose proof (F2_kept_trans _ _ _ K5 K56) as K46. split; [exact K5|]. split; [exact K46|].
    rewrite (w4_sections O), (run_w3_secs (oc_run O)) in K46 |- *. destruct (F2_kept_head _ _ _ K46) as (n6 & r6 & Es6 & Kn6 & Kr6).
    destruct (handle_relocs_spec _ _ _ _ Es6 (rn_rel (oc_run O))) as (t & r7 & E7 & _ & F7). rewrite E7. constructor; [exact Kn6|].
    eapply F2_kept_trans; [exact Kr6|]. eapply Forall2_impl; [exact F7|]; by intros ? ? [? _].
  Qed.
  Record own_sec (pd gd : bytes) (i : nat) (n : string) (b : section) : Prop := {
    os_the : the_sec w secs n b;
    os_out : b ∈ out;
    os_id : sc_id b = i;
    os_bytes : contents b = fixed_bytes (lo := lo) (l := l) (w := w) (ws := ws) (w1 := w1) pd gd i (sc_synth b);
    os_hist : exists j a0 a1 a3 a6 a7, hist o wr ws w1 extra rest' w4 pd gd w5 w6 w7 w j a0 a1 a3 a6 a7 b;
    os_size : filesz b = blen (contents b);
    os_four : exists a, get_section i (w_sections w4) = Some a /\ addr a = addr b /\ a ∈ rest' /\ written w a b;
    os_six : sh_addr (hdr_of i (w_sections w6)) = addr b;
    os_seven : sh_addr (hdr_of i (w_sections w7)) = addr b }.
  Lemma own_all : exists pd gd, plt_patch w4 pd gd /\ forall i n, (0 < i < 14)%nat -> (fst ∘ fst ∘ fst) <$> own_rows (opt_hash_style (lk_options l)) !! i = Some n -> exists b, own_sec pd gd i n b.
  Proof using O Fin V P NF.
    destruct (history O Fin V) as (pd & gd & Hpp & Hh). exists pd, gd. split; [exact Hpp|]. intros i n Hi Hn. pose proof (n0_ge O) as Hge.
    destruct (laid_ids O V) as [_ HI]. specialize (HI i ltac:(lia)). rewrite fmap_cons in HI. apply elem_of_cons in HI as [HI|HI].
    { exfalso. destruct (null_facts O) as (N0 & _). pose proof (decl_id _ _ (proj1 (oc_null O))) as E. cbn in HI, E. lia. }
    apply elem_of_list_fmap in HI as (a & E & Ha). apply elem_of_list_lookup in Ha as [j Hj]. destruct (Forall2_lookup_l _ _ _ _ _ (oc_out O) Hj) as (b & Hb & Hw).
    pose proof (decl_id _ _ (proj1 Hw)) as Hid. rewrite <- E in Hid. destruct (Hh _ _ Hb) as (a0 & a1 & a3 & a6 & a7 & H).
    assert (Hout : b ∈ out) by (eapply elem_of_list_lookup_2; exact Hb). assert (Hs : b ∈ secs) by (rewrite (oc_secs O); right; exact Hout).
    pose proof (get_w4 O V _ _ _ _ _ _ _ _ _ H) as Hg. rewrite Hid in Hg. pose proof (h_written H) as Hwr.
    assert (Ha : addr a3 = addr b) by (destruct Hwr as (_ & _ & -> & _); reflexivity). destruct kept_stages as (K5 & K6 & K7).
    assert (E4 : sh_addr (hdr_of i (w_sections w4)) = addr b) by (unfold hdr_of; rewrite Hg; exact Ha).
    exists b. split.
    - exact (own_the i n Hi Hn b Hs Hid).
    - exact Hout.
    - exact Hid.
    - rewrite <- Hid. apply (own_contents O V P _ _ _ _ _ _ _ _ _ H Hpp). lia.
    - by exists j, a0, a1, a3, a6, a7.
    - symmetry. exact (contents_size O Fin V P b Hout).
    - exists a3. split; [exact Hg|]. split; [exact Ha|]. split; [|exact Hwr]. eapply elem_of_list_lookup_2. exact (h_w3 H).
    - rewrite (hdr_kept _ _ _ K6). exact E4.
    - rewrite (hdr_kept _ _ _ K7). exact E4.
  Qed.

  (** ** PLT *)
  Lemma w4_fields : w_symtab w4 = w_symtab w1 /\ w_got_plt w4 = w_got_plt ws.
  Proof using O.
    destruct (run_w4 (oc_run O)) as (es & E4 & _). destruct (sz_got _ _ _ _ _ (rn_sizing (oc_run O))) as (_ & <- & _). rewrite E4, (rn_w3 (oc_run O)). split; reflexivity.
  Qed.
  Record plt_final (ks : list symref) : Prop := {
    pf_nodup : NoDup ks;
    pf_plt : w_plt ws = plt_of ks;
    pf_got_plt : w_got_plt ws = got_plt_of ks;
    pf_named : forall i r, ks !! i = Some r -> exists n s d j, r = RNamed n /\ syt_symbols (w_symtab ws) !! n = Some s /\ s_in_plt s = Some (N.of_nat i) /\ s_in_got_plt s = Some ((N.of_nat i + 3) * 8) /\
      s_dynamic s = Some d /\ dyn_index the_index d = Some j /\ plt_rec the_index (syt_symbols (w_symtab ws)) n = Some (rela ((N.of_nat i + 3) * 8) j 7);
    pf_only : forall n s, syt_symbols (w_symtab ws) !! n = Some s -> (exists i, s_in_plt s = Some i) \/ (exists x, s_in_got_plt s = Some x) -> exists i, ks !! i = Some (RNamed n);
    pf_sec : forall a b s, syt_get (w_symtab ws) (RSection a b) = Some s -> s_in_plt s = None /\ s_in_got_plt s = None }.
  Lemma plt_slots : exists ks, plt_final ks.
  Proof using O V PL NF.
    destruct (scan_plt _ _ (sz_scan _ _ _ _ _ (rn_sizing (oc_run O))) wr_no_slots) as (ks & ND & Hks & Hin & Hout & E1 & E2). exists ks.
    assert (Hn : forall r, r ∈ ks -> exists n, r = RNamed n).
    { intros [n|a b] Hr; [eauto|]. apply Hks in Hr as (_ & sym & d & Hg & Hd). rewrite (ti_sec _ wr_tables _ _ _ Hg) in Hd. discriminate Hd. }
    destruct ws_fields as (_ & _ & _ & _ & K). destruct the_records as (dr & I & _).
    split; [exact ND|exact E1|exact E2| | |].
    - intros i r Hi. assert (Hr : r ∈ ks) by (eapply elem_of_list_lookup_2; exact Hi). destruct (Hn _ Hr) as [n ->]. destruct (Hin _ _ Hi) as (s & Hs & P1 & P2). cbn in Hs.
      apply Hks in Hr as (_ & s0 & d & Hs0 & Hd). cbn in Hs0. destruct (keeps_lookup _ _ _ _ _ K Hs) as (s0' & Hs0' & E). rewrite Hs0 in Hs0'. injection Hs0' as <-. unfold sym_static in E.
      assert (Hd' : s_dynamic s = Some d) by congruence. assert (Hk : n ∈ the_keys) by (apply elem_keys; eauto).
      destruct (dri_found _ _ _ _ _ I _ _ _ Hk Hs Hd') as [[j Hj] _]. exists n, s, d, j. split_and!; try assumption; [reflexivity|]. unfold plt_rec. rewrite Hs. cbn [mbind option_bind]. rewrite Hd'. cbn [mbind option_bind].
      rewrite Hj. cbn [mbind option_bind]. rewrite P2. reflexivity.
    - intros n s Hs Hx. destruct (decide (RNamed n ∈ ks)) as [Hr|Hr]; [by apply elem_of_list_lookup|]. destruct (Hout (RNamed n) s Hr Hs) as [X1 X2]. rewrite X1, X2 in Hx. destruct Hx as [[? ?]|[? ?]]; discriminate.
    - intros a b s Hs. apply (Hout (RSection a b) s); [|exact Hs]. intros Hr. destruct (Hn _ Hr) as [n Hbad]. discriminate Hbad.
  Qed.
  Lemma plt_count ks : plt_final ks -> length (omap (plt_rec the_index (syt_symbols (w_symtab ws))) the_keys) = length ks.
  Proof using V.
    intros F. apply (omap_count _ RNamed); [intros a a' [=]; assumption|exact keys_nodup|exact (pf_nodup _ F)|]. intros c. split.
    - intros Hc. apply elem_of_list_lookup in Hc as [i Hi]. destruct (pf_named _ F _ _ Hi) as (n & s & d & j & -> & Hs & _ & _ & _ & _ & Hr). exists n. split; [apply elem_keys; eauto|]. split; [rewrite Hr; eauto|reflexivity].
    - intros (n & _ & [r Hr] & ->). unfold plt_rec in Hr. destruct (syt_symbols (w_symtab ws) !! n) as [sa|] eqn:Ea; [|discriminate Hr]. cbn [mbind option_bind] in Hr.
      destruct (s_dynamic sa) as [da|]; [|discriminate Hr]. cbn [mbind option_bind] in Hr. destruct (dyn_index the_index da); [|discriminate Hr]. cbn [mbind option_bind] in Hr.
      destruct (s_in_got_plt sa) as [xa|] eqn:Ex; [|discriminate Hr]. destruct (pf_only _ F _ _ Ea) as [ia Hia]; [right; eauto|]. eapply elem_of_list_lookup_2; exact Hia.
  Qed.
  Lemma plt_bytes pd gd p g ks : plt_patch w4 pd gd -> own_sec pd gd 7 ".plt" p -> own_sec pd gd 6 ".got.plt" g -> plt_final ks ->
    filesz p = 16 * (N.of_nat (length ks) + 1) /\ filesz g = 8 * (N.of_nat (length ks) + 3) /\ head_for p g /\
    forall i n, ks !! i = Some (RNamed n) -> exists pre post j d s, the_keys = pre ++ n :: post /\ syt_symbols (w_symtab ws) !! n = Some s /\ s_dynamic s = Some d /\ dyn_index the_index d = Some j /\
      w_plt_rels w1 !! length (omap (plt_rec the_index (syt_symbols (w_symtab ws))) pre) = Some (rela ((N.of_nat i + 3) * 8) j 7) /\
      stub_for p g (N.of_nat i) (N.of_nat (length (omap (plt_rec the_index (syt_symbols (w_symtab ws))) pre))) /\
      (length (omap (plt_rec the_index (syt_symbols (w_symtab ws))) pre) < length ks)%nat.
  Proof using O V P PL NF.
    intros (ps & gs & pc & pd0 & Hps & Hgs & Hpc & Hh & Hf) Op Og F.
    destruct (os_hist _ _ _ _ _ Op) as (jp & p0 & p1 & p3 & p6 & p7 & Hp). destruct (os_hist _ _ _ _ _ Og) as (jg & g0 & g1 & g3 & g6 & g7 & Hg).
    destruct (plt_start O P _ _ _ _ _ _ _ _ _ Hp (or_introl (os_id _ _ _ _ _ Op))) as (_ & c3 & Ec3 & _ & Ed3). rewrite decide_True in Ed3 by exact (os_id _ _ _ _ _ Op).
    destruct (plt_start O P _ _ _ _ _ _ _ _ _ Hg (or_intror (os_id _ _ _ _ _ Og))) as (_ & d3 & Ec4 & _ & Ed4). rewrite decide_False in Ed4 by (rewrite (os_id _ _ _ _ _ Og); discriminate).
    pose proof (get_w4 O V _ _ _ _ _ _ _ _ _ Hp) as Gp. pose proof (get_w4 O V _ _ _ _ _ _ _ _ _ Hg) as Gg. rewrite (os_id _ _ _ _ _ Op) in Gp. rewrite (os_id _ _ _ _ _ Og) in Gg.
    change id_plt with 7%nat in Hps. change id_got_plt with 6%nat in Hgs. rewrite Hps in Gp. rewrite Hgs in Gg. apply (inj Some) in Gp, Gg. subst ps gs.
    assert (Ap : addr p = addr p3) by (destruct (h_written Hp) as (_ & _ & -> & _); reflexivity). assert (Ag : addr g = addr g3) by (destruct (h_written Hg) as (_ & _ & -> & _); reflexivity).
    rewrite Ec3 in Hpc. apply (inj Some) in Hpc. subst pc. rewrite Ec4 in Hf. change (default [] (c_data <$> [d3] !! 0%nat)) with (c_data d3) in Hf.
    rewrite Ed3 in Hh. pose proof (os_bytes _ _ _ _ _ Op) as Bp. cbn [fixed_bytes] in Bp. pose proof (os_bytes _ _ _ _ _ Og) as Bg. cbn [fixed_bytes] in Bg.
    destruct w4_fields as [Ws Wg]. rewrite Wg, Ws, (pf_got_plt _ F) in Hf.
    assert (LP : blen pd = 16 * (N.of_nat (length ks) + 1)).
    { destruct (patch_steps_len _ _ _ _ _ _ _ _ Hf) as [L _]. pose proof (patch_header_len _ _ _ _ Hh) as L0. unfold blen. rewrite L, L0. fold (blen (plt_data (w_plt ws))). rewrite plt_data_length, (pf_plt _ F).
      unfold blen, plt_of. rewrite imap_length. lia. }
    assert (LG : blen gd = 8 * (N.of_nat (length ks) + 3)).
    { destruct (patch_steps_len _ _ _ _ _ _ _ _ Hf) as [_ L]. unfold blen. rewrite L, Ed4. fold (blen (zeros (8 * (blen (w_got_plt ws) + 3)))). rewrite blen_zeros, (pf_got_plt _ F).
      unfold blen, got_plt_of. rewrite imap_length. reflexivity. }
    split; [rewrite (os_size _ _ _ _ _ Op), Bp; exact LP|]. split; [rewrite (os_size _ _ _ _ _ Og), Bg; exact LG|].
    destruct the_records as (dr & I & R1 & _ & _ & _ & R5).
    assert (S1 : forall n s, syt_symbols (w_symtab ws) !! n = Some s -> exists s1, syt_symbols (w_symtab w1) !! n = Some s1 /\ cleared s1 = cleared s).
    { intros n s Hs. pose proof (dri_static _ _ _ _ _ I n) as E. rewrite <- R1, Hs in E. destruct (syt_symbols (w_symtab w1) !! n) as [s1|]; [|discriminate E]. exists s1. split; [reflexivity|]. by apply (inj Some) in E. }
    assert (Hent : forall r off, (r, off) ∈ got_plt_of ks -> exists sym i, syt_get (w_symtab w1) r = Some sym /\ s_in_plt sym = Some i /\ off = 8 * (i + 3)).
    { intros r off Hin. unfold got_plt_of in Hin. apply elem_of_lookup_imap in Hin as (i & r' & E & Hi). injection E as -> ->. destruct (pf_named _ F _ _ Hi) as (n & s & d & j & -> & Hs & Q1 & Q2 & _).
      destruct (S1 _ _ Hs) as (s1 & Hs1 & Ec). exists s1, (N.of_nat i). split; [exact Hs1|]. split; [|lia]. rewrite <- Q1. change (s_in_plt (cleared s1) = s_in_plt (cleared s)). by rewrite Ec. }
    assert (ND : NoDup (got_plt_of ks).*2).
    { assert (E : (got_plt_of ks).*2 = (fun i => (N.of_nat i + 3) * 8) <$> seq 0 (length ks)).
      { apply list_eq. intros i. unfold got_plt_of. rewrite !list_lookup_fmap, list_lookup_imap. destruct (ks !! i) as [r|] eqn:Ei; cbn.
        - rewrite lookup_seq_lt by (apply lookup_lt_Some in Ei; exact Ei). reflexivity.
        - rewrite lookup_seq_ge by (apply lookup_ge_None; exact Ei). reflexivity. }
      rewrite E. apply NoDup_fmap_2; [intros x y; lia|apply NoDup_seq]. }
    destruct (plt_steps_done _ _ _ _ _ _ _ _ Hf ND Hent) as [D1 D2]. rewrite <- Ap, <- Ag in *.
    assert (Hop : forall x, is_opcode x -> pd !! N.to_nat x = plt_data (w_plt ws) !! N.to_nat x \/ x < 16).
    { intros x Hx. destruct (N.lt_ge_cases x 16) as [?|Hge]; [by right|]. left. rewrite (D2 _ Hx). unfold patch_plt_header in Hh.
      apply bind_Ok in Hh as (v1 & _ & Hh). apply bind_Ok in Hh as (d1 & H2 & Hh). apply bind_Ok in Hh as (v2 & _ & H4). unfold write_i32 in *.
      assert (T1 : same_off (2, 6) (plt_data (w_plt ws)) d1) by (eapply write_same_off; [exact H2|cbn [fst snd]; lia|rewrite le_bytes_z_len; cbn [fst snd]; lia]).
      assert (T2 : same_off (8, 12) d1 pd0) by (eapply write_same_off; [exact H4|cbn [fst snd]; lia|rewrite le_bytes_z_len; cbn [fst snd]; lia]).
      rewrite <- (proj2 T2) by (cbn [fst snd]; lia). rewrite <- (proj2 T1) by (cbn [fst snd]; lia). reflexivity. }
    split.
    { unfold head_for. rewrite Bp. eapply header_decodes; [exact Hh|]. intros x Hx. apply D2. by left. }
    intros i n Hi. destruct (pf_named _ F _ _ Hi) as (n' & s & d & j & [= <-] & Hs & Q1 & Q2 & Q3 & Q4 & Q5).
    assert (Hk : n ∈ the_keys) by (apply elem_keys; eauto). apply elem_of_list_split in Hk as (pre & post & Ek). exists pre, post, j, d, s.
    split; [exact Ek|]. split; [exact Hs|]. split; [exact Q3|]. split; [exact Q4|].
    split; [rewrite R5, (dri_plt _ _ _ _ _ I), Ek; by apply omap_lookup|].
    assert (Hdone : forall i n, ks !! i = Some (RNamed n) -> exists k s1, syt_symbols (w_symtab w1) !! n = Some s1 /\ s_relocation_offset s1 = Some k /\ stub_done (addr p) (addr g) pd gd (N.of_nat i) k).
    { clear -D1 F S1. intros i n Hi. destruct (pf_named _ F _ _ Hi) as (n' & s & d & j & [= <-] & Hs & Q1 & Q2 & Q3 & Q4 & Q5).
      destruct (S1 _ _ Hs) as (s1 & Hs1 & Ec). destruct (D1 (RNamed n) ((N.of_nat i + 3) * 8) s1 (N.of_nat i)) as (k & K1 & K2).
      - unfold got_plt_of. apply elem_of_lookup_imap. exists i, (RNamed n). split; [reflexivity|exact Hi].
      - exact Hs1.
      - rewrite <- Q1. change (s_in_plt (cleared s1) = s_in_plt (cleared s)). by rewrite Ec.
      - exists k, s1. split; [exact Hs1|]. split; [exact K1|exact K2]. }
    assert (Hsmall : (length ks < 2^27)%nat).
    { destruct ks as [|x ks' _] using rev_ind; [by rewrite lookup_nil in Hi|]. assert (Hl : (ks' ++ [x]) !! length ks' = Some x) by (rewrite lookup_app_r, Nat.sub_diag by lia; reflexivity).
      destruct (pf_named _ F _ _ Hl) as (m & _ & _ & _ & -> & _). destruct (Hdone _ _ Hl) as (k & s1 & _ & _ & (_ & _ & _ & _ & Hb)). rewrite app_length. cbn [length]. clear -Hb. apply Nat2Z.inj_lt. rewrite Nat2Z.inj_pow. change (Z.of_nat 2 ^ Z.of_nat 27)%Z with (2^27)%Z. lia. }
    destruct (Hdone _ _ Hi) as (k & s1 & Hs1 & Hk & Hst).
    assert (Ekk : k = N.of_nat (length (omap (plt_rec the_index (syt_symbols (w_symtab ws))) pre))).
    { pose proof (dri_pos _ _ _ _ _ I _ _ _ _ Ek Q5) as E. rewrite <- R1, Hs1 in E. cbn in E. rewrite Hk in E. injection E as ->. reflexivity. }
    assert (Hkb : (length (omap (plt_rec the_index (syt_symbols (w_symtab ws))) pre) < length ks)%nat).
    { rewrite <- (plt_count _ F), Ek. rewrite omap_app, app_length. cbn. rewrite Q5. cbn. lia. }
    split; [|exact Hkb].
    assert (Hk31 : k < 2^31). { rewrite Ekk. clear -Hkb Hsmall. apply Nat2Z.inj_lt in Hsmall. rewrite Nat2Z.inj_pow in Hsmall. change (Z.of_nat 2 ^ Z.of_nat 27)%Z with (2^27)%Z in Hsmall. lia. }
    assert (Eu : u32 k = k) by (unfold u32; rewrite N.mod_small by lia; reflexivity).
    destruct (stub_decodes _ _ _ _ _ _ (w_plt ws) Hst Hop) as (Z1 & Z2 & Z3 & Z4).
    { rewrite (pf_plt _ F). unfold blen, plt_of. rewrite imap_length. apply lookup_lt_Some in Hi. lia. }
    { rewrite Eu. exact Hk31. }
    rewrite Eu, Ekk in Z2. unfold stub_for. rewrite Bp, Bg. split_and!; assumption.
  Qed.

  (** ** Records *)
  Lemma glob_rec_inv n r : glob_rec the_index (syt_symbols (w_symtab ws)) n = Some r -> exists s m j off,
    syt_symbols (w_symtab ws) !! n = Some s /\ s_dynamic s = Some (RNamed m) /\ dyn_index the_index (RNamed m) = Some j /\ s_in_got s = Some off /\ r = rela off j 6.
  Proof using O PL.
    unfold glob_rec. intros H. destruct (syt_symbols (w_symtab ws) !! n) as [s|] eqn:Hs; [|discriminate H]. cbn [mbind option_bind] in H.
    destruct (s_dynamic s) as [d|] eqn:Hd; [|discriminate H]. cbn [mbind option_bind] in H. destruct (ws_link _ _ _ Hs Hd) as (m & _ & -> & _).
    destruct (dyn_index the_index (RNamed m)) as [j|] eqn:Hj; [|discriminate H]. cbn [mbind option_bind] in H. destruct (s_in_got s) as [off|] eqn:Ho; [|discriminate H]. cbn [mbind option_bind] in H. apply (inj Some) in H. subst r.
    exists s, m, j, off. done.
  Qed.
  Lemma plt_rec_inv n r : plt_rec the_index (syt_symbols (w_symtab ws)) n = Some r -> exists s m j off,
    syt_symbols (w_symtab ws) !! n = Some s /\ s_dynamic s = Some (RNamed m) /\ dyn_index the_index (RNamed m) = Some j /\ s_in_got_plt s = Some off /\ r = rela off j 7.
  Proof using O PL.
    unfold plt_rec. intros H. destruct (syt_symbols (w_symtab ws) !! n) as [s|] eqn:Hs; [|discriminate H]. cbn [mbind option_bind] in H.
    destruct (s_dynamic s) as [d|] eqn:Hd; [|discriminate H]. cbn [mbind option_bind] in H. destruct (ws_link _ _ _ Hs Hd) as (m & _ & -> & _).
    destruct (dyn_index the_index (RNamed m)) as [j|] eqn:Hj; [|discriminate H]. cbn [mbind option_bind] in H. destruct (s_in_got_plt s) as [off|] eqn:Ho; [|discriminate H]. cbn [mbind option_bind] in H. apply (inj Some) in H. subst r.
    exists s, m, j, off. done.
  Qed.
  Lemma copy_ref_inv n d : copy_ref (syt_symbols (w_symtab ws)) (w_dynsym wr) n = Some d -> exists s m ds,
    syt_symbols (w_symtab ws) !! n = Some s /\ s_dynamic s = Some (RNamed m) /\ d = RNamed m /\ syt_symbols (w_dynsym wr) !! m = Some ds /\ is_object ds = true.
  Proof using O PL.
    unfold copy_ref. intros H. destruct (syt_symbols (w_symtab ws) !! n) as [s|] eqn:Hs; [|discriminate H]. cbn [mbind option_bind] in H.
    destruct (s_dynamic s) as [d'|] eqn:Hd; [|discriminate H]. cbn [mbind option_bind] in H. destruct (ws_link _ _ _ Hs Hd) as (m & ds & -> & Hm & _).
    change (syt_get (w_dynsym wr) (RNamed m)) with (syt_symbols (w_dynsym wr) !! m) in H. rewrite Hm in H. cbn [mbind option_bind] in H. destruct (is_object ds) eqn:Eo; [|discriminate H]. apply (inj Some) in H. subst d.
    exists s, m, ds. done.
  Qed.
  Lemma ws_got_inv : got_inv (w_symtab ws) (w_got_len ws).
  Proof using O PL. exact (got_inv_scan _ _ (sz_scan _ _ _ _ _ (rn_sizing (oc_run O))) wr_no_slots). Qed.
  Lemma final_rels a b c : sh_addr (hdr_of id_got (w_sections w7)) = a -> sh_addr (hdr_of id_got_plt (w_sections w7)) = b -> sh_addr (hdr_of id_copyrel (w_sections w7)) = c ->
    w_dyn_rels w = adjust_rel a b c <$> w_dyn_rels w1 /\ w_plt_rels w = adjust_rel a b c <$> w_plt_rels w1.
  Proof using O.
    intros <- <- <-. destruct (run_fields (oc_run O)) as (_ & _ & _ & _ & _ & _ & _ & _ & E1 & E2 & E3 & E4 & _). rewrite E1, E2, <- E3, <- E4. split; reflexivity.
  Qed.
  (** Symbols of .symtab and their entries in .dynsym. *)
  Lemma linked n s m j : all_fit (w_dynsym w) -> syt_symbols (w_symtab ws) !! n = Some s -> s_dynamic s = Some (RNamed m) -> dyn_index the_index (RNamed m) = Some j ->
    exists ds, rd_sym (syt_chunk_data (o_dyn o) (w_dynsym w)) (24 * j) = Some (s_sym ds) /\ syt_symbols (w_dynsym w) !! m = Some ds /\
      same_string (st_chunk_data (w_strtab w)) (st_chunk_data (w_dynstr w)) n (st_name (s_sym ds)) /\ j < 2^32.
  Proof using O V PL NF.
    intros F Hs Hd Hj. destruct (dyn_index_final _ _ F Hj) as (ds & D1 & D2 & D3 & D4). exists ds. split; [exact D2|]. split; [exact D1|]. split; [|exact D4]. rewrite D3.
    destruct (ws_link _ _ _ Hs Hd) as (m' & _ & [= <-] & _ & N1). destruct (run_fields (oc_run O)) as (_ & -> & -> & _). destruct (ti_reach _ wr_tables) as [R1 R2].
    exact (same_name_string _ _ _ _ (st_reach_ok _ R1) (st_reach_ok _ R2) (proj1 wr_small) (proj2 wr_small) N1).
  Qed.
  Lemma index_inj m m' j : dyn_index the_index (RNamed m) = Some j -> dyn_index the_index (RNamed m') = Some j -> m = m'.
  Proof using.
    unfold dyn_index. cbn [ref_st_name]. intros H1 H2. destruct (the_index !! m) as [i|] eqn:E1; [|discriminate H1]. destruct (the_index !! m') as [i'|] eqn:E2; [|discriminate H2]. cbn in H1, H2.
    apply (inj Some) in H1, H2. assert (i = i') by (apply Nat2N.inj; congruence). subst i'. apply indices_lookup in E1 as (s1 & A1 & A2). apply indices_lookup in E2 as (s2 & B1 & B2). congruence.
  Qed.

  Context (AF : addresses_fit secs) (SF : symbols_fit w).
  Lemma copy_synth pd gd b n : own_sec pd gd 13 n b -> memsz b = cr_size (w_copyrel w1).
  Proof using O P.
    intros Ob. destruct (os_hist _ _ _ _ _ Ob) as (j & a0 & a1 & a3 & a6 & a7 & H). pose proof (n0_ge O) as Hge.
    destruct (own_sy O P _ _ _ _ _ _ _ _ _ H) as [[Hsy _] _]; [rewrite (os_id _ _ _ _ _ Ob); exact (Nat.lt_le_trans 13 14 _ (Nat.lt_succ_diag_r 13) Hge)|].
    rewrite (os_id _ _ _ _ _ Ob) in Hsy. cbn in Hsy. destruct (h_written H) as (D & _ & _ & _ & E). rewrite E. pose proof (decl_synth _ _ D) as Es. rewrite <- Es, Hsy. rewrite decide_True by reflexivity.
    destruct (run_fields (oc_run O)) as (_ & _ & _ & _ & _ & -> & _). reflexivity.
  Qed.

  Lemma fit_dyn : all_fit (w_dynsym w).
  Proof using SF. exact (proj2 SF). Qed.
  Lemma slots_ws n s : syt_symbols (w_symtab w) !! n = Some s -> exists s0, syt_symbols (w_symtab ws) !! n = Some s0 /\ sym_slots s = sym_slots s0 /\ s_dynamic s = s_dynamic s0.
  Proof using O.
    intros Hs. destruct (keeps_end O sym_slots) as [K _]. destruct (keeps_end O sym_static) as [K' _]. destruct (keeps_lookup _ _ _ _ _ K Hs) as (s0 & H0 & E). destruct (keeps_lookup _ _ _ _ _ K' Hs) as (s0' & H0' & E').
    exists s0. split; [exact H0|]. split; [exact E|]. unfold sym_static in E'. congruence.
  Qed.
  Lemma ws_final n s0 : syt_symbols (w_symtab ws) !! n = Some s0 -> exists s, syt_symbols (w_symtab w) !! n = Some s /\ sym_slots s = sym_slots s0 /\ s_dynamic s = s_dynamic s0.
  Proof using O.
    intros Hs. destruct (keeps_end O sym_slots) as [K _]. destruct (keeps_end O sym_static) as [K' _]. destruct (keeps_lookup' _ _ _ _ _ K Hs) as (s & H0 & E). destruct (keeps_lookup' _ _ _ _ _ K' Hs) as (s' & H0' & E').
    exists s. split; [exact H0|]. split; [exact E|]. unfold sym_static in E'. congruence.
  Qed.
  Lemma own_in pd gd i n b : own_sec pd gd i n b -> b ∈ secs.
  Proof using. intros Ob. exact (proj1 (os_the _ _ _ _ _ Ob)). Qed.
  Lemma own_fit pd gd i n b : own_sec pd gd i n b -> addr b + filesz b < 2^64.
  Proof using AF.
    intros Ob. pose proof (AF _ (own_in _ _ _ _ _ Ob)) as H. unfold filesz. destruct (is_nobits b); [|exact H]. eapply N.le_lt_trans; [|exact H]. rewrite N.add_0_r. apply N.le_add_r.
  Qed.
  (** Every final record is well formed. *)
  Lemma plt_rels_final pd gd g got cr ks : own_sec pd gd 6 ".got.plt" g -> own_sec pd gd 5 ".got" got -> own_sec pd gd 13 ".copyrel" cr -> filesz g = 8 * (N.of_nat (length ks) + 3) -> plt_final ks ->
    Forall rela_fits (w_plt_rels w) /\ forall k r, w_plt_rels w !! k = Some r -> exists pre n post s m j i, the_keys = pre ++ n :: post /\ k = length (omap (plt_rec the_index (syt_symbols (w_symtab ws))) pre) /\
      syt_symbols (w_symtab ws) !! n = Some s /\ s_dynamic s = Some (RNamed m) /\ dyn_index the_index (RNamed m) = Some j /\ ks !! i = Some (RNamed n) /\ r = dyn_record (addr g + 8 * (N.of_nat i + 3)) j 7.
  Proof using O V PL NF AF SF.
    intros Og Ot Oc Hsz F. destruct (final_rels _ _ _ (os_seven _ _ _ _ _ Ot) (os_seven _ _ _ _ _ Og) (os_seven _ _ _ _ _ Oc)) as [_ E]. destruct the_records as (dr & I & _ & _ & _ & _ & R5).
    assert (G : forall k r, w_plt_rels w !! k = Some r -> rela_fits r /\ exists pre n post s m j i, the_keys = pre ++ n :: post /\ k = length (omap (plt_rec the_index (syt_symbols (w_symtab ws))) pre) /\
      syt_symbols (w_symtab ws) !! n = Some s /\ s_dynamic s = Some (RNamed m) /\ dyn_index the_index (RNamed m) = Some j /\ ks !! i = Some (RNamed n) /\ r = dyn_record (addr g + 8 * (N.of_nat i + 3)) j 7).
    { intros k r Hk. rewrite E, list_lookup_fmap, R5, (dri_plt _ _ _ _ _ I) in Hk. destruct (omap _ the_keys !! k) as [r0|] eqn:Ek; [|discriminate Hk]. cbn in Hk. apply (inj Some) in Hk.
      apply omap_lookup_inv in Ek as (pre & n & post & Ekeys & Hrec & Hl). destruct (plt_rec_inv _ _ Hrec) as (s & m & j & off & Hs & Hd & Hj & Ho & ->).
      destruct (pf_only _ F _ _ Hs) as [i Hi]; [right; eauto|]. destruct (pf_named _ F _ _ Hi) as (n' & s' & _ & _ & [= <-] & Hs' & _ & Ho' & _). rewrite Hs in Hs'. injection Hs' as <-. rewrite Ho in Ho'. injection Ho' as ->.
      destruct (dyn_index_final _ _ fit_dyn Hj) as (_ & _ & _ & _ & Hjb). rewrite adjust_record in Hk by (try exact Hjb; right; right; reflexivity). change (7 =? 6) with false in Hk. change (7 =? 7) with true in Hk. cbv iota in Hk.
      replace ((N.of_nat i + 3) * 8 + addr g) with (addr g + 8 * (N.of_nat i + 3)) in Hk by (rewrite (N.mul_comm 8); apply N.add_comm).
      split.
      - rewrite <- Hk. apply record_fits; [|exact Hjb|reflexivity]. eapply N.le_lt_trans; [|exact (own_fit _ _ _ _ _ Og)]. rewrite Hsz. apply N.add_le_mono_l, N.mul_le_mono_l, N.add_le_mono_r. apply lookup_lt_Some in Hi.
        clear -Hi. lia.
      - exists pre, n, post, s, m, j, i. split_and!; try assumption; by symmetry. }
    split; [|intros k r Hk; exact (proj2 (G k r Hk))]. apply Forall_lookup. intros k r Hk. exact (proj1 (G k r Hk)).
  Qed.

  Lemma dyn_rels_shape pd gd g got cr : own_sec pd gd 6 ".got.plt" g -> own_sec pd gd 5 ".got" got -> own_sec pd gd 13 ".copyrel" cr ->
    filter (fun r => reloc_type r = 6) (w_dyn_rels w) = adjust_rel (addr got) (addr g) (addr cr) <$> omap (glob_rec the_index (syt_symbols (w_symtab ws))) the_keys /\
    filter (fun r => reloc_type r = 5) (w_dyn_rels w) = adjust_rel (addr got) (addr g) (addr cr) <$> (copy_rec the_index <$> cr_slots (w_copyrel w1)) /\
    (forall r, r ∈ w_dyn_rels w -> reloc_type r = 5 \/ reloc_type r = 6).
  Proof using O V PL NF.
    intros Og Ot Oc. destruct (final_rels _ _ _ (os_seven _ _ _ _ _ Ot) (os_seven _ _ _ _ _ Og) (os_seven _ _ _ _ _ Oc)) as [E _]. destruct the_records as (dr & I & _ & _ & R3 & R4 & _).
    rewrite E, !filter_adj, R3, R4. split; [by rewrite (dri_glob _ _ _ _ _ I)|]. split; [by rewrite (dri_copy _ _ _ _ _ I)|].
    intros r Hr. apply elem_of_list_fmap in Hr as (r0 & -> & Hr0). assert (Et : reloc_type (adjust_rel (addr got) (addr g) (addr cr) r0) = reloc_type r0) by (unfold adjust_rel; repeat (destruct (_ =? _)); reflexivity).
    rewrite Et. exact (dri_types _ _ _ _ _ I _ Hr0).
  Qed.
  (** A GLOB_DAT record. *)
  Lemma glob_final pd gd g got cr n r : own_sec pd gd 6 ".got.plt" g -> own_sec pd gd 5 ".got" got -> own_sec pd gd 13 ".copyrel" cr ->
    glob_rec the_index (syt_symbols (w_symtab ws)) n = Some r -> exists s m j off,
    syt_symbols (w_symtab ws) !! n = Some s /\ s_dynamic s = Some (RNamed m) /\ dyn_index the_index (RNamed m) = Some j /\ s_in_got s = Some off /\ j < 2^32 /\ off + 8 <= filesz got /\
    adjust_rel (addr got) (addr g) (addr cr) r = dyn_record (addr got + off) j 6.
  Proof using O V PL NF SF.
    intros Og Ot Oc Hrec. destruct (glob_rec_inv _ _ Hrec) as (s & m & j & off & Hs & Hd & Hj & Ho & ->). destruct (dyn_index_final _ _ fit_dyn Hj) as (_ & _ & _ & _ & Hjb).
    exists s, m, j, off. split; [exact Hs|]. split; [exact Hd|]. split; [exact Hj|]. split; [exact Ho|]. split; [exact Hjb|]. split.
    - rewrite (os_size _ _ _ _ _ Ot), (os_bytes _ _ _ _ _ Ot). cbn [fixed_bytes]. rewrite blen_zeros. destruct ws_got_inv as [G1 _]. exact (proj2 (G1 (RNamed n) s off Hs Ho)).
    - rewrite adjust_record by (try exact Hjb; right; left; reflexivity). change (6 =? 6) with true. cbv iota. by rewrite N.add_comm.
  Qed.
  (** A COPY record. *)
  Lemma copy_final pd gd g got cr i x : own_sec pd gd 6 ".got.plt" g -> own_sec pd gd 5 ".got" got -> own_sec pd gd 13 ".copyrel" cr ->
    cr_slots (w_copyrel w1) !! i = Some x -> exists m j off ds, x = (RNamed m, off) /\ dyn_index the_index (RNamed m) = Some j /\ j < 2^32 /\
      syt_symbols (w_dynsym w) !! m = Some ds /\ rd_sym (syt_chunk_data (o_dyn o) (w_dynsym w)) (24 * j) = Some (s_sym ds) /\ typ (s_sym ds) = 1 /\ st_value (s_sym ds) = addr cr + off /\
      off + st_size (s_sym ds) <= memsz cr /\ area (w_dynsym wr) (RNamed m) = st_size (s_sym ds) /\
      adjust_rel (addr got) (addr g) (addr cr) (copy_rec the_index x) = dyn_record (addr cr + off) j 5.
  Proof using O V P PL NF SF.
    intros Og Ot Oc Hi. destruct x as [d off]. destruct the_records as (dr & I & _ & R2 & R3 & _).
    assert (Hin : d ∈ (cr_slots (dr_copyrel dr)).*1) by (rewrite <- R3; apply elem_of_list_fmap; exists (d, off); split; [reflexivity|eapply elem_of_list_lookup_2; exact Hi]).
    destruct (dri_ix _ _ _ _ _ I _ Hin) as [j Hj]. pose proof Hin as Hin'. rewrite (dri_refs _ _ _ _ _ I) in Hin'. apply elem_of_list_omap in Hin' as (n & _ & Hc).
    destruct (copy_ref_inv _ _ Hc) as (s & m & ds0 & Hs & Hd & -> & Hm & Hob). destruct (dyn_index_final _ _ fit_dyn Hj) as (ds & D1 & D2 & D3 & D4).
    destruct (keeps_end O sym_static) as [_ K]. destruct (keeps_lookup _ _ _ _ _ K D1) as (ds0' & Hm' & E). rewrite Hm in Hm'. injection Hm' as <-. unfold sym_static in E.
    assert (Esz : st_size (s_sym ds) = st_size (s_sym ds0)) by congruence. assert (Einf : st_info (s_sym ds) = st_info (s_sym ds0)) by congruence.
    assert (Har : area (w_dynsym wr) (RNamed m) = st_size (s_sym ds)) by (unfold area; cbn; rewrite Hm; cbn; by rewrite Esz).
    exists m, j, off, ds. split; [reflexivity|]. split; [exact Hj|]. split; [exact D4|]. split; [exact D1|]. split; [exact D2|]. split; [|split; [|split; [|split; [exact Har|]]]].
    - unfold is_object in Hob. apply N.eqb_eq in Hob. rewrite st_type_typ in Hob. unfold typ in *. rewrite Einf. exact Hob.
    - assert (Hv : syt_symbols (w_dynsym w1) !! m = Some (valued off ds0)).
      { pose proof (dri_value _ _ _ _ _ I (RNamed m) off) as Hv. rewrite <- R3 in Hv. specialize (Hv (elem_of_list_lookup_2 _ _ _ Hi)). cbn in Hv. rewrite <- R2, Hm in Hv. exact Hv. }
      destruct (run_fields (oc_run O)) as (_ & _ & _ & _ & _ & _ & _ & Ed & _). rewrite Ed in D1. destruct (keeps_five O) as [_ E5].
      pose proof (rn_special (oc_run O)) as Hsp. unfold handle_special_symbols in Hsp. apply bind_Ok in Hsp as ([t secs6] & _ & [= E6]).
      assert (Eg : w_dynsym (set_got_symbol w5) = w_dynsym w5) by (unfold set_got_symbol; destruct (st_get _ _); reflexivity).
      assert (E6' : w_dynsym w6 = syt_update_object_symbols (w_dynsym w1) (sh_addr (hdr_of id_copyrel secs6)) (match get_section id_copyrel secs6 with Some s => sc_index s | None => 0 end)) by (rewrite <- E6, <- E5, <- Eg; reflexivity).
      assert (Es6 : w_sections w6 = secs6) by (rewrite <- E6; reflexivity). rewrite <- Es6 in E6'. rewrite (os_six _ _ _ _ _ Oc : sh_addr (hdr_of id_copyrel (w_sections w6)) = addr cr) in E6'.
      rewrite E6' in D1. unfold syt_update_object_symbols in D1. change (syt_symbols (w_dynsym w1 <| syt_symbols := ?f |>)) with f in D1. rewrite lookup_fmap, Hv in D1. cbn [fmap option_fmap option_map] in D1. apply (inj Some) in D1.
      assert (Hob' : is_object (valued off ds0) = true) by exact Hob. rewrite Hob' in D1. rewrite <- D1. cbn. apply N.add_comm.
    - rewrite (copy_synth _ _ _ _ Oc), <- Har, R3. rewrite R3 in Hi. exact (dri_in _ _ _ _ _ I _ _ _ Hi).
    - unfold copy_rec. cbn [fst snd]. rewrite Hj. cbn [default]. change (default 0 (Some j)) with j. rewrite adjust_record by (try exact D4; left; reflexivity). change (5 =? 6) with false. change (5 =? 7) with false. cbv iota. by rewrite N.add_comm.
  Qed.
  Lemma dyn_rels_fit pd gd g got cr : own_sec pd gd 6 ".got.plt" g -> own_sec pd gd 5 ".got" got -> own_sec pd gd 13 ".copyrel" cr -> Forall rela_fits (w_dyn_rels w).
  Proof using O V P PL NF AF SF.
    intros Og Ot Oc. destruct (dyn_rels_shape _ _ _ _ _ Og Ot Oc) as (S6 & S5 & St). apply List.Forall_forall. intros r Hr. apply elem_of_list_In in Hr. destruct (St _ Hr) as [E|E].
    - assert (Hf : r ∈ filter (fun r => reloc_type r = 5) (w_dyn_rels w)) by (apply elem_of_list_filter; done). rewrite S5 in Hf. apply elem_of_list_fmap in Hf as (r1 & -> & Hf). apply elem_of_list_fmap in Hf as (x & -> & Hx).
      apply elem_of_list_lookup in Hx as [i Hi]. destruct (copy_final _ _ _ _ _ _ _ Og Ot Oc Hi) as (m & j & off & ds & _ & _ & Hj & _ & _ & _ & _ & Hb & _ & ->). apply record_fits; [|exact Hj|reflexivity].
      eapply N.le_lt_trans; [|exact (AF _ (own_in _ _ _ _ _ Oc))]. apply N.add_le_mono_l. eapply N.le_trans; [|exact Hb]. apply N.le_add_r.
    - assert (Hf : r ∈ filter (fun r => reloc_type r = 6) (w_dyn_rels w)) by (apply elem_of_list_filter; done). rewrite S6 in Hf. apply elem_of_list_fmap in Hf as (r1 & -> & Hf). apply elem_of_list_omap in Hf as (n & _ & Hn).
      destruct (glob_final _ _ _ _ _ _ _ Og Ot Oc Hn) as (s & m & j & off & _ & _ & _ & _ & Hj & Hb & ->). apply record_fits; [|exact Hj|reflexivity].
      eapply N.le_lt_trans; [|exact (own_fit _ _ _ _ _ Ot)]. apply N.add_le_mono_l. eapply N.le_trans; [|exact Hb]. apply N.le_add_r.
  Qed.
End bind.

(** * Finished links *)
Lemma rd_relas_ser rs : Forall rela_fits rs -> rd_relas (rs ≫= ser_rela) = Some rs.
Proof.
  intros F. unfold rd_relas. assert (E : length (rs ≫= ser_rela) = (length rs * 24)%nat) by (rewrite (bind_length ser_rela rs 24) by apply ser_rela_length; lia).
  rewrite E, Nat.div_mul by lia. by apply rd_rela_table.
Qed.

Section good.
  Context {wd lo l fuel w secs} (G : good_link wd lo l fuel w secs).

  Lemma good_plt : exists p g c, the_sec w secs ".plt" p /\ the_sec w secs ".got.plt" g /\ filesz p = 16 * (c + 1) /\ filesz g = 8 * (c + 3) /\ head_for p g /\
    (forall i, i < c -> exists n s k, syt_symbols (w_symtab w) !! n = Some s /\ s_in_plt s = Some i /\ s_in_got_plt s = Some (8 * (i + 3)) /\ k < c /\ stub_for p g i k) /\
    (forall n s, syt_symbols (w_symtab w) !! n = Some s -> is_Some (s_in_plt s) \/ is_Some (s_in_got_plt s) -> exists i, i < c /\ s_in_plt s = Some i /\ s_in_got_plt s = Some (8 * (i + 3)) /\
       forall n' s', syt_symbols (w_symtab w) !! n' = Some s' -> s_in_plt s' = Some i -> n' = n).
  Proof using G.
    destruct (links_outcome _ _ _ _ _ _ (gl_links _ _ _ _ _ _ G)) as (w0 & wr & ws & w1 & extra & null & rest & rest' & st & w3 & w4 & w5 & w6 & w7 & null' & out & O).
    pose proof (proj2 (gl_links _ _ _ _ _ _ G)) as Fin. destruct G as [_ V P PL NF AF SF].
    destruct (own_all O Fin V P NF) as (pd & gd & Hpp & Own). destruct (Own 7%nat ".plt") as [p Op]; [lia|destruct (opt_hash_style _); reflexivity|]. destruct (Own 6%nat ".got.plt") as [g Og]; [lia|destruct (opt_hash_style _); reflexivity|].
    destruct (plt_slots O V PL NF) as [ks F]. destruct (plt_bytes O V P PL NF _ _ _ _ _ Hpp Op Og F) as (S1 & S2 & Hh & Hst).
    exists p, g, (N.of_nat (length ks)). split; [exact (os_the _ _ _ _ _ Op)|]. split; [exact (os_the _ _ _ _ _ Og)|]. split; [exact S1|]. split; [exact S2|]. split; [exact Hh|].
    assert (Hslot : forall i n, ks !! i = Some (RNamed n) -> exists s, syt_symbols (w_symtab w) !! n = Some s /\ s_in_plt s = Some (N.of_nat i) /\ s_in_got_plt s = Some (8 * (N.of_nat i + 3))).
    { intros i n Hi. destruct (pf_named _ F _ _ Hi) as (n' & s & d & j & [= <-] & Hs & Q1 & Q2 & _). destruct (ws_final O _ _ Hs) as (s' & Hs' & E & _). exists s'. unfold sym_slots in E. split; [exact Hs'|]. rewrite N.mul_comm. split; congruence. }
    split.
    - intros i Hi. destruct (lookup_lt_is_Some_2 ks (N.to_nat i)) as [r Hr]; [lia|]. destruct (pf_named _ F _ _ Hr) as (n & _ & _ & _ & -> & _). destruct (Hslot _ _ Hr) as (s & Hs & Q1 & Q2). rewrite N2Nat.id in *.
      destruct (Hst _ _ Hr) as (pre & post & j & d & s0 & Ek & _ & _ & _ & Hrel & Hstub & Hlt). rewrite N2Nat.id in Hstub. exists n, s, (N.of_nat (length (omap (plt_rec (the_index (lo := lo) (wr := wr)) (syt_symbols (w_symtab ws))) pre))).
      split; [exact Hs|]. split; [exact Q1|]. split; [exact Q2|]. split; [|exact Hstub].
      lia.
    - intros n s Hs Hx. destruct (slots_ws O _ _ Hs) as (s0 & Hs0 & E & _). unfold sym_slots in E. assert (E1 : s_in_plt s = s_in_plt s0) by congruence. assert (E2 : s_in_got_plt s = s_in_got_plt s0) by congruence. rewrite E1, E2 in *.
      destruct (pf_only _ F _ _ Hs0) as [i Hi]; [destruct Hx as [[? ?]|[? ?]]; eauto|]. destruct (Hslot _ _ Hi) as (s' & Hs' & Q1 & Q2). rewrite Hs in Hs'. injection Hs' as <-. rewrite <- E1, <- E2. exists (N.of_nat i).
      split; [apply lookup_lt_Some in Hi; lia|]. split; [exact Q1|]. split; [exact Q2|]. intros n' s' Hs' Hp'. destruct (slots_ws O _ _ Hs') as (s0' & Hs0' & E' & _). unfold sym_slots in E'.
      destruct (pf_only _ F _ _ Hs0') as [i' Hi']; [left; exists (N.of_nat i); congruence|]. destruct (Hslot _ _ Hi') as (s2 & Hs2 & P1 & _). rewrite Hs' in Hs2. injection Hs2 as <-. assert (i' = i) by (apply Nat2N.inj; congruence). subst i'. congruence.
  Qed.

  (** The records of .rela.plt. *)
  Lemma good_jump_slots : exists p g rp ss ds sd recs, the_sec w secs ".plt" p /\ the_sec w secs ".got.plt" g /\ the_sec w secs ".rela.plt" rp /\ the_sec w secs ".strtab" ss /\ the_sec w secs ".dynsym" ds /\ the_sec w secs ".dynstr" sd /\
    rd_relas (contents rp) = Some recs /\ filesz rp = 24 * blen recs /\ filesz p = 16 * (blen recs + 1) /\
    (forall n s i, syt_symbols (w_symtab w) !! n = Some s -> s_in_plt s = Some i -> exists k j, stub_for p g i k /\ recs !! N.to_nat k = Some (dyn_record (addr g + 8 * (i + 3)) j 7) /\
       rd_rela (contents rp) (24 * k) = Some (dyn_record (addr g + 8 * (i + 3)) j 7) /\ dyn_entry ss ds sd n j) /\
    (forall k r, recs !! k = Some r -> exists n s i, syt_symbols (w_symtab w) !! n = Some s /\ s_in_plt s = Some i /\ stub_for p g i (N.of_nat k)).
  Proof using G.
    destruct (links_outcome _ _ _ _ _ _ (gl_links _ _ _ _ _ _ G)) as (w0 & wr & ws & w1 & extra & null & rest & rest' & st & w3 & w4 & w5 & w6 & w7 & null' & out & O).
    pose proof (proj2 (gl_links _ _ _ _ _ _ G)) as Fin. destruct G as [_ V P PL NF AF SF].
    destruct (own_all O Fin V P NF) as (pd & gd & Hpp & Own).
    assert (Own' : forall i n, (0 < i < 14)%nat -> (fst ∘ fst ∘ fst) <$> own_rows HSysv !! i = Some n -> exists b, own_sec (lo := lo) (l := l) (w := w) (secs := secs) (wr := wr) (ws := ws) (w1 := w1) (extra := extra) (rest' := rest') (w4 := w4) (w5 := w5) (w6 := w6) (w7 := w7) (out := out) pd gd i n b).
    { intros i n Hi Hn. apply Own; [exact Hi|]. rewrite <- Hn. do 14 (destruct i as [|i]; [destruct (opt_hash_style _); reflexivity|]). lia. }
    destruct (Own' 7%nat ".plt") as [p Op]; [lia|reflexivity|].
    destruct (Own' 6%nat ".got.plt") as [g Og]; [lia|reflexivity|].
    destruct (Own' 12%nat ".rela.plt") as [rp Orp]; [lia|reflexivity|].
    destruct (Own' 2%nat ".strtab") as [ss Oss]; [lia|reflexivity|].
    destruct (Own' 9%nat ".dynsym") as [ds Ods]; [lia|reflexivity|].
    destruct (Own' 3%nat ".dynstr") as [sd Osd]; [lia|reflexivity|].
    destruct (Own' 5%nat ".got") as [got Ogot]; [lia|reflexivity|].
    destruct (Own' 13%nat ".copyrel") as [cr Ocr]; [lia|reflexivity|].
    destruct (plt_slots O V PL NF) as [ks F]. destruct (plt_bytes O V P PL NF _ _ _ _ _ Hpp Op Og F) as (S1 & S2 & Hh & Hst).
    destruct (plt_rels_final O V PL NF AF SF _ _ _ _ _ _ Og Ogot Ocr S2 F) as [Fit Hrec].
    assert (Brp : contents rp = w_plt_rels w ≫= ser_rela) by exact (os_bytes _ _ _ _ _ Orp).
    assert (Hlen : length (w_plt_rels w) = length ks).
    { destruct (final_rels O _ _ _ (os_seven _ _ _ _ _ Ogot) (os_seven _ _ _ _ _ Og) (os_seven _ _ _ _ _ Ocr)) as [_ E]. rewrite E, fmap_length. destruct (the_records O V PL NF) as (dr & I & _ & _ & _ & _ & ->). rewrite (dri_plt _ _ _ _ _ I). exact (plt_count V _ F). }
    exists p, g, rp, ss, ds, sd, (w_plt_rels w). split; [exact (os_the _ _ _ _ _ Op)|]. split; [exact (os_the _ _ _ _ _ Og)|]. split; [exact (os_the _ _ _ _ _ Orp)|]. split; [exact (os_the _ _ _ _ _ Oss)|]. split; [exact (os_the _ _ _ _ _ Ods)|]. split; [exact (os_the _ _ _ _ _ Osd)|].
    split; [rewrite Brp; by apply rd_relas_ser|]. split; [rewrite (os_size _ _ _ _ _ Orp), Brp; apply blen_relas|]. split; [rewrite S1; unfold blen; by rewrite Hlen|]. split.
    - intros n s i Hs Hp. destruct (slots_ws O _ _ Hs) as (s0 & Hs0 & E & _). unfold sym_slots in E. assert (E1 : s_in_plt s0 = Some i) by congruence.
      destruct (pf_only _ F _ _ Hs0) as [i' Hi]; [left; eauto|]. destruct (pf_named _ F _ _ Hi) as (n' & s0' & _ & _ & [= <-] & Hs0' & Q1 & _). rewrite Hs0 in Hs0'. injection Hs0' as <-. rewrite E1 in Q1. injection Q1 as ->.
      destruct (Hst _ _ Hi) as (pre & post & j & d & s1 & Ek & Hs1 & Hd & Hj & Hrel & Hstub & Hlt). rewrite Hs0 in Hs1. injection Hs1 as <-. set (k := length (omap (plt_rec (the_index (lo := lo) (wr := wr)) (syt_symbols (w_symtab ws))) pre)) in *. exists (N.of_nat k), j. split; [exact Hstub|].
      destruct (lookup_lt_is_Some_2 (w_plt_rels w) k) as [r Hr]; [by rewrite Hlen|]. destruct (Hrec _ _ Hr) as (pre2 & n2 & post2 & s2 & m2 & j2 & i2 & Ek2 & Hk2 & Hs2 & Hd2 & Hj2 & Hi2 & ->).
      assert (Hn2 : n2 = n).
      { destruct (ws_link O PL _ _ _ Hs0 Hd) as (m & _ & -> & _). destruct (final_rels O _ _ _ (os_seven _ _ _ _ _ Ogot) (os_seven _ _ _ _ _ Og) (os_seven _ _ _ _ _ Ocr)) as [_ E2]. rewrite E2, list_lookup_fmap, Hrel in Hr. cbn in Hr. apply (inj Some) in Hr.
        destruct (dyn_index_final O V PL _ _ (proj2 SF) Hj) as (_ & _ & _ & _ & Hjb). rewrite adjust_record in Hr by (try exact Hjb; right; right; reflexivity). change (7 =? 6) with false in Hr. change (7 =? 7) with true in Hr. cbv iota in Hr.
        unfold dyn_record in Hr. injection Hr as Ea _. assert (i2 = i') by lia. subst i2. congruence. }
      subst n2. rewrite Hs0 in Hs2. injection Hs2 as <-. rewrite Hd in Hd2. injection Hd2 as ->. rewrite Hj in Hj2. injection Hj2 as <-. assert (i2 = i') by (eapply NoDup_lookup; [exact (pf_nodup _ F)|exact Hi2|exact Hi]). subst i2.
      rewrite Nat2N.id. split; [exact Hr|]. split.
      + rewrite Brp. apply rd_rela_nth; [exact Hr|]. rewrite Forall_lookup in Fit. exact (Fit _ _ Hr).
      + destruct (linked O V PL NF _ _ _ _ (proj2 SF) Hs0 Hd Hj) as (dd & L1 & _ & L2 & _). exists (s_sym dd). rewrite (os_bytes _ _ _ _ _ Ods), (os_bytes _ _ _ _ _ Oss), (os_bytes _ _ _ _ _ Osd). split; [exact L1|exact L2].
    - intros k r Hr. destruct (Hrec _ _ Hr) as (pre2 & n2 & post2 & s2 & m2 & j2 & i2 & Ek2 & Hk2 & Hs2 & Hd2 & Hj2 & Hi2 & ->).
      destruct (Hst _ _ Hi2) as (pre & post & j & d & s1 & Ek & Hs1 & Hd & Hj & Hrel & Hstub & Hlt). pose proof (keys_nodup (ws := ws) V) as ND. rewrite Ek2 in ND. rewrite Ek in Ek2.
      destruct (split_unique _ _ _ _ _ ND (eq_sym Ek2)) as [-> _]. destruct (ws_final O _ _ Hs2) as (s & Hs & E & _). unfold sym_slots in E.
      destruct (pf_named _ F _ _ Hi2) as (n' & s0' & _ & _ & [= <-] & Hs0' & Q1 & _). rewrite Hs2 in Hs0'. injection Hs0' as <-. exists n2, s, (N.of_nat i2). split; [exact Hs|]. split; [congruence|]. rewrite Hk2. exact Hstub.
  Qed.

  (** The records of .rela.dyn. *)
  Lemma good_glob_dat : exists got rd ss ds sd recs, the_sec w secs ".got" got /\ the_sec w secs ".rela.dyn" rd /\ the_sec w secs ".strtab" ss /\ the_sec w secs ".dynsym" ds /\ the_sec w secs ".dynstr" sd /\
    rd_relas (contents rd) = Some recs /\ filesz rd = 24 * blen recs /\
    (forall n s off, syt_symbols (w_symtab w) !! n = Some s -> is_Some (s_dynamic s) -> s_in_got s = Some off -> off + 8 <= filesz got /\ exists j, dyn_entry ss ds sd n j /\
       filter (fun r => reloc_type r = 6 /\ r_offset r = addr got + off) recs = [dyn_record (addr got + off) j 6]) /\
    (forall r, r ∈ recs -> reloc_type r = 5 \/ reloc_type r = 6 /\ exists n s off, syt_symbols (w_symtab w) !! n = Some s /\ is_Some (s_dynamic s) /\ s_in_got s = Some off /\ r_offset r = addr got + off).
  Proof using G.
    destruct (links_outcome _ _ _ _ _ _ (gl_links _ _ _ _ _ _ G)) as (w0 & wr & ws & w1 & extra & null & rest & rest' & st & w3 & w4 & w5 & w6 & w7 & null' & out & O).
    pose proof (proj2 (gl_links _ _ _ _ _ _ G)) as Fin. destruct G as [_ V P PL NF AF SF].
    destruct (own_all O Fin V P NF) as (pd & gd & Hpp & Own).
    assert (Own' : forall i n, (0 < i < 14)%nat -> (fst ∘ fst ∘ fst) <$> own_rows HSysv !! i = Some n -> exists b, own_sec (lo := lo) (l := l) (w := w) (secs := secs) (wr := wr) (ws := ws) (w1 := w1) (extra := extra) (rest' := rest') (w4 := w4) (w5 := w5) (w6 := w6) (w7 := w7) (out := out) pd gd i n b).
    { intros i n Hi Hn. apply Own; [exact Hi|]. rewrite <- Hn. do 14 (destruct i as [|i]; [destruct (opt_hash_style _); reflexivity|]). lia. }
    destruct (Own' 6%nat ".got.plt") as [g Og]; [lia|reflexivity|].
    destruct (Own' 11%nat ".rela.dyn") as [rd Ord]; [lia|reflexivity|].
    destruct (Own' 2%nat ".strtab") as [ss Oss]; [lia|reflexivity|].
    destruct (Own' 9%nat ".dynsym") as [ds Ods]; [lia|reflexivity|].
    destruct (Own' 3%nat ".dynstr") as [sd Osd]; [lia|reflexivity|].
    destruct (Own' 5%nat ".got") as [got Ogot]; [lia|reflexivity|].
    destruct (Own' 13%nat ".copyrel") as [cr Ocr]; [lia|reflexivity|].
    assert (Brd : contents rd = w_dyn_rels w ≫= ser_rela) by exact (os_bytes _ _ _ _ _ Ord).
    pose proof (dyn_rels_fit O V P PL NF AF SF _ _ _ _ _ Og Ogot Ocr) as Fit. destruct (dyn_rels_shape O V PL NF _ _ _ _ _ Og Ogot Ocr) as (F6 & F5 & Ft).
    exists got, rd, ss, ds, sd, (w_dyn_rels w). split; [exact (os_the _ _ _ _ _ Ogot)|]. split; [exact (os_the _ _ _ _ _ Ord)|]. split; [exact (os_the _ _ _ _ _ Oss)|]. split; [exact (os_the _ _ _ _ _ Ods)|]. split; [exact (os_the _ _ _ _ _ Osd)|].
    split; [rewrite Brd; by apply rd_relas_ser|]. split; [rewrite (os_size _ _ _ _ _ Ord), Brd; apply blen_relas|]. split.
    - intros n s off Hs [d Hd] Ho. destruct (slots_ws O _ _ Hs) as (s0 & Hs0 & E & Ed). unfold sym_slots in E. assert (E1 : s_in_got s0 = Some off) by congruence. rewrite Ed in Hd.
      destruct (ws_link O PL _ _ _ Hs0 Hd) as (m & _ & -> & _). destruct (the_records O V PL NF) as (dr & I & _).
      assert (Hk : n ∈ the_keys (lo := lo) (ws := ws)) by (apply (elem_keys V); eauto). destruct (dri_found _ _ _ _ _ I _ _ _ Hk Hs0 Hd) as [[j Hj] _].
      assert (Hg : glob_rec (the_index (lo := lo) (wr := wr)) (syt_symbols (w_symtab ws)) n = Some (rela off j 6)).
      { unfold glob_rec. rewrite Hs0. cbn [mbind option_bind]. rewrite Hd. cbn [mbind option_bind]. rewrite Hj. cbn [mbind option_bind]. rewrite E1. reflexivity. }
      destruct (glob_final O V PL NF SF _ _ _ _ _ _ _ Og Ogot Ocr Hg) as (s' & m' & j' & off' & Hs' & Hd' & Hj' & Ho' & Hjb & Hb & Eadj).
      rewrite Hs0 in Hs'. injection Hs' as <-. rewrite Hd in Hd'. injection Hd' as <-. rewrite Hj in Hj'. injection Hj' as <-. rewrite E1 in Ho'. injection Ho' as <-.
      split; [exact Hb|]. exists j. split.
      { destruct (linked O V PL NF _ _ _ _ (proj2 SF) Hs0 Hd Hj) as (dd & L1 & _ & L2 & _). exists (s_sym dd). rewrite (os_bytes _ _ _ _ _ Ods), (os_bytes _ _ _ _ _ Oss), (os_bytes _ _ _ _ _ Osd). split; [exact L1|exact L2]. }
      rewrite (filter_both (fun r => reloc_type r = 6) (fun r => r_offset r = addr got + off)), F6. apply elem_of_list_split in Hk as (pre & post & Ek).
      apply (filter_at _ _ (length (omap (glob_rec (the_index (lo := lo) (wr := wr)) (syt_symbols (w_symtab ws))) pre))).
      + rewrite list_lookup_fmap, Ek, (omap_lookup _ _ _ _ _ Hg). cbn [fmap option_fmap option_map]. by rewrite Eadj.
      + intros i' y Hy. rewrite list_lookup_fmap in Hy. destruct (omap _ _ !! i') as [y0|] eqn:Ey; [|discriminate Hy]. cbn in Hy. apply (inj Some) in Hy. subst y.
        apply omap_lookup_inv in Ey as (pre' & n' & post' & Ek' & Hn' & <-). destruct (glob_final O V PL NF SF _ _ _ _ _ _ _ Og Ogot Ocr Hn') as (s2 & m2 & j2 & off2 & Hs2 & Hd2 & Hj2 & Ho2 & _ & _ & ->). unfold dyn_record. cbn [r_offset].
        pose proof (keys_nodup (ws := ws) V) as ND. split.
        * intros Eo. assert (off2 = off) by lia. subst off2. destruct (ws_got_inv O PL) as [_ G2]. pose proof (G2 (RNamed n') s2 (RNamed n) s0 off Hs2 Ho2 Hs0 E1) as En. injection En as ->.
          rewrite Ek' in Ek. rewrite Ek' in ND. destruct (split_unique _ _ _ _ _ ND Ek) as [-> _]. reflexivity.
        * intros El. assert (n' = n).
          { rewrite Ek' in Ek. pose proof (omap_lookup (glob_rec (the_index (lo := lo) (wr := wr)) (syt_symbols (w_symtab ws))) pre' n' post' _ Hn') as L1. rewrite Ek, El in L1. rewrite (omap_lookup _ _ _ _ _ Hg) in L1. injection L1 as L1.
            destruct (glob_rec_inv O PL _ _ Hn') as (s3 & m3 & j3 & off3 & Hs3 & Hd3 & Hj3 & Ho3 & E3). rewrite <- L1 in E3. unfold rela in E3. injection E3 as E3 _. subst off3.
            destruct (ws_got_inv O PL) as [_ G2]. pose proof (G2 (RNamed n') s3 (RNamed n) s0 off Hs3 Ho3 Hs0 E1) as En. by injection En. }
          subst n'. rewrite Hs0 in Hs2. injection Hs2 as <-. rewrite E1 in Ho2. injection Ho2 as ->. reflexivity.
    - intros r Hr. destruct (Ft _ Hr) as [?|E6]; [by left|]. right. split; [exact E6|]. assert (Hf : r ∈ filter (fun r => reloc_type r = 6) (w_dyn_rels w)) by (apply elem_of_list_filter; done).
      rewrite F6 in Hf. apply elem_of_list_fmap in Hf as (r0 & -> & Hf). apply elem_of_list_omap in Hf as (n & _ & Hn). destruct (glob_final O V PL NF SF _ _ _ _ _ _ _ Og Ogot Ocr Hn) as (s & m & j & off & Hs & Hd & _ & Ho & _ & _ & ->).
      destruct (ws_final O _ _ Hs) as (s' & Hs' & E & Ed). unfold sym_slots in E. exists n, s', off. split; [exact Hs'|]. split; [rewrite Ed, Hd; eauto|]. split; [congruence|reflexivity].
  Qed.

  (** Copied objects. *)
  Lemma good_copy : exists cr rd ds recs, the_sec w secs ".copyrel" cr /\ the_sec w secs ".rela.dyn" rd /\ the_sec w secs ".dynsym" ds /\ rd_relas (contents rd) = Some recs /\
    (forall j d, rd_sym (contents ds) (24 * j) = Some d -> typ d = 1 -> filter (fun r => reloc_type r = 5 /\ reloc_sym r = j) recs = [dyn_record (st_value d) j 5] /\
       addr cr <= st_value d /\ st_value d + st_size d <= addr cr + memsz cr) /\
    (forall j d j' d', rd_sym (contents ds) (24 * j) = Some d -> typ d = 1 -> rd_sym (contents ds) (24 * j') = Some d' -> typ d' = 1 -> j <> j' ->
       st_value d + st_size d <= st_value d' \/ st_value d' + st_size d' <= st_value d) /\
    (forall r, r ∈ recs -> reloc_type r = 6 \/ reloc_type r = 5 /\ exists d, rd_sym (contents ds) (24 * reloc_sym r) = Some d /\ typ d = 1).
  Proof using G.
    destruct (links_outcome _ _ _ _ _ _ (gl_links _ _ _ _ _ _ G)) as (w0 & wr & ws & w1 & extra & null & rest & rest' & st & w3 & w4 & w5 & w6 & w7 & null' & out & O).
    pose proof (proj2 (gl_links _ _ _ _ _ _ G)) as Fin. destruct G as [_ V P PL NF AF SF].
    destruct (own_all O Fin V P NF) as (pd & gd & Hpp & Own).
    assert (Own' : forall i n, (0 < i < 14)%nat -> (fst ∘ fst ∘ fst) <$> own_rows HSysv !! i = Some n -> exists b, own_sec (lo := lo) (l := l) (w := w) (secs := secs) (wr := wr) (ws := ws) (w1 := w1) (extra := extra) (rest' := rest') (w4 := w4) (w5 := w5) (w6 := w6) (w7 := w7) (out := out) pd gd i n b).
    { intros i n Hi Hn. apply Own; [exact Hi|]. rewrite <- Hn. do 14 (destruct i as [|i]; [destruct (opt_hash_style _); reflexivity|]). lia. }
    destruct (Own' 6%nat ".got.plt") as [g Og]; [lia|reflexivity|].
    destruct (Own' 11%nat ".rela.dyn") as [rd Ord]; [lia|reflexivity|].
    destruct (Own' 9%nat ".dynsym") as [ds Ods]; [lia|reflexivity|].
    destruct (Own' 5%nat ".got") as [got Ogot]; [lia|reflexivity|].
    destruct (Own' 13%nat ".copyrel") as [cr Ocr]; [lia|reflexivity|].
    assert (Brd : contents rd = w_dyn_rels w ≫= ser_rela) by exact (os_bytes _ _ _ _ _ Ord). assert (Bds : contents ds = syt_chunk_data (o_dyn (lo_writer lo)) (w_dynsym w)) by exact (os_bytes _ _ _ _ _ Ods).
    pose proof (dyn_rels_fit O V P PL NF AF SF _ _ _ _ _ Og Ogot Ocr) as Fit. destruct (dyn_rels_shape O V PL NF _ _ _ _ _ Og Ogot Ocr) as (F6 & F5 & Ft).
    exists cr, rd, ds, (w_dyn_rels w). split; [exact (os_the _ _ _ _ _ Ocr)|]. split; [exact (os_the _ _ _ _ _ Ord)|]. split; [exact (os_the _ _ _ _ _ Ods)|]. split; [rewrite Brd; by apply rd_relas_ser|].
    destruct (the_records O V PL NF) as (dr & I & _ & _ & R3 & _).
    assert (Hobj : forall j d, rd_sym (contents ds) (24 * j) = Some d -> typ d = 1 -> exists i m off, cr_slots (w_copyrel w1) !! i = Some (RNamed m, off) /\ dyn_index (the_index (lo := lo) (wr := wr)) (RNamed m) = Some j /\
      st_value d = addr cr + off /\ off + st_size d <= memsz cr /\ area (w_dynsym wr) (RNamed m) = st_size d).
    { intros j d Hj Ht. rewrite Bds in Hj. rewrite <- (N2Nat.id j) in Hj. destruct (emitted_only _ _ _ _ (vo_dyn _ V) (dyn_keyed O PL) (proj2 SF) Hj) as (sd & Hsd & <-).
      rewrite (rd_chunk_sym _ _ _ (vo_dyn _ V) (proj2 SF)) in Hj. destruct (keeps_end O sym_static) as [_ K]. destruct (keeps_lookup _ _ _ _ _ K Hsd) as (s0 & Hs0 & E). unfold sym_static in E.
      assert (Einf : st_info (s_sym sd) = st_info (s_sym s0)) by congruence. destruct (ti_back _ (wr_tables O PL) (wr_small O NF) _ _ Hs0) as [->|(n & s & Hs & Hd)].
      { exfalso. unfold typ in Ht. rewrite Einf in Ht. discriminate Ht. }
      destruct (ws_fields O) as (_ & _ & _ & _ & Kw). destruct (keeps_lookup' _ _ _ _ _ Kw Hs) as (sw & Hsw & Ew). unfold sym_static in Ew. assert (Hdw : s_dynamic sw = Some (RNamed (st_name (s_sym sd)))) by congruence.
      assert (Hob : is_object s0 = true) by (unfold is_object; rewrite st_type_typ; unfold typ; rewrite <- Einf; apply N.eqb_eq; exact Ht).
      assert (Hc : copy_ref (syt_symbols (w_symtab ws)) (w_dynsym wr) n = Some (RNamed (st_name (s_sym sd)))).
      { unfold copy_ref. rewrite Hsw. cbn [mbind option_bind]. rewrite Hdw. cbn [mbind option_bind]. change (syt_get (w_dynsym wr) (RNamed (st_name (s_sym sd)))) with (syt_symbols (w_dynsym wr) !! st_name (s_sym sd)). rewrite Hs0. cbn [mbind option_bind]. by rewrite Hob. }
      assert (Hin : RNamed (st_name (s_sym sd)) ∈ (cr_slots (w_copyrel w1)).*1). { rewrite R3, (dri_refs _ _ _ _ _ I). apply elem_of_list_omap. exists n. split; [apply (elem_keys V); eauto|exact Hc]. }
      apply elem_of_list_fmap in Hin as ([r off] & Er & Hin). cbn in Er. subst r. apply elem_of_list_lookup in Hin as [i Hi].
      destruct (copy_final O V P PL NF SF _ _ _ _ _ _ _ Og Ogot Ocr Hi) as (m & j2 & off2 & ds2 & E2 & Hj2 & _ & Hm & Hrd & _ & Hv & Hb & Ha & _). injection E2 as <- <-. rewrite Hsd in Hm. injection Hm as <-.
      exists i, (st_name (s_sym sd)), off. split; [exact Hi|]. split; [|split; [exact Hv|]; split; [exact Hb|exact Ha]]. rewrite Hj2. f_equal.
      rewrite <- (N2Nat.id j2), (rd_chunk_sym _ _ _ (vo_dyn _ V) (proj2 SF)) in Hrd. pose proof (sorted_names_nodup (o_dyn (lo_writer lo)) _ (vo_dyn _ V) (dyn_keyed O PL)) as ND.
      destruct (syt_sorted (o_dyn (lo_writer lo)) (w_dynsym w) !! N.to_nat j) as [x|] eqn:Ex; [|discriminate Hj]. destruct (syt_sorted (o_dyn (lo_writer lo)) (w_dynsym w) !! N.to_nat j2) as [y|] eqn:Ey; [|discriminate Hrd].
      cbn in Hj, Hrd. apply (inj Some) in Hj, Hrd. apply N2Nat.inj. eapply (NoDup_lookup _ _ _ (st_name (s_sym sd)) ND); rewrite list_lookup_fmap; [rewrite Ey|rewrite Ex]; cbn; congruence. }
    split; [|split].
    - intros j d Hj Ht. destruct (Hobj _ _ Hj Ht) as (i & m & off & Hi & Hix & Hv & Hb & _). split; [|rewrite Hv; split; [lia|lia]].
      destruct (copy_final O V P PL NF SF _ _ _ _ _ _ _ Og Ogot Ocr Hi) as (m' & j' & off' & dd & [= <- <-] & Hj' & Hjb & Hm & Hrd & _ & Hv' & _ & _ & Eadj). rewrite Hix in Hj'. injection Hj' as <-.
      rewrite (filter_both (fun r => reloc_type r = 5) (fun r => reloc_sym r = j)), F5, Hv, <- Eadj. apply (filter_at _ _ i).
      + rewrite !list_lookup_fmap, Hi. reflexivity.
      + intros i' y Hy. rewrite !list_lookup_fmap in Hy. destruct (cr_slots (w_copyrel w1) !! i') as [x|] eqn:Ei; [|discriminate Hy]. cbn in Hy. apply (inj Some) in Hy. subst y.
        destruct (copy_final O V P PL NF SF _ _ _ _ _ _ _ Og Ogot Ocr Ei) as (m2 & j2 & off2 & d2 & -> & Hj2 & Hjb2 & _ & _ & _ & _ & _ & _ & ->). rewrite record_sym by lia. split.
        * intros ->. pose proof (index_inj _ _ _ Hix Hj2) as <-.
          assert (NDs : NoDup (cr_slots (w_copyrel w1)).*1).
          { rewrite R3, (dri_refs _ _ _ _ _ I). pose proof (keys_nodup (ws := ws) V) as ND. clear -ND O PL NF. induction (the_keys (lo := lo) (ws := ws)) as [|a k IH]; [constructor|]. apply NoDup_cons in ND as [Ha ND]. cbn. destruct (copy_ref _ _ a) as [x|] eqn:Ea; [|exact (IH ND)].
            constructor; [|exact (IH ND)]. intros Hin. apply elem_of_list_omap in Hin as (b & Hb & Eb). destruct (copy_ref_inv O PL _ _ Ea) as (s1 & m1 & _ & A1 & A2 & -> & _). destruct (copy_ref_inv O PL _ _ Eb) as (s2 & m2 & _ & B1 & B2 & [= <-] & _).
            rewrite (ws_inj O PL NF _ _ _ _ _ A1 B1 A2 B2) in Ha. exact (Ha Hb). }
          eapply (NoDup_lookup _ _ _ (RNamed m) NDs); rewrite list_lookup_fmap; [rewrite Ei|rewrite Hi]; reflexivity.
        * intros ->. rewrite Hi in Ei. injection Ei as <- <-. congruence.
    - intros j d j' d' Hj Ht Hj' Ht' Hne. destruct (Hobj _ _ Hj Ht) as (i & m & off & Hi & Hix & Hv & Hb & Ha). destruct (Hobj _ _ Hj' Ht') as (i' & m' & off' & Hi' & Hix' & Hv' & Hb' & Ha').
      rewrite Hv, Hv', <- Ha, <- Ha'. rewrite R3 in Hi, Hi'. destruct (Nat.lt_trichotomy i i') as [Hlt|[->|Hlt]].
      + left. pose proof (dri_apart _ _ _ _ _ I _ _ _ _ _ _ Hlt Hi Hi'). lia.
      + exfalso. rewrite Hi in Hi'. injection Hi' as <- <-. congruence.
      + right. pose proof (dri_apart _ _ _ _ _ I _ _ _ _ _ _ Hlt Hi' Hi). lia.
    - intros r Hr. destruct (Ft _ Hr) as [E5|?]; [|by left]. right. split; [exact E5|]. assert (Hf : r ∈ filter (fun r => reloc_type r = 5) (w_dyn_rels w)) by (apply elem_of_list_filter; done).
      rewrite F5 in Hf. apply elem_of_list_fmap in Hf as (r0 & -> & Hf). apply elem_of_list_fmap in Hf as (x & -> & Hx). apply elem_of_list_lookup in Hx as [i Hi].
      destruct (copy_final O V P PL NF SF _ _ _ _ _ _ _ Og Ogot Ocr Hi) as (m & j & off & dd & -> & _ & _ & _ & Hrd & Ht & _ & _ & _ & ->). rewrite record_sym by lia. exists (s_sym dd). rewrite Bds. split; [exact Hrd|exact Ht].
  Qed.
End good.
