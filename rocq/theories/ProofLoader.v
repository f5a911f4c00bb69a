(** The loader and the tables of a link (C70). *)
From Verif Require Import SpecRun ProofExec ProofImage ProofBind ProofHashLink PropLayout PropFile.

(** Section [s] with its contents, whatever the rest of memory is. *)
Definition intact (p : process) (s : section) : Prop := holds (pr_mem p) (addr s) (contents s).
Definition kind (s : section) (wr ex : bool) : Prop := alloc s = true /\ is_nobits s = false /\ writable s = wr /\ executable s = ex.

(** * Reading records out of a part of a table *)
Lemma rd_part n (data : bytes) off m k v : rd n data (N.of_nat off + k) = Some v -> (N.to_nat k + n <= m)%nat -> rd n (take m (drop off data)) k = Some v.
Proof.
  intros H Hm. apply rd_Some in H as [[Hl ->]|[-> ->]]; [|done]. apply rd_Some. left. split; [rewrite take_length, drop_length; lia|].
  rewrite skipn_firstn_comm, take_take, drop_drop. f_equal. rewrite Nat.min_l by lia. do 2 f_equal. lia.
Qed.
Lemma rd_sym_part (data : bytes) j d : rd_sym data (24 * j) = Some d -> rd_sym (take 24 (drop (N.to_nat (24 * j)) data)) 0 = Some d /\ (N.to_nat (24 * j) + 24 <= length data)%nat.
Proof.
  intros H. unfold rd_sym in H.
  repeat match type of H with (?x ≫= _) = _ => let E := fresh "E" in destruct x eqn:E; [cbn [mbind option_bind] in H|discriminate H] end.
  assert (Hl : (N.to_nat (24 * j) + 24 <= length data)%nat).
  { apply rd_Some in E4 as [[Hl _]|[? _]]; [lia|discriminate]. }
  split; [|exact Hl]. unfold rd_sym.
  replace (24 * j) with (N.of_nat (N.to_nat (24 * j)) + 0) in E by lia.
  replace (24 * j) with (N.of_nat (N.to_nat (24 * j))) in E0, E1, E2, E3, E4 by lia.
  change (0 + 4) with 4. change (0 + 5) with 5. change (0 + 6) with 6. change (0 + 8) with 8. change (0 + 16) with 16.
  rewrite (rd_part _ _ _ 24 _ _ E) by (vm_compute; lia). cbn [mbind option_bind]. rewrite (rd_part _ _ _ 24 _ _ E0) by (vm_compute; lia). cbn [mbind option_bind].
  rewrite (rd_part _ _ _ 24 _ _ E1) by (vm_compute; lia). cbn [mbind option_bind]. rewrite (rd_part _ _ _ 24 _ _ E2) by (vm_compute; lia). cbn [mbind option_bind].
  rewrite (rd_part _ _ _ 24 _ _ E3) by (vm_compute; lia). cbn [mbind option_bind]. rewrite (rd_part _ _ _ 24 _ _ E4) by (vm_compute; lia). exact H.
Qed.

(** * The output's own sections *)
Lemma own_once hs i j n ty al e : own_rows hs !! i = Some (n, ty, al, e) -> (fst ∘ fst ∘ fst) <$> own_rows hs !! j = Some n -> i = j.
Proof.
  intros Hi Hj. assert (ND : NoDup ((fst ∘ fst ∘ fst) <$> own_rows hs)) by (destruct hs; apply (bool_decide_unpack _); vm_compute; exact I).
  eapply (NoDup_lookup _ _ _ n ND); rewrite list_lookup_fmap; [by rewrite Hi|exact Hj].
Qed.
Definition own_types_b (hs : ModelWriter.hash_style) : bool :=
  forallb (fun r : string * N * bool * N => implb (r.1.1.2 =? 6) (bool_decide (r.1.1.1 = ".dynamic")) && implb (r.1.1.2 =? 11) (bool_decide (r.1.1.1 = ".dynsym")) &&
    implb ((r.1.1.2 =? 3) && r.1.2) (bool_decide (r.1.1.1 = ".dynstr"))) (own_rows hs).
Lemma own_types hs i n ty al e : own_rows hs !! i = Some (n, ty, al, e) -> (ty = 6 -> n = ".dynamic") /\ (ty = 11 -> n = ".dynsym") /\ (ty = 3 -> al = true -> n = ".dynstr").
Proof.
  intros Hi. assert (HB : own_types_b hs = true) by (destruct hs; vm_compute; reflexivity). unfold own_types_b in HB. rewrite forallb_forall in HB.
  apply elem_of_list_lookup_2, elem_of_list_In, HB in Hi. cbn [fst snd] in Hi. apply andb_true_iff in Hi as [Hi H3]. apply andb_true_iff in Hi as [H1 H2].
  split; [|split].
  - intros ->. change (6 =? 6) with true in H1. cbn [implb] in H1. by apply bool_decide_eq_true_1 in H1.
  - intros ->. change (11 =? 11) with true in H2. cbn [implb] in H2. by apply bool_decide_eq_true_1 in H2.
  - intros -> ->. change (3 =? 3) with true in H3. cbn [implb andb] in H3. by apply bool_decide_eq_true_1 in H3.
Qed.
Lemma once_value es t v : once es t v -> dyn_value es t = Some v.
Proof. intros H. unfold dyn_value. by rewrite H. Qed.

(** What the loader finds through .dynamic. *)
Record sees (w : writer) (secs : list section) (es : list (N * N)) (d ds sd rdy rp g : section) : Prop := {
  se_d : the_sec w secs ".dynamic" d; se_ds : the_sec w secs ".dynsym" ds; se_sd : the_sec w secs ".dynstr" sd; se_rdy : the_sec w secs ".rela.dyn" rdy;
  se_rp : the_sec w secs ".rela.plt" rp; se_g : the_sec w secs ".got.plt" g;
  se_6 : dyn_value es 6 = Some (addr ds); se_5 : dyn_value es 5 = Some (addr sd); se_10 : dyn_value es 10 = Some (memsz sd); se_7 : dyn_value es 7 = Some (addr rdy);
  se_8 : dyn_value es 8 = Some (memsz rdy); se_23 : dyn_value es 23 = Some (addr rp); se_2 : dyn_value es 2 = Some (memsz rp); se_3 : dyn_value es 3 = Some (addr g);
  se_table : forall p, pr_phs p = w_program_headers w -> intact p d -> dynamic_table p = Some es }.

(** * Stores *)
Lemma peek_ext m m' a n : (forall x, a <= x < a + N.of_nat n -> m' x = m x) -> peek m' a n = peek m a n.
Proof.
  revert a. induction n as [|n IH]; intros a H; [reflexivity|]. cbn [peek]. rewrite (H a) by lia. destruct (m a); [|reflexivity]. cbn [mbind option_bind]. rewrite IH; [reflexivity|]. intros x Hx. apply H. lia.
Qed.
Lemma word_ext m m' a : (forall x, a <= x < a + 8 -> m' x = m x) -> word m' a = word m a.
Proof. intros H. unfold word. by rewrite (peek_ext m m' a 8 H). Qed.
Lemma word_other m a v b : a + 8 <= b \/ b + 8 <= a -> word (poke m a (word_bytes v)) b = word m b.
Proof. intros H. apply word_ext. intros x Hx. apply poke_out. change (blen (word_bytes v)) with 8. lia. Qed.
Lemma store_word p a v : (forall k, k < 8 -> can_write (pr_phs p) (a + k) = true) -> store p a (word_bytes v) = Some (mkProcess (pr_phs p) (poke (pr_mem p) a (word_bytes v))).
Proof.
  intros H. unfold store. rewrite word_bytes_length. destruct (forallb _ _) eqn:E; [reflexivity|]. exfalso. apply not_true_iff_false in E. apply E. apply forallb_forall. intros i Hi. apply in_seq in Hi. apply H. lia.
Qed.
Lemma reloc_run env es (ok : process -> Prop) (nm : Rela -> bytes) base size rs :
  (forall p a v, ok p -> base <= a -> a + 8 <= base + size -> store p a (word_bytes v) = Some (mkProcess (pr_phs p) (poke (pr_mem p) a (word_bytes v))) /\ ok (mkProcess (pr_phs p) (poke (pr_mem p) a (word_bytes v)))) ->
  (forall p r, ok p -> r ∈ rs -> exists d, symbol_at es (pr_mem p) (reloc_sym r) = Some (d, nm r)) ->
  (forall r, r ∈ rs -> reloc_type r = 6 /\ exists o, r_offset r = base + o /\ o mod 8 = 0 /\ o + 8 <= size) ->
  forall p, ok p -> exists p', relocate_all env es p rs = Some p' /\ ok p' /\ pr_phs p' = pr_phs p /\
    (forall a, a < base \/ base + size <= a -> pr_mem p' a = pr_mem p a) /\
    (forall o, o mod 8 = 0 -> (forall r, r ∈ rs -> r_offset r <> base + o) -> word (pr_mem p') (base + o) = word (pr_mem p) (base + o)) /\
    (forall o r, o mod 8 = 0 -> filter (fun r => r_offset r = base + o) rs = [r] -> en_addr env (nm r) < 2^64 -> word (pr_mem p') (base + o) = Some (en_addr env (nm r))).
Proof.
  intros HS. induction rs as [|r rs IH]; intros HN HT p Hp.
  - exists p. repeat match goal with |- _ /\ _ => split end; try (intros; reflexivity); [exact Hp|]. intros o r _ Hf. discriminate Hf.
  - destruct (HT r) as (Ht & o & Ho & Hm & Hs); [by left|]. destruct (HN p r Hp) as [d Hd]; [by left|].
    destruct (HS p (r_offset r) (en_addr env (nm r)) Hp) as [S1 S2]; [lia|lia|]. set (p1 := mkProcess _ _) in *.
    destruct (IH (fun p r Hp Hr => HN p r Hp (elem_of_list_further _ _ _ Hr)) (fun r Hr => HT r (elem_of_list_further _ _ _ Hr)) p1 S2) as (p' & E & K & F & A1 & A2 & A3).
    exists p'. cbn [relocate_all]. unfold relocate at 1. rewrite Hd. cbn [mbind option_bind]. rewrite decide_True by exact Ht. rewrite S1. cbn [mbind option_bind]. split; [exact E|]. split; [exact K|]. split; [exact F|].
    split; [|split].
    + intros a Ha. rewrite (A1 a Ha). cbn [p1 pr_mem]. apply poke_out. change (blen (word_bytes _)) with 8. lia.
    + intros o' Ho' Hne. rewrite (A2 o' Ho' (fun r Hr => Hne r (elem_of_list_further _ _ _ Hr))). cbn [p1 pr_mem]. apply word_other. specialize (Hne r (elem_of_list_here _ _)). rewrite Ho in Hne |- *.
      pose proof (N.div_mod o 8 ltac:(lia)). pose proof (N.div_mod o' 8 ltac:(lia)). lia.
    + intros o' r' Ho' Hf Hv. rewrite filter_cons in Hf. case_decide as Hd'.
      * injection Hf as <- Hf. rewrite (A2 o' Ho').
        -- cbn [p1 pr_mem]. rewrite <- Hd'. apply word_new. exact Hv.
        -- intros r1 Hr1 E1. assert (H : r1 ∈ filter (fun r => r_offset r = base + o') rs) by (apply elem_of_list_filter; split; assumption). rewrite Hf in H. by apply elem_of_nil in H.
      * exact (A3 o' r' Ho' Hf Hv).
Qed.

Section loader.
  Context {wd : world} {lo : lib_oracle} {l : linker} {fuel : nat} {w : writer} {secs : list section} {data : bytes}.
  Context (R : runnable wd lo l fuel w secs data).
  Let G := rn_good _ _ _ _ _ _ _ R.

  Lemma own_kind n s i row : s ∈ secs -> sec_name w s = Some n -> n ∈ reserved -> (fun r : string * N * bool * N => (r.1.1.1, r.1.2)) <$> own_rows (opt_hash_style (lk_options l)) !! i = Some (n, true) ->
    (0 < i)%nat -> ref_common !! i = Some row -> alloc s = true /\ sh_type (sc_sh s) = row.1.1.1.1 /\ flags s = row.1.1.1.2.
  Proof using R.
    intros Hs Hn Hres Hi H0 Hrow. destruct (links_outcome _ _ _ _ _ _ (gl_links _ _ _ _ _ _ G)) as (w0 & wr & ws & w1 & extra & null & rest & rest' & st & w3 & w4 & w5 & w6 & w7 & null' & out & O).
    pose proof (proj2 (gl_links _ _ _ _ _ _ G)) as Fin. pose proof (gl_oracle _ _ _ _ _ _ G) as V. pose proof (gl_inputs _ _ _ _ _ _ G) as P. pose proof (gl_names _ _ _ _ _ _ G) as NF.
    destruct (secs_class O Fin V P s (proj1 NF) Hs) as (n' & Hn' & [(e & Hr)|(Hbad & _)]); rewrite Hn in Hn'; injection Hn' as <-; [|contradiction].
    destruct (own_rows (opt_hash_style (lk_options l)) !! i) as [row'|] eqn:Ei; [|discriminate Hi]. cbn in Hi. injection Hi as E1 E2.
    assert (Hid : sc_id s = i) by (eapply own_once; [exact Hr|]; rewrite Ei; cbn; by rewrite E1).
    assert (Ha : alloc s = true). { rewrite Hid, Ei in Hr. injection Hr as ->. exact E2. } split; [exact Ha|].
    pose proof (alloc_out O s Hs Ha) as Hso. destruct (fixed_out O V i row H0 Hrow) as (s' & Hs' & Hid' & F1 & F2 & _).
    apply elem_of_list_lookup in Hso as [x Hx]. apply elem_of_list_lookup in Hs' as [y Hy]. assert (x = y) by (eapply (out_nodup O V); [exact Hx|exact Hy|congruence]).
    assert (s' = s) as -> by congruence. split; [exact F1|exact F2].
  Qed.
  Lemma kinds n s : s ∈ secs -> sec_name w s = Some n ->
    (n ∈ [".got"; ".got.plt"; ".dynamic"] -> kind s true false) /\ (n = ".plt" -> kind s false true) /\ (n ∈ [".dynstr"; ".dynsym"; ".rela.dyn"; ".rela.plt"] -> kind s false false).
  Proof using R.
    intros Hs Hn.
    assert (K : forall i row, n ∈ reserved -> (fun r : string * N * bool * N => (r.1.1.1, r.1.2)) <$> own_rows (opt_hash_style (lk_options l)) !! i = Some (n, true) -> (0 < i)%nat -> ref_common !! i = Some row ->
      row.1.1.1.1 <> 8 -> kind s (N.testbit row.1.1.1.2 0) (N.testbit row.1.1.1.2 2)).
    { intros i row H1 H2 H3 H4 H5. destruct (own_kind n s i row Hs Hn H1 H2 H3 H4) as (K1 & K2 & K3). unfold kind, is_nobits, writable, executable. rewrite K2, K3. split_and!; try reflexivity; [exact K1|]. by apply N.eqb_neq. }
    assert (Hr : forall m, m ∈ [".got"; ".got.plt"; ".dynamic"; ".plt"; ".dynstr"; ".dynsym"; ".rela.dyn"; ".rela.plt"] -> m ∈ reserved).
    { clear. intros m. rewrite !elem_of_cons, elem_of_nil. intros [->|[->|[->|[->|[->|[->|[->|[->|[]]]]]]]]]; apply (bool_decide_unpack _); vm_compute; exact I. }
    split_and!.
    - rewrite !elem_of_cons, elem_of_nil. intros [->|[->|[->|[]]]].
      + refine (K 5%nat _ (Hr _ _) _ _ eq_refl _); [apply (bool_decide_unpack _); vm_compute; exact I|destruct (opt_hash_style _); reflexivity|lia|discriminate].
      + refine (K 6%nat _ (Hr _ _) _ _ eq_refl _); [apply (bool_decide_unpack _); vm_compute; exact I|destruct (opt_hash_style _); reflexivity|lia|discriminate].
      + refine (K 10%nat _ (Hr _ _) _ _ eq_refl _); [apply (bool_decide_unpack _); vm_compute; exact I|destruct (opt_hash_style _); reflexivity|lia|discriminate].
    - intros ->. refine (K 7%nat _ (Hr _ _) _ _ eq_refl _); [apply (bool_decide_unpack _); vm_compute; exact I|destruct (opt_hash_style _); reflexivity|lia|discriminate].
    - rewrite !elem_of_cons, elem_of_nil. intros [->|[->|[->|[->|[]]]]].
      + refine (K 3%nat _ (Hr _ _) _ _ eq_refl _); [apply (bool_decide_unpack _); vm_compute; exact I|destruct (opt_hash_style _); reflexivity|lia|discriminate].
      + refine (K 9%nat _ (Hr _ _) _ _ eq_refl _); [apply (bool_decide_unpack _); vm_compute; exact I|destruct (opt_hash_style _); reflexivity|lia|discriminate].
      + refine (K 11%nat _ (Hr _ _) _ _ eq_refl _); [apply (bool_decide_unpack _); vm_compute; exact I|destruct (opt_hash_style _); reflexivity|lia|discriminate].
      + refine (K 12%nat _ (Hr _ _) _ _ eq_refl _); [apply (bool_decide_unpack _); vm_compute; exact I|destruct (opt_hash_style _); reflexivity|lia|discriminate].
  Qed.
  Lemma apart_secs a b : a ∈ secs -> b ∈ secs -> alloc a = true -> alloc b = true -> sec_name w a <> Some ".copyrel" -> sec_name w b <> Some ".copyrel" -> a <> b ->
    addr a + memsz a <= addr b \/ addr b + memsz b <= addr a.
  Proof using R.
    intros Ha Hb La Lb Na Nb Hne. destruct (links_outcome _ _ _ _ _ _ (gl_links _ _ _ _ _ _ G)) as (w0 & wr & ws & w1 & extra & null & rest & rest' & st & w3 & w4 & w5 & w6 & w7 & null' & out & O).
    pose proof (proj2 (gl_links _ _ _ _ _ _ G)) as Fin. pose proof (gl_oracle _ _ _ _ _ _ G) as V.
    assert (C : forall s, s ∈ secs -> sec_name w s <> Some ".copyrel" -> sc_synth s <> Some KCopyRel) by (intros s Hs Hn E; apply Hn; exact (copyrel_name O V s (gl_inputs _ _ _ _ _ _ G) (gl_names _ _ _ _ _ _ G) Fin Hs E)).
    pose proof (C a Ha Na) as Ca. pose proof (C b Hb Nb) as Cb. apply elem_of_list_lookup in Ha as [i Hi]. apply elem_of_list_lookup in Hb as [j Hj].
    destruct (Nat.lt_trichotomy i j) as [Hl|[->|Hl]].
    - left. exact (proj2 (C29_partial _ _ _ _ _ _ i j a b V (gl_links _ _ _ _ _ _ G) Hl Hi Hj La Lb) Ca).
    - congruence.
    - right. exact (proj2 (C29_partial _ _ _ _ _ _ j i b a V (gl_links _ _ _ _ _ _ G) Hl Hj Hi Lb La) Cb).
  Qed.
  Lemma sec_length s : s ∈ secs -> is_nobits s = false -> length (contents s) = N.to_nat (memsz s).
  Proof using R.
    intros Hs Hn. destruct (run_reads R) as (_ & _ & _ & R4). destruct (rd_bytes_Some _ _ _ _ (R4 s Hs)) as [L1 _]. rewrite L1. unfold filesz. by rewrite Hn.
  Qed.
  Lemma memory_intact p s : s ∈ secs -> is_nobits s = false -> in_memory p s -> intact p s.
  Proof using R.
    intros Hs Hn [H _] k b Hb. specialize (H (N.of_nat k)). rewrite Hn, Nat2N.id in H. rewrite H; [exact Hb|]. apply lookup_lt_Some in Hb. rewrite (sec_length s Hs Hn) in Hb. lia.
  Qed.
  Lemma own_there n i : (0 < i)%nat -> n ∈ reserved -> (fst ∘ fst ∘ fst) <$> own_rows (opt_hash_style (lk_options l)) !! i = Some n -> exists b, the_sec w secs n b.
  Proof using R.
    destruct (links_outcome _ _ _ _ _ _ (gl_links _ _ _ _ _ _ G)) as (w0 & wr & ws & w1 & extra & null & rest & rest' & st & w3 & w4 & w5 & w6 & w7 & null' & out & O).
    exact (own_exists O (proj2 (gl_links _ _ _ _ _ _ G)) (gl_oracle _ _ _ _ _ _ G) (gl_inputs _ _ _ _ _ _ G) (gl_names _ _ _ _ _ _ G) i n).
  Qed.
  Lemma typed s : s ∈ secs -> (sh_type (sc_sh s) = 6 -> sec_name w s = Some ".dynamic") /\ (sh_type (sc_sh s) = 11 -> sec_name w s = Some ".dynsym") /\
    (sh_type (sc_sh s) = 3 -> alloc s = true -> sec_name w s = Some ".dynstr").
  Proof using R.
    intros Hs. destruct (links_outcome _ _ _ _ _ _ (gl_links _ _ _ _ _ _ G)) as (w0 & wr & ws & w1 & extra & null & rest & rest' & st & w3 & w4 & w5 & w6 & w7 & null' & out & O).
    destruct (secs_class O (proj2 (gl_links _ _ _ _ _ _ G)) (gl_oracle _ _ _ _ _ _ G) (gl_inputs _ _ _ _ _ _ G) s (proj1 (gl_names _ _ _ _ _ _ G)) Hs) as (n & Hn & [(e & Hr)|(_ & Hbad & _)]).
    - rewrite Hn. destruct (own_types _ _ _ _ _ _ Hr) as (T1 & T2 & T3). split_and!; intros; f_equal; auto.
    - split_and!; intros E; exfalso; apply Hbad; rewrite E; apply (bool_decide_unpack _); vm_compute; exact I.
  Qed.

  Lemma tables : exists es d ds sd rdy rp g, sees w secs es d ds sd rdy rp g.
  Proof using R.
    destruct (C38 _ _ _ _ _ _ (gl_oracle _ _ _ _ _ _ G) (gl_links _ _ _ _ _ _ G) (gl_inputs _ _ _ _ _ _ G) (proj1 (gl_names _ _ _ _ _ _ G)) (rn_fit _ _ _ _ _ _ _ R)) as (d & needed & facts & Hd & Ht & Hone & Hrd & Hsz & _ & _ & _ & Honce).
    destruct (C34_partial _ _ _ _ _ _ (gl_oracle _ _ _ _ _ _ G) (gl_links _ _ _ _ _ _ G) (gl_inputs _ _ _ _ _ _ G) (proj1 (gl_names _ _ _ _ _ _ G))) as [_ (d' & ph & Hd' & Ht' & Hf & Q1 & _ & _ & Q4)].
    assert (d' = d) as -> by (apply Hone; assumption). set (es := needed ++ facts ++ [(0, 0)]) in *.
    assert (Hdn : the_sec w secs ".dynamic" d).
    { destruct (own_there ".dynamic" 10) as [b Hb]; [lia|apply (bool_decide_unpack _); vm_compute; exact I|destruct (opt_hash_style _); reflexivity|]. pose proof (proj1 (typed d Hd) Ht) as Hn. rewrite (proj2 (proj2 Hb) d Hd Hn). exact Hb. }
    destruct (own_there ".dynsym" 9) as [ds Hds]; [lia|apply (bool_decide_unpack _); vm_compute; exact I|destruct (opt_hash_style _); reflexivity|].
    destruct (own_there ".dynstr" 3) as [sd Hsd]; [lia|apply (bool_decide_unpack _); vm_compute; exact I|destruct (opt_hash_style _); reflexivity|].
    destruct (own_there ".rela.dyn" 11) as [rdy Hrdy]; [lia|apply (bool_decide_unpack _); vm_compute; exact I|destruct (opt_hash_style _); reflexivity|].
    destruct (own_there ".rela.plt" 12) as [rp Hrp]; [lia|apply (bool_decide_unpack _); vm_compute; exact I|destruct (opt_hash_style _); reflexivity|].
    destruct (own_there ".got.plt" 6) as [g Hg]; [lia|apply (bool_decide_unpack _); vm_compute; exact I|destruct (opt_hash_style _); reflexivity|].
    assert (V : forall t, t ∈ once_tags -> exists s v, s ∈ secs /\ states w s (t, v) /\ dyn_value es t = Some v).
    { intros t Hin. destruct (Honce t Hin) as (s & v & A1 & A2 & A3). exists s, v. split; [exact A1|]. split; [exact A2|by apply once_value]. }
    exists es, d, ds, sd, rdy, rp, g. constructor; try assumption.
    - destruct (V 6) as (s & v & A1 & [A2 A3] & ->); [apply (bool_decide_unpack _); vm_compute; exact I|]. cbn in A2, A3. rewrite A3. by rewrite (proj2 (proj2 Hds) s A1 (proj1 (proj2 (typed s A1)) A2)).
    - destruct (V 5) as (s & v & A1 & (A2 & A4 & A3) & ->); [apply (bool_decide_unpack _); vm_compute; exact I|]. cbn in A2, A3. rewrite A3. by rewrite (proj2 (proj2 Hsd) s A1 (proj2 (proj2 (typed s A1)) A2 A4)).
    - destruct (V 10) as (s & v & A1 & (A2 & A4 & A3) & ->); [apply (bool_decide_unpack _); vm_compute; exact I|]. cbn in A2, A3. rewrite A3. by rewrite (proj2 (proj2 Hsd) s A1 (proj2 (proj2 (typed s A1)) A2 A4)).
    - destruct (V 7) as (s & v & A1 & [A2 A3] & ->); [apply (bool_decide_unpack _); vm_compute; exact I|]. cbn in A2, A3. rewrite A3. by rewrite (proj2 (proj2 Hrdy) s A1 A2).
    - destruct (V 8) as (s & v & A1 & [A2 A3] & ->); [apply (bool_decide_unpack _); vm_compute; exact I|]. cbn in A2, A3. rewrite A3. by rewrite (proj2 (proj2 Hrdy) s A1 A2).
    - destruct (V 23) as (s & v & A1 & [A2 A3] & ->); [apply (bool_decide_unpack _); vm_compute; exact I|]. cbn in A2, A3. rewrite A3. by rewrite (proj2 (proj2 Hrp) s A1 A2).
    - destruct (V 2) as (s & v & A1 & [A2 A3] & ->); [apply (bool_decide_unpack _); vm_compute; exact I|]. cbn in A2, A3. rewrite A3. by rewrite (proj2 (proj2 Hrp) s A1 A2).
    - destruct (V 3) as (s & v & A1 & [A2 A3] & ->); [apply (bool_decide_unpack _); vm_compute; exact I|]. cbn in A2, A3. rewrite A3. by rewrite (proj2 (proj2 Hg) s A1 A2).
    - intros p Hp Hi. unfold dynamic_table. rewrite Hp, Hf, Q1, Q4. destruct (proj1 (kinds ".dynamic" d Hd (proj1 (proj2 Hdn)))) as (_ & Kn & _); [apply (bool_decide_unpack _); vm_compute; exact I|].
      rewrite (holds_peek_all _ _ _ _ Hi (sec_length d Hd Kn)). exact Hrd.
  Qed.

  Lemma symbol_found es d ds sd rdy rp g p j y name : sees w secs es d ds sd rdy rp g -> intact p ds -> intact p sd -> rd_sym (contents ds) (24 * j) = Some y -> cstr_at (contents sd) (st_name y) = Some name ->
    symbol_at es (pr_mem p) j = Some (y, name).
  Proof using R.
    intros S I1 I2 H1 H2. unfold symbol_at. rewrite (se_6 _ _ _ _ _ _ _ _ _ S), (se_5 _ _ _ _ _ _ _ _ _ S), (se_10 _ _ _ _ _ _ _ _ _ S). cbn [mbind option_bind].
    destruct (rd_sym_part _ _ _ H1) as [P1 P2]. replace (24 * j) with (N.of_nat (N.to_nat (24 * j))) at 1 by lia. rewrite (holds_peek _ _ _ _ _ I1 P2). cbn [mbind option_bind]. rewrite P1. cbn [mbind option_bind].
    pose proof (se_sd _ _ _ _ _ _ _ _ _ S) as (Hs & Hn & _). destruct (proj2 (proj2 (kinds ".dynstr" sd Hs Hn))) as (_ & Kn & _); [apply (bool_decide_unpack _); vm_compute; exact I|].
    rewrite (holds_peek_all _ _ _ _ I2 (sec_length sd Hs Kn)). cbn [mbind option_bind]. rewrite H2. reflexivity.
  Qed.
  Lemma records_found es d ds sd rdy rp g p recs : sees w secs es d ds sd rdy rp g ->
    (intact p rdy -> rd_relas (contents rdy) = Some recs -> records es (pr_mem p) 7 8 = Some recs) /\ (intact p rp -> rd_relas (contents rp) = Some recs -> records es (pr_mem p) 23 2 = Some recs).
  Proof using R.
    intros S. pose proof (se_rdy _ _ _ _ _ _ _ _ _ S) as (H1 & N1 & _). pose proof (se_rp _ _ _ _ _ _ _ _ _ S) as (H2 & N2 & _).
    destruct (proj2 (proj2 (kinds ".rela.dyn" rdy H1 N1))) as (_ & K1 & _); [apply (bool_decide_unpack _); vm_compute; exact I|]. destruct (proj2 (proj2 (kinds ".rela.plt" rp H2 N2))) as (_ & K2 & _); [apply (bool_decide_unpack _); vm_compute; exact I|].
    unfold records. rewrite (se_7 _ _ _ _ _ _ _ _ _ S), (se_8 _ _ _ _ _ _ _ _ _ S), (se_23 _ _ _ _ _ _ _ _ _ S), (se_2 _ _ _ _ _ _ _ _ _ S). cbn [mbind option_bind]. split; intros I1 HR.
    - rewrite (holds_peek_all _ _ _ _ I1 (sec_length rdy H1 K1)). exact HR.
    - rewrite (holds_peek_all _ _ _ _ I1 (sec_length rp H2 K2)). exact HR.
  Qed.
  Lemma got_aligned n s off : syt_symbols (w_symtab w) !! n = Some s -> s_in_got s = Some off -> off mod 8 = 0.
  Proof using R.
    intros Hs Ho. destruct (links_outcome _ _ _ _ _ _ (gl_links _ _ _ _ _ _ G)) as (w0 & wr & ws & w1 & extra & null & rest & rest' & st & w3 & w4 & w5 & w6 & w7 & null' & out & O).
    destruct (slots_ws O _ _ Hs) as (s0 & Hs0 & E & _). unfold sym_slots in E. assert (E1 : s_in_got s0 = Some off) by congruence.
    destruct (ws_got_inv O (gl_libs _ _ _ _ _ _ G)) as [G1 _]. exact (proj1 (G1 (RNamed n) s0 off Hs0 E1)).
  Qed.
  (** .rela.dyn without copied objects. *)
  Lemma globs : no_objects w secs -> exists got rdy ds sd recs, the_sec w secs ".got" got /\ the_sec w secs ".rela.dyn" rdy /\ the_sec w secs ".dynsym" ds /\ the_sec w secs ".dynstr" sd /\
    rd_relas (contents rdy) = Some recs /\ forall r, r ∈ recs -> reloc_type r = 6 /\ exists o y name, r_offset r = addr got + o /\ o mod 8 = 0 /\ o + 8 <= memsz got /\
      rd_sym (contents ds) (24 * reloc_sym r) = Some y /\ cstr_at (contents sd) (st_name y) = Some name /\ filter (fun r => r_offset r = addr got + o) recs = [r].
  Proof using R.
    intros NO. destruct (good_glob_dat G) as (got & rdy & ss & ds & sd & recs & T1 & T2 & _ & T3 & T4 & Hr & _ & Hg & Hall). destruct (good_copy G) as (cr & rdy' & ds' & recs' & _ & U1 & U2 & U3 & _ & _ & Hc).
    rewrite (the_one _ _ _ _ _ T2 U1) in U3. assert (recs' = recs) as -> by congruence. pose proof (the_one _ _ _ _ _ T3 U2). subst ds'. exists got, rdy, ds, sd, recs. split_and!; try assumption.
    assert (Hty : forall r, r ∈ recs -> reloc_type r = 6). { intros r Hin. destruct (Hc r Hin) as [?|[_ (y & Y1 & Y2)]]; [assumption|]. exfalso. exact (NO ds (reloc_sym r) y T3 Y1 Y2). }
    intros r Hin. split; [exact (Hty r Hin)|]. destruct (Hall r Hin) as [E5|[_ (n & s & off & Hs & Hd & Ho & Eo)]]; [rewrite (Hty r Hin) in E5; discriminate E5|].
    destruct (Hg n s off Hs Hd Ho) as (Hb & j & (y & Y1 & name & _ & Y2) & Hf).
    assert (Hf' : filter (fun r => r_offset r = addr got + off) recs = [dyn_record (addr got + off) j 6]).
    { rewrite <- Hf. clear -Hty. induction recs as [|r recs IH]; [reflexivity|]. rewrite !filter_cons. rewrite IH by (intros r' Hr'; apply Hty; by right). specialize (Hty r ltac:(by left)).
      destruct (decide (r_offset r = addr got + off)) as [E|E].
      - rewrite decide_True by (split; assumption). reflexivity.
      - rewrite decide_False by (intros [_ ?]; contradiction). reflexivity. }
    assert (Er : r = dyn_record (addr got + off) j 6). { assert (H : r ∈ filter (fun r => r_offset r = addr got + off) recs) by (apply elem_of_list_filter; split; assumption). rewrite Hf' in H. by apply elem_of_list_singleton in H. }
    exists off, y, name. split; [exact Eo|]. split; [exact (got_aligned n s off Hs Ho)|]. split.
    { destruct (proj1 (kinds ".got" got (proj1 T1) (proj1 (proj2 T1)))) as (_ & Kn & _); [apply (bool_decide_unpack _); vm_compute; exact I|]. unfold filesz in Hb. by rewrite Kn in Hb. }
    rewrite Er, record_sym by reflexivity. split; [exact Y1|]. split; [exact Y2|]. exact Hf'.
  Qed.
End loader.
