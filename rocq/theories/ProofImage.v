(** What is in memory after a finished link's file is mapped. *)
From Verif Require Export ProofExec.
From Verif Require Import PropLayout PropFile.

(** * Zero-fill is behind the file part of its segment *)
Definition zf_inv (l pre pre' : list section) (st : layout) : Prop := nobits_last l -> forall s, s ∈ pre' -> alloc s = true -> is_nobits s = true -> memsz s <> 0 ->
  exists ph, mem_inside s ph /\ p_vaddr ph + p_filesz ph <= addr s /\ p_flags ph = perms s /\
    ((ly_cur st = Some ph /\ flags s = ly_flags st) \/ ph ∈ loads (ly_phs st)).
Lemma closed_has st ph : (forall ph, ly_cur st = Some ph -> p_type ph = 1) -> ly_cur st = Some ph \/ ph ∈ loads (ly_phs st) -> ph ∈ loads (closed st).
Proof.
  intros HT H. unfold closed. destruct H as [H|H].
  - rewrite H. apply elem_of_list_filter. split; [exact (HT _ H)|]. apply elem_of_app. right. by left.
  - destruct (ly_cur st); [|exact H]. unfold loads in *. rewrite filter_app. apply elem_of_app. by left.
Qed.
Lemma zf_placed l x0 va0 pre pre' post st s st' s' : l = pre ++ s :: post -> Forall2 only_placed pre pre' ->
  seg_inv l x0 va0 pre pre' st -> ProofLayout.placed st s st' s' -> zf_inv l pre pre' st -> zf_inv l (pre ++ [s]) (pre' ++ [s']) st'.
Proof.
  intros Hl HF SI Hp IH NL s1 H1 Ha1 Hn1 Hm1. specialize (IH NL). pose proof (placed_only _ _ _ _ Hp) as Ho.
  assert (HT : forall ph, ly_cur st = Some ph -> p_type ph = 1) by (intros ph Hph; exact (proj1 (sg_cur _ _ _ _ _ _ SI ph Hph))).
  apply elem_of_app in H1 as [H1|H1].
  - destruct (IH s1 H1 Ha1 Hn1 Hm1) as (ph & K1 & K2 & K3 & K4). destruct Hp as [x Hf Ha Hx|Hf Ha|ph0 Hf Hcur|Hf Hcur]; cbn [ly_cur ly_flags ly_phs].
    + exists ph. split_and!; try assumption. right. apply closed_has; [exact HT|]. destruct K4 as [[K4 _]|K4]; [by left|by right].
    + exists ph. split_and!; try assumption. right. apply closed_has; [exact HT|]. destruct K4 as [[K4 _]|K4]; [by left|by right].
    + destruct K4 as [[K4 K5]|K4]; [|exists ph; split_and!; try assumption; by right].
      assert (ph0 = ph) as -> by congruence. assert (Hz : filesz s = 0).
      { apply elem_of_list_lookup in H1 as [i Hi]. destruct (Forall2_lookup_r _ _ _ _ _ HF Hi) as (a & Ha & Hoa).
        assert (Hnb : is_nobits s = true); [|unfold filesz; by rewrite Hnb]. pose proof (lookup_lt_Some _ _ _ Ha) as Hlt.
        apply (NL i (length pre) a s); [exact Hlt|rewrite Hl; by apply lookup_app_l_Some|rewrite Hl; apply list_lookup_middle; reflexivity|rewrite <- (op_flags _ _ Hoa), Hf; exact K5|rewrite <- (op_nobits _ _ Hoa); exact Hn1|rewrite <- (op_memsz _ _ Hoa); exact Hm1]. }
      eexists. split; [|split; [|split; [|left; split; [reflexivity|exact K5]]]]; cbn; [unfold mem_inside in *; cbn; lia|lia|exact K3].
    + exists ph. split_and!; try assumption. destruct K4 as [[K4 _]|K4]; [congruence|by right].
  - apply elem_of_list_singleton in H1 as ->. pose proof (op_filesz _ _ Ho) as Ef. pose proof (op_memsz _ _ Ho) as Em. pose proof (op_perms _ _ Ho) as Ep. pose proof (op_flags _ _ Ho) as Eg. pose proof (op_alloc _ _ Ho) as Ea.
    assert (Hz : filesz s = 0) by (rewrite <- Ef; unfold filesz; by rewrite Hn1).
    destruct Hp as [x Hf Ha Hx|Hf Ha|ph0 Hf Hcur|Hf Hcur]; cbn [ly_cur ly_flags ly_phs].
    + eexists. split; [|split; [|split; [|left; split; [reflexivity|exact Eg]]]]; cbn; [unfold mem_inside; rewrite Em; unfold addr; cbn; lia|unfold addr; cbn; lia|symmetry; exact Ep].
    + congruence.
    + destruct (sg_cur _ _ _ _ _ _ SI ph0 Hcur) as (_ & C1 & C2 & C3 & _).
      assert (Hle : p_filesz ph0 <= p_memsz ph0). { apply (sg_ph _ _ _ _ _ _ SI). unfold all_loads. rewrite Hcur. apply elem_of_app. right. by left. }
      eexists. split; [|split; [|split; [|left; split; [reflexivity|rewrite Eg; exact Hf]]]]; cbn; [unfold mem_inside; rewrite Em; unfold addr; cbn; lia|unfold addr; cbn; lia|rewrite Ep; apply C3; exact Hf].
    + pose proof (sg_ok _ _ _ _ _ _ SI) as Hok. unfold cur_ok in Hok. rewrite Hcur in Hok. exfalso. apply Hok; [|reflexivity]. rewrite <- Hf, <- Eg. exact Ha1.
Qed.
Lemma zf_inv_phs l pre pre' st ph : zf_inv l pre pre' st -> zf_inv l pre pre' (st <| ly_phs := ph :: ly_phs st |>).
Proof.
  intros H NL s H1 H2 H3 H4. destruct (H NL s H1 H2 H3 H4) as (ph0 & K1 & K2 & K3 & K4). exists ph0. split_and!; try assumption. destruct K4 as [K4|K4]; [left; exact K4|right].
  change (ly_phs (st <| ly_phs := ph :: ly_phs st |>)) with (ph :: ly_phs st). unfold loads in *. rewrite filter_cons. case_decide; [by right|exact K4].
Qed.
Lemma zf_inv_all names l x0 va0 st' l' :
  mapM_st (layout_step names) l (mkLayout 0 va0 (Some x0) 0 None []) = Ok (st', l') ->
  (forall s rest, l = s :: rest -> alloc s = true) -> x0 <> 0 -> zf_inv l l l' st'.
Proof.
  intros H Hh Hx0.
  apply (mapM_st_trace (fun pre pre' st => Forall2 only_placed pre pre' /\ range_inv va0 0 pre' st /\ seg_inv l x0 va0 pre pre' st /\ zf_inv l pre pre' st)) in H.
  - apply H.
  - split; [constructor|]. split.
    + split; simpl; try lia; try set_solver; try apply ordered_nil. done.
    + split; [split; simpl; try done; try set_solver; try apply ordered_nil|]. intros _ s Hs. by apply elem_of_nil in Hs.
  - intros pre pre' post st s st1 s1 Hl (HF & HR & HI & HZ) Hs.
    destruct (step_spec _ _ _ _ _ Hs) as (st2 & Hp & t & Ht & Hst).
    split; [apply Forall2_app; [done|]; constructor; [by eapply placed_only|done]|].
    split; [by eapply range_inv_step|].
    assert (seg_inv l x0 va0 (pre ++ [s]) (pre' ++ [s1]) st2) as HI2.
    { eapply (seg_inv_placed l x0 va0 pre pre' post st s); try done.
      - intros ->. by eapply Hh.
      - by eapply Forall2_length. }
    assert (HZ2 : zf_inv l (pre ++ [s]) (pre' ++ [s1]) st2) by (eapply zf_placed; [exact Hl|exact HF|exact HI|exact Hp|exact HZ]).
    destruct t as [t|]; [|subst st1; by split]. destruct Hst as (ph & -> & Hty & _). split; [|by apply zf_inv_phs].
    apply seg_inv_phs; [|done]. rewrite Hty. apply p_type_of_spec in Ht.
    destruct (decide _); [|done]. injection Ht as ->. apply special_type_not_load.
Qed.

(** * The segments of a link *)
Section segs.
  Context {wd : world} {lo : lib_oracle} {l : linker} {fuel : nat} {w : writer} {secs : list section}
    {w0 wr ws w1 : writer} {extra : N} {null : section} {rest rest' : list section} {st : layout} {w3 w4 w5 w6 w7 : writer}
    {null' : section} {out : list section}.
  Context (O : outcome wd lo l fuel w secs w0 wr ws w1 extra null rest rest' st w3 w4 w5 w6 w7 null' out).
  Context (V : valid_oracle (lo_writer lo)).
  Lemma laid_nobits_last : zero_fill_last secs -> nobits_last (indexed (o_sort (lo_writer lo) rest)).
  Proof using O V.
    intros Hz p q sp sq Hpq Hsp Hsq Efl Hnb Hm0.
    destruct (Forall2_lookup_l _ _ _ _ _ (placed_all O) Hsp) as (p' & Hp' & Pp). destruct (Forall2_lookup_l _ _ _ _ _ (placed_all O) Hsq) as (q' & Hq' & Pq).
    destruct (out_flags_rest' O _ _ Hp') as (po & Hpo & Wp). destruct (out_flags_rest' O _ _ Hq') as (qo & Hqo & Wq).
    pose proof (proj1 Wp) as Dp. pose proof (proj1 Wq) as Dq. unfold same_decl in Dp, Dq.
    pose proof (placed_decl _ _ Pp) as Dp'. pose proof (placed_decl _ _ Pq) as Dq'. unfold same_decl in Dp', Dq'.
    assert (Ep : decl po = decl sp) by congruence. assert (Eq : decl qo = decl sq) by congruence.
    rewrite <- (decl_nobits _ _ Eq). rewrite <- (decl_nobits _ _ Ep) in Hnb. rewrite <- (decl_flags _ _ Ep), <- (decl_flags _ _ Eq) in Efl.
    assert (Hm' : memsz p' = memsz sp) by (destruct Pp as [-> _]; done).
    assert (Hns : sc_synth po <> Some KCopyRel).
    { intros E. apply Hm0. rewrite <- Hm'. eapply (copyrel_laid_out O V); [by eapply elem_of_list_lookup_2|]. by rewrite <- (decl_synth _ _ Dp). }
    apply (Hz (S p) (S q) po qo); [lia|by apply (secs_out O)|by apply (secs_out O)|done|done|done|]. by rewrite (written_memsz _ _ _ Wp Hns), Hm'.
  Qed.
  Lemma out_zero s : no_lone_write out -> zero_fill_last secs -> s ∈ out -> alloc s = true -> is_nobits s = true -> sc_synth s <> Some KCopyRel -> memsz s <> 0 ->
    exists ph, ph ∈ loads (w_program_headers w) /\ mem_inside s ph /\ p_vaddr ph + p_filesz ph <= addr s /\ p_flags ph = perms s.
  Proof using O V.
    intros HW Hz Hs Ha Hn Hsy Hm. pose proof Hs as Hs'. apply elem_of_list_lookup in Hs' as [i Hi]. destruct (rest'_out O _ _ Hi) as (a & Hia & Hw).
    pose proof (proj1 Hw) as Hd. unfold same_decl in Hd.
    pose proof (zf_inv_all _ _ _ _ _ _ (oc_layout O) (head_alloc O V HW) (x0_nonzero (lo := lo) (rest := rest)) (laid_nobits_last Hz)) as Z.
    destruct (Z a (elem_of_list_lookup_2 _ _ _ Hia)) as (ph & K1 & K2 & K3 & K4).
    { by rewrite <- (decl_alloc _ _ Hd). } { by rewrite <- (decl_nobits _ _ Hd). } { by rewrite <- (written_memsz _ _ _ Hw Hsy). }
    exists ph. destruct (final_headers O) as (ph0 & Eph & Eph0 & _).
    assert (K4' : ph ∈ loads (ly_phs st)). { destruct K4 as [[K4 _]|K4]; [|exact K4]. pose proof (none_open O V) as E. rewrite E in K4. discriminate K4. }
    split. { rewrite Eph. unfold loads. rewrite filter_cons, decide_False; [exact K4'|]. by rewrite Eph0. }
    unfold mem_inside in *. rewrite (written_memsz _ _ _ Hw Hsy). destruct Hw as (_ & _ & E1 & E2 & _). rewrite E1. split; [done|]. split; [done|]. by rewrite (decl_perms _ _ Hd).
  Qed.
  Lemma copyrel_name s : plain_inputs wd l -> names_fit w -> mapM_res (sec_finalize (lo_writer lo) w) (w_sections w) = Ok secs -> s ∈ secs -> sc_synth s = Some KCopyRel -> sec_name w s = Some ".copyrel".
  Proof using O V.
    intros P NF Fin Hs Hc. destruct (out_class O Fin V P s (proj1 NF) Hs) as (a & n & _ & Hw & Hn & Hcl & HC). unfold sec_name in *.
    rewrite (decl_name _ _ (proj1 Hw)), Hn. rewrite (decl_synth _ _ (proj1 Hw)) in Hc. destruct HC as [_ ->]; [exact Hc|reflexivity].
  Qed.
End segs.

(** * The file in memory *)
Lemma one_segment phs a ph : ordered (fun x y => p_vaddr x + p_memsz x <= p_vaddr y) (loads phs) -> ph ∈ loads phs -> p_vaddr ph <= a < p_vaddr ph + p_memsz ph ->
  filter (in_segment a) phs = [ph].
Proof.
  intros HO Hph Ha. assert (E : filter (in_segment a) phs = filter (fun x => p_vaddr x <= a < p_vaddr x + p_memsz x) (loads phs)).
  { unfold loads. rewrite list_filter_filter. apply list_filter_iff. intros x. unfold in_segment, is_load. tauto. }
  rewrite E. apply elem_of_list_lookup in Hph as [i Hi]. apply (filter_at _ _ i); [exact Hi|]. intros j y Hj. split; [|intros ->; congruence]. intros Hy.
  destruct (Nat.lt_trichotomy i j) as [L|[->|L]]; [pose proof (HO _ _ _ _ L Hi Hj) as HH|reflexivity|pose proof (HO _ _ _ _ L Hj Hi) as HH]; cbv beta in HH; lia.
Qed.
Lemma rd_bytes_Some n (data : bytes) off bs : rd_bytes n data off = Some bs -> length bs = n /\ forall k b, bs !! k = Some b -> data !! (N.to_nat off + k)%nat = Some b.
Proof.
  unfold rd_bytes. destruct (decide _) as [E|E]; [|discriminate]. intros [= <-]. split; [exact E|]. intros k b Hb. apply lookup_take_Some in Hb as [Hb _]. by rewrite lookup_drop in Hb.
Qed.
Section image.
  Context {wd : world} {lo : lib_oracle} {l : linker} {fuel : nat} {w : writer} {secs : list section} {data : bytes}.
  Context (R : runnable wd lo l fuel w secs data).
  Let G := rn_good _ _ _ _ _ _ _ R.
  Lemma run_reads : reads_back data w secs.
  Proof using R.
    destruct (rn_file _ _ _ _ _ _ _ R) as (effs & path & E1 & E2).
    exact (proj2 (C36_partial _ _ _ _ _ _ _ _ _ (gl_oracle _ _ _ _ _ _ G) (gl_links _ _ _ _ _ _ G) (gl_inputs _ _ _ _ _ _ G) (rn_write _ _ _ _ _ _ _ R) (proj1 (gl_names _ _ _ _ _ _ G)) (rn_fit _ _ _ _ _ _ _ R) E1 E2)).
  Qed.
  Lemma run_ordered : ordered (fun x y => p_vaddr x + p_memsz x <= p_vaddr y) (loads (w_program_headers w)).
  Proof using R.
    destruct (links_outcome _ _ _ _ _ _ (gl_links _ _ _ _ _ _ G)) as (w0 & wr & ws & w1 & extra & null & rest & rest' & st & w3 & w4 & w5 & w6 & w7 & null' & out & O). pose proof (gl_oracle _ _ _ _ _ _ G) as V.
    intros i j a b Hij Ha Hb. rewrite (loads_final O V) in Ha, Hb. destruct (sg_ord _ _ _ _ _ _ (segs O V (lone_out O (rn_write _ _ _ _ _ _ _ R))) i j a b Hij Ha Hb) as [O1 _].
    pose proof (up_spec (p_vaddr a + p_memsz a)) as (U1 & _). lia.
  Qed.
  Lemma image : exists p, map_file data = Some p /\ pr_phs p = w_program_headers w /\
    forall s, s ∈ secs -> alloc s = true -> sec_name w s <> Some ".copyrel" -> in_memory p s.
  Proof using R.
    destruct run_reads as (R1 & R2 & _ & R4). exists (mkProcess (w_program_headers w) (mapped data (w_program_headers w))). split; [unfold map_file, headers; rewrite R1; cbn [mbind option_bind]; rewrite R2; reflexivity|]. split; [reflexivity|].
    intros s Hs Ha Hnm. pose proof run_ordered as HO.
    destruct (links_outcome _ _ _ _ _ _ (gl_links _ _ _ _ _ _ G)) as (w0 & wr & ws & w1 & extra & null & rest & rest' & st & w3 & w4 & w5 & w6 & w7 & null' & out & O).
    pose proof (proj2 (gl_links _ _ _ _ _ _ G)) as Fin. pose proof (gl_oracle _ _ _ _ _ _ G) as V. pose proof (lone_out O (rn_write _ _ _ _ _ _ _ R)) as HW. pose proof (alloc_out O s Hs Ha) as Hso.
    assert (Hsy : sc_synth s <> Some KCopyRel) by (intros E; apply Hnm; exact (copyrel_name O V s (gl_inputs _ _ _ _ _ _ G) (gl_names _ _ _ _ _ _ G) Fin Hs E)).
    assert (HP : forall ph, p_flags ph = perms s -> N.testbit (p_flags ph) 1 = writable s /\ N.testbit (p_flags ph) 0 = executable s).
    { intros ph ->. unfold perms. destruct (writable s), (executable s); split; reflexivity. }
    assert (K : exists ph, ph ∈ loads (w_program_headers w) /\ mem_inside s ph /\ p_flags ph = perms s /\
      forall k, k < memsz s -> mapped data [ph] (addr s + k) = (if is_nobits s then Some 0 else contents s !! N.to_nat k) /\ is_Some (mapped data [ph] (addr s + k))).
    { assert (U : forall ph a, ph ∈ loads (w_program_headers w) -> p_vaddr ph <= a < p_vaddr ph + p_memsz ph -> filter (in_segment a) [ph] = [ph]).
      { intros ph a Hp Hr. apply elem_of_list_filter in Hp as [Hp _]. rewrite filter_cons, decide_True; [reflexivity|]. split; [exact Hp|exact Hr]. }
      destruct (is_nobits s) eqn:En.
      - destruct (decide (memsz s = 0)) as [E0|E0].
        + destruct (out_segment O V s HW Hso Ha Hsy) as (ph & P1 & P2 & P3 & P4 & _). exists ph. split_and!; try assumption. intros k Hk. lia.
        + destruct (out_zero O V s HW (rn_zero _ _ _ _ _ _ _ R) Hso Ha En Hsy E0) as (ph & P1 & P2 & P3 & P4). exists ph. split_and!; try assumption. intros k Hk.
          destruct P2 as [P2 P2']. unfold mapped. rewrite (U ph (addr s + k) P1) by lia. rewrite (proj2 (N.ltb_ge _ _)) by lia. split; [reflexivity|by eexists].
      - destruct (out_segment O V s HW Hso Ha Hsy) as (ph & P1 & P2 & P3 & P4 & P5). specialize (P5 (rn_zero _ _ _ _ _ _ _ R) En). exists ph. split_and!; try assumption. intros k Hk.
        destruct P2 as [P2 P2']. destruct P3 as [P3 P3']. unfold mapped. rewrite (U ph (addr s + k) P1) by lia. assert (Ef : filesz s = memsz s) by (unfold filesz; by rewrite En).
        rewrite (proj2 (N.ltb_lt _ _)) by lia. destruct (rd_bytes_Some _ _ _ _ (R4 s Hs)) as [L1 L2].
        destruct (lookup_lt_is_Some_2 (contents s) (N.to_nat k)) as [b Hb]; [rewrite L1; lia|]. rewrite Hb.
        replace (N.to_nat (p_offset ph + (addr s + k - p_vaddr ph))) with (N.to_nat (offset s) + N.to_nat k)%nat by lia. rewrite (L2 _ _ Hb). split; [reflexivity|by eexists]. }
    destruct K as (ph & P1 & [P2 P2'] & P3 & P4). destruct (HP ph P3) as [F1 F2].
    assert (E : forall k, k < memsz s -> filter (in_segment (addr s + k)) (w_program_headers w) = [ph]) by (intros k Hk; apply one_segment; [exact HO|exact P1|lia]).
    assert (E1 : forall k, k < memsz s -> filter (in_segment (addr s + k)) [ph] = [ph]).
    { intros k Hk. apply elem_of_list_filter in P1 as [P1 _]. rewrite filter_cons, decide_True; [reflexivity|]. split; [exact P1|lia]. }
    assert (E2 : forall k, k < memsz s -> mapped data (w_program_headers w) (addr s + k) = mapped data [ph] (addr s + k)) by (intros k Hk; unfold mapped; rewrite (E k Hk), (E1 k Hk); reflexivity).
    split; intros k Hk; cbn [pr_mem pr_phs].
    - rewrite (E2 k Hk). exact (proj1 (P4 k Hk)).
    - split; [rewrite (E2 k Hk); exact (proj2 (P4 k Hk))|]. unfold can_write, can_run. rewrite (E k Hk). split; [exact F1|exact F2].
  Qed.
End image.
