(** The writer's sections in terms of the sequence of additions. *)
From Verif Require Export ProofTrace ProofBind.

Lemma mod_chunk_ids id i f secs secs' : ids_ok secs -> mod_chunk id i f secs = Ok secs' ->
  exists s c, secs !! id = Some s /\ sc_chunks s !! i = Some c /\ secs' = <[id := s <| sc_chunks := <[i := f c]> (sc_chunks s) |>]> secs.
Proof.
  intros Hi H. apply mod_chunk_Ok in H as (s & c & Hs & Hc & ->). rewrite get_section_ids in Hs by done. exists s, c. split; [done|]. split; [done|].
  assert (E : alter f i (sc_chunks s) = <[i := f c]> (sc_chunks s)).
  { apply list_eq. intros m. destruct (decide (m = i)) as [->|Hm].
    - rewrite list_lookup_alter, Hc, list_lookup_insert by (by eapply lookup_lt_Some). done.
    - by rewrite list_lookup_alter_ne, list_lookup_insert_ne by done. }
  rewrite <- E. rewrite upd_section_ids by done. apply list_eq. intros k. destruct (decide (k = id)) as [->|Hne].
  - rewrite list_lookup_alter, Hs, list_lookup_insert by (by eapply lookup_lt_Some). done.
  - by rewrite list_lookup_alter_ne, list_lookup_insert_ne by done.
Qed.
Lemma winv_ids n0 w0 w : winv n0 w0 w -> ids_ok (w_sections w).
Proof. intros H i s Hs. by apply (wi_ids _ _ _ H). Qed.

(** The chunks' data, given the section the link started with. *)
Definition datas_of (o : option section) (cs : list sec_in) : list bytes :=
  match o with
  | Some s0 => (c_data <$> sc_chunks s0) ++ omap si_data cs
  | None => match cs with [] => [] | x :: cs' => si_bytes x :: omap si_data cs' end
  end.
Lemma datas_snoc o cs x : (o = None -> cs <> []) -> datas_of o (cs ++ [x]) = datas_of o cs ++ option_list (si_data x).
Proof.
  intros H. destruct o as [s0|]; simpl.
  - rewrite omap_app, app_assoc. simpl. by destruct (si_data x).
  - destruct cs as [|y cs]; [by destruct H|]. simpl. rewrite omap_app. simpl. by destruct (si_data x).
Qed.
Record sec_is (o : option section) (cs : list sec_in) (s : section) : Prop := {
  si_datas : c_data <$> sc_chunks s = datas_of o cs;
  si_memsz : memsz s = from_option memsz 0 o + ntotal (si_size <$> cs);
  si_aligned : align s = N.max (from_option align 0 o) (nmax (si_align <$> cs));
  si_head : o = None -> exists x, head cs = Some x /\
    sc_sh s = si_sh x <| sh_name := sh_name (sc_sh s) |> <| sh_addr := 0 |> <| sh_offset := 0 |> <| sh_size := memsz s |> <| sh_addralign := align s |> }.
Lemma ntotal_app a b : ntotal (a ++ b) = ntotal a + ntotal b.
Proof. unfold ntotal. induction a as [|x a IH]; simpl; [lia|]. lia. Qed.
Lemma nmax_app a b : nmax (a ++ b) = N.max (nmax a) (nmax b).
Proof. unfold nmax. induction a as [|x a IH]; simpl; [lia|]. lia. Qed.

(** The relocations and symbols events add to the chunk [sr]. *)
Definition rel_at (sr : section_ref) (v : event) : option (Rela * symref) :=
  match v with EvRel x r sr' => if decide (sr' = sr) then Some (rela_of (ri_rel x), r) else None | _ => None end.
Definition defines (v : event) (sr : section_ref) (r : symref) : Prop :=
  exists x, v = EvSym x (Some sr) r /\ st_shndx (yi_sym x) <> 0xfff1.
Global Instance section_ref_eq_dec : EqDecision section_ref.
Proof. solve_decision. Defined.
Definition uses (v : event) (sr : section_ref) : Prop := (exists r, defines v sr r) \/ is_Some (rel_at sr v).

Section secs.
  Context (n0 : nat) (w0 : writer).
  Record sinv (evs : list event) (w : writer) : Prop := {
    sv_w : winv n0 w0 w;
    sv_sec : forall i s n p, w_sections w !! i = Some s -> stt_names (w_shstrtab w) !! i = Some (n, p) ->
      sec_is (w_sections w0 !! i) (contribs n (omap sec_of evs)) s;
    sv_ref : forall pre x sr post, evs = pre ++ EvSec x sr :: post ->
      (exists o, stt_names (w_shstrtab w) !! sr_section sr = Some (si_name x, (N.of_nat (sr_section sr), o))) /\
      S (sr_chunk sr) = length (datas_of (w_sections w0 !! sr_section sr) (contribs (si_name x) (omap sec_of (pre ++ [EvSec x sr]))));
    sv_chunk : forall i j s c, w_sections w !! i = Some s -> sc_chunks s !! j = Some c ->
      c_relocations c = omap (rel_at (mkSref i j)) evs /\ NoDup (c_symbols c) /\ c_address c = None /\
      (forall r, r ∈ c_symbols c <-> exists v, v ∈ evs /\ defines v (mkSref i j) r);
    sv_range : forall v sr, v ∈ evs -> uses v sr -> exists s c, w_sections w !! sr_section sr = Some s /\ sc_chunks s !! sr_chunk sr = Some c }.

  Lemma contribs_app n a b : contribs n (a ++ b) = contribs n a ++ contribs n b.
  Proof using. unfold contribs. by rewrite filter_app. Qed.
  Lemma names_unique w i j n p q : winv n0 w0 w -> stt_names (w_shstrtab w) !! i = Some (n, p) -> stt_names (w_shstrtab w) !! j = Some (n, q) -> i = j.
  Proof using.
    intros HI Hi Hj. pose proof (st_reach_ok _ (wi_st _ _ _ HI)) as Hok.
    eapply (NoDup_lookup ((stt_names (w_shstrtab w)).*1)); [by apply ok_nodup| |]; rewrite list_lookup_fmap; [by rewrite Hi|by rewrite Hj].
  Qed.

  (** Lookups in a list with one element replaced. *)
  Lemma insert_cases {A} (l : list A) i x j y : <[i := x]> l !! j = Some y -> (j = i /\ y = x /\ (i < length l)%nat) \/ (j <> i /\ l !! j = Some y).
  Proof using. intros H. apply list_lookup_insert_Some in H as [(<- & -> & Hl)|[Hne H]]; [by left|right; split; [congruence|done]]. Qed.
  Lemma sref_eta sr : sr = mkSref (sr_section sr) (sr_chunk sr).
  Proof using. by destruct sr. Qed.
  Lemma defines_snoc evs v sr r : (exists u, u ∈ evs ++ [v] /\ defines u sr r) <-> (exists u, u ∈ evs /\ defines u sr r) \/ defines v sr r.
  Proof using.
    split.
    - intros (u & Hu & Hd). apply elem_of_app in Hu as [Hu|Hu]; [left; by exists u|]. apply elem_of_list_singleton in Hu as ->. by right.
    - intros [(u & Hu & Hd)|Hd]; [exists u|exists v]; (split; [|done]); apply elem_of_app; [by left|right; by apply elem_of_list_singleton].
  Qed.

  (** An event that touches at most one chunk, keeping its data. *)
  Definition touches (v : event) (w w' : writer) : Prop :=
    (w_sections w' = w_sections w /\ forall sr, ~ uses v sr) \/
    exists sr s c c', w_sections w !! sr_section sr = Some s /\ sc_chunks s !! sr_chunk sr = Some c /\
      w_sections w' = <[sr_section sr := s <| sc_chunks := <[sr_chunk sr := c']> (sc_chunks s) |>]> (w_sections w) /\
      c_data c' = c_data c /\ c_address c' = c_address c /\ c_relocations c' = c_relocations c ++ option_list (rel_at sr v) /\
      (NoDup (c_symbols c) -> NoDup (c_symbols c')) /\ (forall r, r ∈ c_symbols c' <-> r ∈ c_symbols c \/ defines v sr r) /\
      forall sr', uses v sr' -> sr' = sr.
  Lemma rel_at_uses v sr : ~ uses v sr -> rel_at sr v = None.
  Proof using. intros H. destruct (rel_at sr v) eqn:E; [|done]. exfalso. apply H. right. by rewrite E. Qed.
  Lemma sinv_touch evs w v w' : sec_of v = None -> winv n0 w0 w' -> w_shstrtab w' = w_shstrtab w -> touches v w w' ->
    sinv evs w -> sinv (evs ++ [v]) w'.
  Proof using.
    intros Hv HI' Hn HT [HI Hsec Href Hch Hrg].
    assert (Eo : omap sec_of (evs ++ [v]) = omap sec_of evs) by (rewrite omap_app; simpl; rewrite Hv; by rewrite app_nil_r).
    assert (R : forall pre x sr post, evs ++ [v] = pre ++ EvSec x sr :: post -> exists post', evs = pre ++ EvSec x sr :: post').
    { intros pre x sr post E. destruct post as [|y post _] using rev_ind.
      - apply app_inj_tail in E as [_ ->]. done.
      - rewrite app_comm_cons, app_assoc in E. apply app_inj_tail in E as [-> _]. by exists post. }
    destruct HT as [[Es Hu]|(sr & s & c & c' & Hs & Hc & Es & Hd & Ha & Hr & Hnd & Hsy & Hu)].
    - split; [done| | | |].
      + intros i s n p Hs Hp. rewrite Eo. rewrite Es in Hs. rewrite Hn in Hp. by eapply Hsec.
      + intros pre x sr post E. destruct (R _ _ _ _ E) as [post' E']. rewrite Hn. by apply (Href pre x sr post').
      + intros i j s c Hs Hc. rewrite Es in Hs. destruct (Hch i j s c Hs Hc) as (C1 & C2 & C3 & C4). rewrite omap_app, C1. simpl.
        rewrite rel_at_uses by done. split; [by rewrite app_nil_r|]. split; [done|]. split; [done|]. intros r. rewrite defines_snoc, C4.
        split; [by left|]. intros [H|H]; [done|]. exfalso. apply (Hu (mkSref i j)). left. by exists r.
      + intros u sr [Hx|Hx]%elem_of_app Hy; [rewrite Es; by apply (Hrg u)|]. apply elem_of_list_singleton in Hx as ->. by destruct (Hu sr).
    - set (s' := s <| sc_chunks := <[sr_chunk sr := c']> (sc_chunks s) |>) in *.
      assert (Hlt : (sr_section sr < length (w_sections w))%nat) by (by eapply lookup_lt_Some).
      assert (Hlc : (sr_chunk sr < length (sc_chunks s))%nat) by (by eapply lookup_lt_Some).
      assert (Ed : c_data <$> sc_chunks s' = c_data <$> sc_chunks s).
      { unfold s'. simpl. rewrite list_fmap_insert, Hd. apply list_insert_id. by rewrite list_lookup_fmap, Hc. }
      split; [done| | | |].
      + intros i x n p Hx Hp. rewrite Eo. rewrite Es in Hx. rewrite Hn in Hp. apply insert_cases in Hx as [(-> & -> & _)|[_ Hx]]; [|by eapply Hsec].
        destruct (Hsec _ _ _ _ Hs Hp) as [S1 S2 S3 S4]. split; [by rewrite Ed|exact S2|exact S3|exact S4].
      + intros pre x sr' post E. destruct (R _ _ _ _ E) as [post' E']. rewrite Hn. by apply (Href pre x sr' post').
      + intros i j x y Hx Hy. rewrite Es in Hx. rewrite omap_app. simpl.
        destruct (decide (mkSref i j = sr)) as [E|E].
        * subst sr. simpl in *. apply insert_cases in Hx as [(_ & -> & _)|[Hne _]]; [|done]. unfold s' in Hy. simpl in Hy.
          rewrite list_lookup_insert in Hy by done. injection Hy as <-. destruct (Hch i j s c Hs Hc) as (C1 & C2 & C3 & C4).
          rewrite Hr, C1, Ha. split; [by destruct (rel_at (mkSref i j) v)|]. split; [by apply Hnd|]. split; [done|].
          intros r. by rewrite defines_snoc, Hsy, C4.
        * assert (Hold : exists z, w_sections w !! i = Some z /\ sc_chunks z !! j = Some y).
          { apply insert_cases in Hx as [(-> & -> & _)|[Hne Hx]]; [|by exists x]. exists s. split; [done|]. unfold s' in Hy. simpl in Hy.
            apply insert_cases in Hy as [(-> & _)|[_ Hy]]; [|done]. exfalso. apply E. by destruct sr. }
          destruct Hold as (z & Hz & Hzy). destruct (Hch i j z y Hz Hzy) as (C1 & C2 & C3 & C4).
          assert (Hno : ~ uses v (mkSref i j)) by (intros H; by apply E, Hu).
          rewrite rel_at_uses by done. rewrite C1, app_nil_r. split; [done|]. split; [done|]. split; [done|].
          intros r. rewrite defines_snoc, C4. split; [by left|]. intros [H|H]; [done|]. exfalso. apply Hno. left. by exists r.
      + assert (G : forall sr', (exists x y, w_sections w !! sr_section sr' = Some x /\ sc_chunks x !! sr_chunk sr' = Some y) ->
            exists x y, w_sections w' !! sr_section sr' = Some x /\ sc_chunks x !! sr_chunk sr' = Some y).
        { intros sr' (x & y & Hx & Hy). rewrite Es. destruct (decide (sr_section sr' = sr_section sr)) as [E|E].
          - rewrite E in *. rewrite list_lookup_insert by done. rewrite Hs in Hx. injection Hx as <-. exists s'. unfold s'. simpl.
            destruct (decide (sr_chunk sr' = sr_chunk sr)) as [E'|E'].
            + rewrite E'. rewrite list_lookup_insert by done. by exists c'.
            + rewrite list_lookup_insert_ne by done. by exists y.
          - rewrite list_lookup_insert_ne by done. by exists x, y. }
        intros u sr' [Hx|Hx]%elem_of_app Hy; [apply G; by apply (Hrg u)|]. apply elem_of_list_singleton in Hx as ->.
        apply G. rewrite (Hu sr' Hy). by exists s, c.
  Qed.

  Lemma rel_at_none evs w i j : sinv evs w -> (forall s c, w_sections w !! i = Some s -> sc_chunks s !! j = Some c -> False) ->
    omap (rel_at (mkSref i j)) evs = [] /\ forall r, ~ exists v, v ∈ evs /\ defines v (mkSref i j) r.
  Proof using.
    intros HI Hno. split.
    - pose proof (sv_range _ _ HI) as Hrg. clear HI. induction evs as [|v evs IH]; simpl; [done|].
      destruct (rel_at (mkSref i j) v) eqn:E.
      + destruct (Hrg v (mkSref i j)) as (s & c & Hs & Hc); [left|right; by rewrite E|]. destruct (Hno s c Hs Hc).
      + apply IH. intros u sr Hu. apply Hrg. by right.
    - intros r (v & Hv & Hd). destruct (sv_range _ _ HI v (mkSref i j) Hv) as (s & c & Hs & Hc); [left; by exists r|]. by destruct (Hno s c Hs Hc).
  Qed.
  Lemma contribs_single n x : contribs n [x] = if decide (si_name x = n) then [x] else [].
  Proof using. unfold contribs. rewrite filter_cons. by case_decide. Qed.
  Lemma snoc_split {A} (evs : list A) v pre u post : evs ++ [v] = pre ++ u :: post -> (post = [] /\ u = v /\ pre = evs) \/ exists post', post = post' ++ [v] /\ evs = pre ++ u :: post'.
  Proof using.
    intros E. destruct post as [|y post _] using rev_ind.
    - apply app_inj_tail in E as [-> ->]. by left.
    - right. rewrite app_comm_cons, app_assoc in E. apply app_inj_tail in E as [-> ->]. by exists post.
  Qed.
  Lemma new_none evs w n : sinv evs w -> n ∉ (stt_names (w_shstrtab w)).*1 -> contribs n (omap sec_of evs) = [].
  Proof using.
    intros HI Hn. unfold contribs. apply filter_none. intros x Hx E. apply elem_of_list_omap in Hx as (v & Hv & Hvx).
    destruct v as [y sr| | |]; try discriminate. injection Hvx as ->. apply elem_of_list_split in Hv as (pre & post & ->).
    destruct (sv_ref _ _ HI pre x sr post eq_refl) as [(o & Ho) _]. apply Hn. apply elem_of_list_fmap. eexists. split; [|by eapply elem_of_list_lookup_2].
    by rewrite E.
  Qed.

  Lemma sinv_section evs w x w' sr : sinv evs w -> copied (si_sh x) = true -> add_section w (si_name x) (si_sh x) (si_data x) = Ok (w', sr) ->
    sinv (evs ++ [EvSec x sr]) w'.
  Proof using.
    intros HI Hcp H. pose proof HI as [Hw Hsec Href Hch Hrg].
    assert (Hw' : winv n0 w0 w') by (eapply winv_section; [done| |done]; by apply copied_skipped).
    assert (Eo : omap sec_of (evs ++ [EvSec x sr]) = omap sec_of evs ++ [x]) by (rewrite omap_app; done).
    assert (Er : forall sr', omap (rel_at sr') (evs ++ [EvSec x sr]) = omap (rel_at sr') evs) by (intros sr'; rewrite omap_app; simpl; by rewrite app_nil_r).
    assert (Ed : forall sr' r, (exists v, v ∈ evs ++ [EvSec x sr] /\ defines v sr' r) <-> (exists v, v ∈ evs /\ defines v sr' r)).
    { intros sr' r. rewrite defines_snoc. split; [|by left]. intros [?|(y & Hy & _)]; [done|discriminate Hy]. }
    assert (Un : forall v sr', v ∈ evs ++ [EvSec x sr] -> uses v sr' -> v ∈ evs).
    { intros v sr' [Hv|Hv]%elem_of_app Hu; [done|]. apply elem_of_list_singleton in Hv as ->. destruct Hu as [(r & y & Hy & _)|[? Hu]]; [discriminate Hy|discriminate Hu]. }
    pose proof (wi_len _ _ _ Hw) as Hlen.
    destruct (add_section_cases _ _ _ _ _ _ _ _ Hw H) as [(i & s & o & Hn & Hs & Hne & -> & ->)|(Hnew & -> & o & Hn' & Hs')].
    - set (s' := _ : section) in *.
      assert (Hlt : (i < length (w_sections w))%nat) by (by eapply lookup_lt_Some).
      pose proof (Hsec i s _ _ Hs Hn) as Hi.
      assert (Hcs : w_sections w0 !! i = None -> contribs (si_name x) (omap sec_of evs) <> []).
      { intros E E'. destruct (si_head _ _ _ Hi E) as (y & Hy & _). by rewrite E' in Hy. }
      assert (Hdat : c_data <$> sc_chunks s' = datas_of (w_sections w0 !! i) (contribs (si_name x) (omap sec_of evs ++ [x]))).
      { rewrite contribs_app, contribs_single, decide_True by done. rewrite datas_snoc by done. rewrite <- (si_datas _ _ _ Hi).
        unfold s'. simpl. destruct (si_data x); simpl; [by rewrite fmap_app|by rewrite app_nil_r]. }
      split; [done| | | |].
      + intros k t n p Ht Hp. simpl in Ht, Hp. rewrite Eo. apply insert_cases in Ht as [(-> & -> & _)|[Hki Ht]].
        * rewrite Hn in Hp. injection Hp as <- <-. destruct Hi as [I1 I2 I3 I4]. split; [done| | |].
          -- rewrite contribs_app, contribs_single, decide_True by done. rewrite fmap_app, ntotal_app. simpl. unfold memsz, align in *. simpl in *.
             rewrite I2. unfold ntotal, si_size. simpl. lia.
          -- rewrite contribs_app, contribs_single, decide_True by done. rewrite fmap_app, nmax_app. simpl. unfold memsz, align in *. simpl in *.
             rewrite I3. unfold nmax, si_align. simpl. lia.
          -- intros E. destruct (I4 E) as (y & Hy & Hyy). exists y. rewrite contribs_app. split.
             ++ destruct (contribs (si_name x) (omap sec_of evs)); [discriminate Hy|done].
             ++ unfold s', memsz, align in *. simpl in *. destruct (sc_sh s), (si_sh y); simpl in *. unfold RecordSet.set in *. simpl in *. by injection Hyy as -> -> -> -> -> -> ->.
        * assert (n <> si_name x).
          { intros ->. apply Hki. by eapply names_unique. }
          rewrite contribs_app, contribs_single, decide_False by congruence. rewrite app_nil_r. by eapply Hsec.
      + intros pre y sr' post E. simpl. apply snoc_split in E as [(-> & Ey & ->)|(post' & -> & ->)].
        * injection Ey as -> ->. simpl. split; [by exists o|]. rewrite Eo, <- Hdat, fmap_length. unfold s'. simpl. destruct (si_data x); [rewrite app_length; simpl; lia|].
          specialize (Hne eq_refl). destruct (sc_chunks s); [done|]. simpl. lia.
        * by apply (Href pre y sr' post').
      + intros k j t c Ht Hc. rewrite Er. setoid_rewrite Ed. simpl in Ht. apply insert_cases in Ht as [(-> & -> & _)|[Hki Ht]]; [|by eapply Hch].
        unfold s' in Hc. simpl in Hc. destruct (si_data x) as [d|]; [|by eapply Hch].
        apply lookup_app_Some in Hc as [Hc|[Hj Hc]]; [by eapply Hch|]. apply list_lookup_singleton_Some in Hc as [Hj' <-].
        destruct (rel_at_none evs w i j HI) as [R1 R2].
        { intros s1 c1 H1 H2. rewrite Hs in H1. injection H1 as <-. apply lookup_lt_Some in H2. lia. }
        rewrite R1. split; [done|]. split; [constructor|]. split; [done|]. intros r. split; [|by intros ?%R2]. simpl. by intros ?%elem_of_nil.
      + intros v sr' Hv Hu. destruct (Hrg v sr' (Un _ _ Hv Hu) Hu) as (s1 & c1 & H1 & H2). simpl. destruct (decide (sr_section sr' = i)) as [E|E].
        * rewrite E in *. rewrite list_lookup_insert by done. exists s'. rewrite Hs in H1. injection H1 as <-. exists c1. split; [done|]. unfold s'. simpl.
          destruct (si_data x); [|done]. by apply lookup_app_l_Some.
        * rewrite list_lookup_insert_ne by done. by exists s1, c1.
    - pose proof (new_none _ _ _ HI Hnew) as Hno.
      assert (Hold : forall i t, w_sections w' !! i = Some t -> w_sections w !! i = Some t \/
         i = length (w_sections w) /\ t = section_new (length (w_sections w)) (si_sh x <| sh_name := u32 o |> <| sh_addr := 0 |> <| sh_offset := 0 |>) <| sc_chunks := [chunk_new (default [] (si_data x))] |>).
      { intros i t Ht. rewrite Hs' in Ht. apply lookup_app_Some in Ht as [Ht|[Hi Ht]]; [by left|right]. apply list_lookup_singleton_Some in Ht as [Hi' <-]. split; [lia|done]. }
      assert (Hn0 : w_sections w0 !! length (w_sections w) = None).
      { apply lookup_ge_None. destruct (wi_prefix _ _ _ Hw) as [tl Htl]. destruct (decide (length (w_sections w0) <= length (w_sections w))%nat) as [Hd|Hd]; [done|].
        exfalso. destruct (lookup_lt_is_Some_2 (w_sections w0) (length (w_sections w))) as [z Hz]; [lia|].
        destruct (wi_fixed _ _ _ Hw _ _ Hz) as (z' & Hz' & _). apply lookup_lt_Some in Hz'. lia. }
      split; [done| | | |].
      + intros i t n p Ht Hp. rewrite Eo. destruct (Hold _ _ Ht) as [Ht'|[-> ->]].
        * rewrite Hn' in Hp. rewrite lookup_app_l in Hp by (rewrite Hlen; by eapply lookup_lt_Some).
          rewrite contribs_app, contribs_single, decide_False; [rewrite app_nil_r; by eapply Hsec|].
          intros E. apply Hnew. rewrite E. apply elem_of_list_fmap. exists (n, p). split; [done|]. by eapply elem_of_list_lookup_2.
        * rewrite Hn', lookup_app_r in Hp by lia. rewrite Hlen, Nat.sub_diag in Hp. injection Hp as <- <-.
          rewrite contribs_app, Hno, contribs_single, decide_True by done. rewrite Hn0. simpl. split; [done| | |].
          -- unfold ntotal, memsz, si_size. simpl. lia.
          -- unfold nmax, align, si_align. simpl. lia.
          -- intros _. exists x. split; [done|]. by destruct (si_sh x).
      + intros pre y sr' post E. rewrite Hn'. apply snoc_split in E as [(-> & Ey & ->)|(post' & -> & ->)].
        * injection Ey as -> ->. simpl. split.
          -- exists o. rewrite lookup_app_r, Hlen, Nat.sub_diag by lia. done.
          -- rewrite Eo, contribs_app, Hno, contribs_single, decide_True by done. rewrite Hn0. done.
        * destruct (Href pre y sr' post' eq_refl) as [(o' & Ho) Hl]. split; [|done]. exists o'. by apply lookup_app_l_Some.
      + intros k j t c Ht Hc. rewrite Er. setoid_rewrite Ed. destruct (Hold _ _ Ht) as [Ht'|[-> ->]]; [by eapply Hch|].
        simpl in Hc. apply list_lookup_singleton_Some in Hc as [-> <-].
        destruct (rel_at_none evs w (length (w_sections w)) 0 HI) as [R1 R2].
        { intros s1 c1 H1 _. apply lookup_lt_Some in H1. lia. }
        rewrite R1. split; [done|]. split; [constructor|]. split; [done|]. intros r. split; [|by intros ?%R2]. simpl. by intros ?%elem_of_nil.
      + intros v sr' Hv Hu. destruct (Hrg v sr' (Un _ _ Hv Hu) Hu) as (s1 & c1 & H1 & H2). exists s1, c1. split; [|done]. rewrite Hs'. by apply lookup_app_l_Some.
  Qed.
  Lemma defines_sym x sr r sr' r' : defines (EvSym x (Some sr) r) sr' r' <-> sr' = sr /\ r' = r /\ st_shndx (yi_sym x) <> 0xfff1.
  Proof using. split; [intros (y & Hy & Hd); by injection Hy as -> -> ->|intros (-> & -> & Hd); by exists x]. Qed.
  Lemma sinv_symbol evs w x o w' r : sinv evs w -> add_symbol w (yi_sym x) o (yi_name x) (yi_file x) = Ok (w', r) -> sinv (evs ++ [EvSym x o r]) w'.
  Proof using.
    intros HI H. pose proof (sv_w _ _ HI) as Hw. pose proof (winv_symbol _ _ _ _ _ _ _ _ _ Hw H) as Hw'.
    unfold add_symbol in H. apply bind_Ok in H as ([[[names t] secs] r1] & Hin & H). injection H as <- <-.
    apply (sinv_touch evs w); try done. unfold touches. simpl.
    unfold add_symbol_inner in Hin. destruct (st_get_or_create (w_strtab w) (yi_name x)) as [nm en]. simpl in Hin.
    destruct (syt_add_symbol _ _ _ _ _) as [[t1 r2]|]; [|discriminate]. simpl in Hin.
    destruct o as [sr|].
    - destruct (st_shndx (yi_sym x) =? SHN_ABS) eqn:Ea.
      + injection Hin as <- <- <- <-. left. split; [done|]. intros sr' [(r & Hr)|[? Hr]]; [|discriminate Hr]. apply defines_sym in Hr as (_ & _ & Hne). apply N.eqb_eq in Ea. done.
      + apply bind_Ok in Hin as (secs' & Hm & Hin). injection Hin as <- <- <- <-. right.
        apply mod_chunk_ids in Hm as (s & c & Hs & Hc & ->); [|by eapply winv_ids]. exists sr, s, c, (chunk_add_symbol r2 c).
        split; [done|]. split; [done|]. split; [done|]. unfold chunk_add_symbol. apply N.eqb_neq in Ea.
        assert (D : defines (EvSym x (Some sr) r2) sr r2) by (by apply defines_sym).
        case_match eqn:Eb.
        * split; [done|]. split; [done|]. split; [simpl; by rewrite app_nil_r|]. split; [done|].
          split.
          -- intros r. rewrite defines_sym. split; [by left|]. intros [?|(_ & -> & _)]; done.
          -- intros sr' [(r & Hr)|[? Hr]]; [|discriminate Hr]. by apply defines_sym in Hr as (-> & _).
        * split; [done|]. split; [done|]. split; [simpl; by rewrite app_nil_r|]. simpl. split.
          -- intros Hnd. apply NoDup_app. split; [done|]. split; [|apply NoDup_singleton]. intros y Hy ->%elem_of_list_singleton. done.
          -- split.
             ++ intros r. rewrite defines_sym, elem_of_app, elem_of_list_singleton. split; intros [?|?]; (try by left); right; [done|by destruct H as (_ & -> & _)].
             ++ intros sr' [(r & Hr)|[? Hr]]; [|discriminate Hr]. by apply defines_sym in Hr as (-> & _).
    - injection Hin as <- <- <- <-. left. split; [done|]. intros sr' [(r & y & Hy & _)|[? Hr]]; [discriminate Hy|discriminate Hr].
  Qed.
  Lemma sinv_reloc evs w x r sr w' : sinv evs w -> add_relocation w (rela_of (ri_rel x)) r sr = Ok w' -> sinv (evs ++ [EvRel x r sr]) w'.
  Proof using.
    intros HI H. pose proof (sv_w _ _ HI) as Hw. pose proof (winv_reloc _ _ _ _ _ _ _ Hw H) as Hw'.
    unfold add_relocation in H. cbv zeta in H. case_match; [discriminate|]. apply bind_Ok in H as (secs & Hm & H). injection H as <-.
    apply (sinv_touch evs w); try done. right. simpl.
    apply mod_chunk_ids in Hm as (s & c & Hs & Hc & ->); [|by eapply winv_ids]. exists sr, s, c, (chunk_add_relocation (rela_of (ri_rel x)) r c).
    split; [done|]. split; [done|]. split; [done|]. split; [done|]. split; [done|]. split; [simpl; by rewrite decide_True|].
    split; [done|]. split.
    - intros r'. split; [by left|]. intros [?|(y & Hy & _)]; [done|discriminate Hy].
    - intros sr' [(r' & y & Hy & _)|[? Hr]]; [discriminate Hy|]. simpl in Hr. case_decide; [done|discriminate Hr].
  Qed.
  Lemma sinv_dyn evs w path e sym name so r w1 : sinv evs w -> add_dyn_symbol w sym None name path = Ok (w1, r) ->
    sinv (evs ++ [EvDyn path e sym name so r]) (add_needed w1 so).
  Proof using.
    intros HI H. pose proof (sv_w _ _ HI) as Hw. pose proof (winv_needed _ _ _ so (winv_dyn _ _ _ _ _ _ _ _ _ Hw H)) as Hw'.
    assert (E : w_sections w1 = w_sections w /\ w_shstrtab w1 = w_shstrtab w).
    { unfold add_dyn_symbol in H. cbv zeta in H. apply bind_Ok in H as ([[[names t] secs] r1] & Hin & H).
      assert (secs = w_sections w) as ->.
      { apply add_inner_secs in Hin as [?|(? & ? & _)]; done. }
      destruct (st_get _ name); [apply bind_Ok in H as (? & _ & H)|]; by injection H as <- <-. }
    destruct E as [E1 E2].
    assert (E' : w_sections (add_needed w1 so) = w_sections w1 /\ w_shstrtab (add_needed w1 so) = w_shstrtab w1).
    { unfold add_needed. destruct (st_get_or_create _ so) as [nm en]. by destruct (en_new en). }
    destruct E' as [E3 E4]. apply (sinv_touch evs w); [done|done|congruence| |done]. left. split; [congruence|].
    intros sr [(r' & y & Hy & _)|[? Hr]]; [discriminate Hy|discriminate Hr].
  Qed.
End secs.
Lemma ref_no_chunks st : (fun s => if (sc_id s =? id_interp)%nat then 0%nat else length (sc_chunks s)) <$> ref_sections st = replicate (length (ref_sections st)) 0%nat.
Proof. destruct st; vm_compute; reflexivity. Qed.
Lemma writer_new_chunks opts w0 : writer_new opts = Ok w0 -> forall i s c, w_sections w0 !! i = Some s -> c ∈ sc_chunks s -> exists d, c = chunk_new d.
Proof.
  intros H i s c Hs Hc. rewrite (writer_new_sections _ _ H), list_lookup_fmap in Hs. destruct (ref_sections (opt_hash_style opts) !! i) as [s0|] eqn:E; [|discriminate].
  injection Hs as <-. unfold with_loader in Hc. destruct (sc_id s0 =? id_interp)%nat eqn:Eid.
  - simpl in Hc. apply elem_of_list_singleton in Hc as ->. by eexists.
  - exfalso. assert (sc_chunks s0 = []) as E'; [|rewrite E' in Hc; by apply elem_of_nil in Hc].
    pose proof (ref_no_chunks (opt_hash_style opts)) as R. apply (f_equal (fun l => l !! i)) in R. rewrite list_lookup_fmap, E in R. cbn [fmap option_fmap option_map] in R. rewrite Eid in R.
    symmetry in R. apply lookup_replicate in R as [R _]. by apply nil_length_inv.
Qed.
Lemma sinv_0 opts w0 : writer_new opts = Ok w0 -> sinv (length (w_sections w0)) w0 [] w0.
Proof.
  intros H. split.
  - by apply winv_0 with opts.
  - intros i s n p Hs Hp. simpl. rewrite Hs. split; simpl; [by rewrite app_nil_r|unfold ntotal; simpl; lia|unfold nmax; simpl; lia|done].
  - intros pre x sr post E. by destruct pre.
  - intros i j s c Hs Hc. destruct (writer_new_chunks _ _ H i s c Hs) as [d ->]; [by eapply elem_of_list_lookup_2|]. simpl. split; [done|].
    split; [constructor|]. split; [done|]. intros r. split; [by intros ?%elem_of_nil|]. by intros (v & ?%elem_of_nil & _).
  - by intros v sr ?%elem_of_nil.
Qed.
Lemma obj_secs_copied k e x : x ∈ obj_secs k e -> copied (si_sh x) = true.
Proof.
  intros H. apply elem_of_list_omap in H as (y & _ & Hy). unfold obj_sec in Hy. destruct (copied y.2) eqn:E; [|discriminate].
  destruct (eo_shstr e (sh_name y.2)); [|discriminate]. by injection Hy as <-.
Qed.
Lemma all_secs_copied es x : x ∈ all_secs es -> copied (si_sh x) = true.
Proof.
  intros H. apply elem_of_concat in H as (l & Hx & Hl). apply elem_of_lookup_imap in Hl as (k & y & -> & _). by eapply obj_secs_copied.
Qed.
Lemma reads_sinv wd l es evs w : reads wd l es evs w -> exists w0, writer_new (lk_options l) = Ok w0 /\ sinv (length (w_sections w0)) w0 evs w.
Proof.
  intros [_ (w0 & H0 & Hr) Hs _ _ _]. exists w0. split; [done|]. revert Hr. apply replays_inv; [by eapply sinv_0|].
  intros pre v post w1 w2 E _ HI Hv. destruct v as [x sr|x o r|x r sr|path e sym name so r]; simpl in Hv.
  - eapply sinv_section; [done| |done]. apply (all_secs_copied es). rewrite <- Hs, E, omap_app. apply elem_of_app. right. simpl. by left.
  - by eapply sinv_symbol.
  - by eapply sinv_reloc.
  - destruct Hv as (_ & w3 & Ha & ->). by eapply sinv_dyn.
Qed.
