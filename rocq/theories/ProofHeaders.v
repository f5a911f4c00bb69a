(** Headers of the linker's own sections. *)
From Verif Require Export SpecHeaders ProofHashLink.

Definition own_hdrs (hs : ModelWriter.hash_style) : list (string * N * N * N) :=
  [("", 0, 0, 0); (".shstrtab", 3, 0, 0); (".strtab", 3, 0, 0); (".dynstr", 3, 2, 0); (".interp", 1, 2, 0); (".got", 1, 3, 0); (".got.plt", 1, 3, 0);
   (".plt", 1, 6, 0); (".symtab", 2, 0, 24); (".dynsym", 11, 2, 24); (".dynamic", 6, 3, 16); (".rela.dyn", 4, 2, 24); (".rela.plt", 4, 2, 24); (".copyrel", 8, 3, 0)] ++
  let h := (".hash", 5, 2, 4) in let g := (".gnu.hash", 0x6ffffff6, 2, 4) in
  match hs with HSysv => [h] | HGnu => [g] | HBoth => [h; g] end.
Definition ref_hdr (hs : ModelWriter.hash_style) (s : section) : option (string * N * N * N) :=
  n ← st_name_at (ref_names hs) (sh_name (sc_sh s)); Some (n, sh_type (sc_sh s), flags s, sh_entsize (sc_sh s)).
Lemma ref_hdrs hs : ref_hdr hs <$> ref_sections hs = Some <$> own_hdrs hs.
Proof. destruct hs; vm_compute; reflexivity. Qed.

Section headers.
  Context {wd : world} {lo : lib_oracle} {l : linker} {fuel : nat} {w : writer} {secs : list section}
    {w0 wr ws w1 : writer} {extra : N} {null : section} {rest rest' : list section} {st : layout} {w3 w4 w5 w6 w7 : writer}
    {null' : section} {out : list section}.
  Context (O : outcome wd lo l fuel w secs w0 wr ws w1 extra null rest rest' st w3 w4 w5 w6 w7 null' out).
  Context (Fin : mapM_res (sec_finalize (lo_writer lo) w) (w_sections w) = Ok secs).
  Context (V : valid_oracle (lo_writer lo)) (P : plain_inputs wd l) (NF : names_fit w).
  Notation hs := (opt_hash_style (lk_options l)).

  Lemma own_header b n : b ∈ out -> sec_name w b = Some n -> (sc_id b < length (w_sections w0))%nat ->
    own_hdrs hs !! sc_id b = Some (n, sh_type (sc_sh b), flags b, sh_entsize (sc_sh b)).
  Proof using O Fin V.
    intros Hb Hname Hlt. apply elem_of_list_lookup in Hb as [j Hb]. destruct (history O Fin V) as (pd & gd & _ & Hh). destruct (Hh _ _ Hb) as (a0 & a1 & a3 & a6 & a7 & H).
    destruct (hist_decl _ _ _ _ _ _ _ _ _ H) as (D0 & _). destruct (hist_entsize _ _ _ _ _ _ _ _ _ H) as (_ & Es). pose proof (h_wr H) as Hi.
    pose proof (fixed_name O b _ a0 Hi D0 Hlt) as Hn. rewrite Hname in Hn. symmetry in Hn. pose proof (oc_winv O) as HI. destruct (writer_new_ref _ _ (oc_new O)) as (Hsig & _).
    apply lookup_lt_is_Some_2 in Hlt as [s0 E0]. destruct (wi_fixed _ _ _ HI _ _ E0) as (s1 & Es1 & G1 & _). rewrite Hi in Es1. apply (inj Some) in Es1. subst s1.
    assert (Hsr : (sec_sig <$> ref_sections hs) !! sc_id b = Some (sec_sig s0)) by (rewrite <- Hsig, list_lookup_fmap, E0; reflexivity).
    rewrite list_lookup_fmap in Hsr. destruct (ref_sections hs !! sc_id b) as [r|] eqn:Er; [|discriminate Hsr]. cbn in Hsr. apply (inj Some) in Hsr.
    pose proof (f_equal (fun k => k !! sc_id b) (ref_hdrs hs)) as HE. cbv beta in HE. rewrite !list_lookup_fmap, Er in HE.
    pose proof (f_equal (fun k => k !! sc_id b) (ref_own_names hs)) as HE2. cbv beta in HE2. rewrite !list_lookup_fmap, Er in HE2.
    rewrite <- G1 in Hsr. unfold sec_sig in Hsr. injection Hsr as _ _ _ _ _ Hty Hfl _ _ _ _ Hent. unfold ref_hdr in HE.
    revert HE HE2 Hn. generalize (own_names hs !! sc_id b) (own_hdrs hs !! sc_id b). intros nm row HE HE2 Hn. destruct nm as [n'|]; [|discriminate HE2]. apply (inj Some) in Hn. subst n'.
    cbn [fmap option_fmap option_map] in HE, HE2. apply (inj Some) in HE2. rewrite HE2 in HE. cbn [mbind option_bind] in HE. destruct row as [row|]; [|discriminate HE]. apply (inj Some) in HE.
    apply (inj Some) in HE. rewrite <- HE. rewrite (decl_type _ _ D0), (decl_flags _ _ D0), Es, Hty, Hfl, Hent. reflexivity.
  Qed.
  Lemma null_none b : b ∈ secs -> b ∈ out \/ sc_id b = 0%nat.
  Proof using O. intros Hb. rewrite (oc_secs O) in Hb. apply elem_of_cons in Hb as [-> |Hb]; [right; exact (proj1 (null_facts O))|by left]. Qed.
  (** A section of a name of the linker's own is the linker's. *)
  Lemma own_named b n : b ∈ out -> sec_name w b = Some n -> n ∈ own_names hs -> (sc_id b < length (w_sections w0))%nat.
  Proof using O Fin V NF.
    intros Hb Hn Ho. destruct (decide (sc_id b < length (w_sections w0))%nat) as [Hlt|Hge]; [exact Hlt|exfalso].
    apply elem_of_list_lookup in Hb as [j Hb]. destruct (history O Fin V) as (pd & gd & _ & Hh). destruct (Hh _ _ Hb) as (a0 & a1 & a3 & a6 & a7 & H).
    destruct (hist_decl _ _ _ _ _ _ _ _ _ H) as (D0 & _). pose proof (h_wr H) as Hi. pose proof (oc_winv O) as HI.
    destruct (wi_names _ _ _ HI _ a0 (proj1 (Nat.nlt_ge _ _) Hge) Hi) as (n' & o & Hn' & Hsn).
    assert (n' = n) as ->.
    { unfold sec_name in Hn. rewrite (decl_name _ _ D0), Hsn in Hn. destruct NF as [Ht _]. rewrite (names_w O) in *. pose proof (entry_name _ _ _ _ _ (wi_st _ _ _ HI) Ht Hn') as E. rewrite E in Hn. by apply (inj Some) in Hn. }
    destruct (writer_new_ref _ _ (oc_new O)) as (Hsig & _ & Hnm & _). destruct (wi_prefix _ _ _ HI) as [tl Htl].
    assert (Hk : exists k, (k < length (w_sections w0))%nat /\ fst <$> stt_names (ref_names hs) !! k = Some n).
    { assert (Hl0 : length (w_sections w0) = length (ref_sections hs)) by (apply (f_equal length) in Hsig; rewrite !fmap_length in Hsig; exact Hsig). rewrite Hl0.
      assert (HB : forallb (fun m : string => existsb (fun k => if Nat.ltb k (length (ref_sections hs)) then bool_decide (fst <$> stt_names (ref_names hs) !! k = Some m) else false) (seq 0 16)) (own_names hs) = true) by (destruct hs; vm_compute; reflexivity).
      rewrite forallb_forall in HB. apply elem_of_list_In, HB in Ho. apply existsb_exists in Ho as (k & _ & E). exists k. destruct (Nat.ltb _ _) eqn:E'; [|discriminate E]. apply Nat.ltb_lt in E'. split; [exact E'|exact (bool_decide_eq_true_1 _ E)]. }
    destruct Hk as (k & Hk & En). rewrite <- Hnm in En. destruct (stt_names (w_shstrtab w0) !! k) as [x|] eqn:Ex; [|discriminate En]. cbn in En. apply (inj Some) in En.
    pose proof (ok_nodup _ (st_reach_ok _ (wi_st _ _ _ HI))) as ND. assert (E : k = sc_id b).
    { eapply (NoDup_lookup _ _ _ n ND); rewrite list_lookup_fmap; [rewrite Htl, lookup_app_l by (by eapply lookup_lt_Some); rewrite Ex; cbn; by rewrite En|rewrite Hn'; reflexivity]. }
    lia.
  Qed.
  Lemma own_there i n : (0 < i)%nat -> own_names hs !! i = Some n -> exists b, the_sec w secs n b /\ b ∈ out /\ sc_id b = i.
  Proof using O Fin V NF.
    intros Hi0 Hn. assert (Hlt : (i < length (w_sections w0))%nat).
    { rewrite (writer_new_sections _ _ (oc_new O)), fmap_length. pose proof (ref_own_names hs) as E. apply (f_equal length) in E. rewrite !fmap_length in E. rewrite E. by apply lookup_lt_Some in Hn. }
    assert (Hnb : forall b, b ∈ out -> (sc_id b < length (w_sections w0))%nat -> sec_name w b = own_names hs !! sc_id b).
    { intros b Hb Hl. apply elem_of_list_lookup in Hb as [j Hb]. destruct (history O Fin V) as (pd & gd & _ & Hh). destruct (Hh _ _ Hb) as (a0 & a1 & a3 & a6 & a7 & H).
      destruct (hist_decl _ _ _ _ _ _ _ _ _ H) as (D0 & _). exact (fixed_name O b _ a0 (h_wr H) D0 Hl). }
    destruct (laid_ids O V) as [_ HI]. specialize (HI i Hlt). rewrite fmap_cons in HI. apply elem_of_cons in HI as [HI|HI].
    { exfalso. destruct (null_facts O) as (N0 & _). pose proof (decl_id _ _ (proj1 (oc_null O))) as E. cbn in HI, E. lia. }
    apply elem_of_list_fmap in HI as (a & -> & Ha). apply elem_of_list_lookup in Ha as [j Hj]. destruct (Forall2_lookup_l _ _ _ _ _ (oc_out O) Hj) as (b & Hb & Hw). pose proof (decl_id _ _ (proj1 Hw)) as E. rewrite <- E in *.
    assert (Hbo : b ∈ out) by (eapply elem_of_list_lookup_2; exact Hb). pose proof (Hnb b Hbo Hlt) as Hnm. rewrite Hn in Hnm.
    exists b. split; [|split; [exact Hbo|reflexivity]]. split; [rewrite (oc_secs O); by right|]. split; [exact Hnm|]. intros s' Hs' Hn'.
    assert (ND : NoDup (own_names hs)) by (destruct hs; apply (bool_decide_unpack _); vm_compute; exact I).
    destruct (null_none s' Hs') as [Ho|H0].
    - assert (Hl' : (sc_id s' < length (w_sections w0))%nat) by (apply (own_named s' n Ho Hn'); eapply elem_of_list_lookup_2; exact Hn).
      pose proof (Hnb s' Ho Hl') as E2. rewrite Hn' in E2. symmetry in E2. pose proof (NoDup_lookup _ _ _ _ ND E2 Hn) as Eid.
      apply elem_of_list_lookup in Ho as [x Hx]. assert (x = j) by (eapply (out_nodup O V); [exact Hx|exact Hb|exact Eid]). congruence.
    - exfalso. assert (E0 : sec_name w s' = own_names hs !! 0%nat).
      { rewrite (oc_secs O) in Hs'. apply elem_of_cons in Hs' as [-> |Hs'].
        - destruct (oc_null O) as (Hd & _). unfold same_decl in Hd. change (decl (null <| sc_index := 0 |>)) with (decl null) in Hd.
          destruct (Forall2_lookup_r _ _ _ 0%nat null (oc_decls O) eq_refl) as (sr & Hsr & Ed). unfold same_decl in Ed. rewrite Ed in Hd. apply (fixed_name O null' 0%nat sr Hsr Hd). lia.
        - apply elem_of_list_lookup in Hs' as [y Hy]. destruct (history O Fin V) as (pd & gd & _ & Hh). destruct (Hh _ _ Hy) as (a0 & a1 & a3 & a6 & a7 & H). pose proof (h_pos H). lia. }
      rewrite Hn' in E0. assert (Hz : own_names hs !! 0%nat = Some "") by (destruct hs; reflexivity). rewrite Hz in E0. apply (inj Some) in E0. subst n.
      assert (Ez : sc_id b = 0%nat) by (exact (NoDup_lookup _ _ _ _ ND Hn Hz)). lia.
  Qed.
End headers.

Section links.
  Context {wd : world} {lo : lib_oracle} {l : linker} {fuel : nat} {w : writer} {secs : list section}.
  Theorem links_headers n ty fl es : links wd lo l fuel w secs -> valid_oracle (lo_writer lo) -> names_fit w -> (n, ty, fl, es) ∈ prescribed ->
    (n = ".hash" -> opt_hash_style (lk_options l) <> HGnu) -> (n = ".gnu.hash" -> opt_hash_style (lk_options l) <> HSysv) ->
    exists s, the_sec w secs n s /\ sh_type (sc_sh s) = ty /\ flags s = fl /\ sh_entsize (sc_sh s) = es.
  Proof using.
    intros L V NF Hp Hh Hg. destruct (links_outcome _ _ _ _ _ _ L) as (w0 & wr & ws & w1 & extra & null & rest & rest' & st & w3 & w4 & w5 & w6 & w7 & null' & out & O).
    pose proof (proj2 L) as Fin. set (hs := opt_hash_style (lk_options l)) in *.
    assert (HB : exists i, (0 < i)%nat /\ own_names hs !! i = Some n /\ forall row, own_hdrs hs !! i = Some row -> row = (n, ty, fl, es)).
    { assert (HB : forallb (fun r : string * N * N * N => if bool_decide (r.1.1.1 = ".hash" /\ hs = HGnu) then true else if bool_decide (r.1.1.1 = ".gnu.hash" /\ hs = HSysv) then true else
        existsb (fun i => if bool_decide (own_names hs !! i = Some r.1.1.1) then bool_decide (own_hdrs hs !! i = Some r) else false) (seq 1 15)) prescribed = true) by (destruct hs; vm_compute; reflexivity).
      rewrite forallb_forall in HB. apply elem_of_list_In, HB in Hp. cbn [fst] in Hp. clear HB. case_bool_decide as E1; [destruct E1 as [E1 E2]; destruct (Hh E1 E2)|].
      case_bool_decide as E3; [destruct E3 as [E3 E4]; destruct (Hg E3 E4)|]. apply existsb_exists in Hp as (i & Hi & E). apply in_seq in Hi. exists i. case_bool_decide as E5; [|discriminate E]. apply bool_decide_eq_true_1 in E.
      split; [lia|]. split; [exact E5|]. intros row Hrow. rewrite E in Hrow. by apply (inj Some) in Hrow. }
    destruct HB as (i & Hi & En & Er). destruct (own_there O Fin V NF i n Hi En) as (b & T & Hb & Hid).
    assert (Hlt : (sc_id b < length (w_sections w0))%nat) by (apply (own_named O Fin V NF b n Hb (proj1 (proj2 T))); eapply elem_of_list_lookup_2; exact En).
    pose proof (own_header O Fin V b n Hb (proj1 (proj2 T)) Hlt) as Hh'. rewrite Hid in Hh'. apply Er in Hh'. injection Hh' as E1 E2 E3. exists b. split; [exact T|]. split; [exact E1|]. split; [exact E2|exact E3].
  Qed.
End links.
