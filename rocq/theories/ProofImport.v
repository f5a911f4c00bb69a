(** What the entries of .dynsym say about the names they import. *)
From Verif Require Export ProofBound ProofFields.
From Verif Require Import ProofBase.

Section carried.
  Context (wd : world) (l : linker) (PL : plain_libs wd l).
  Definition carries (s : symbol) (sym : Sym) : Prop :=
    st_info (s_sym s) = st_info sym /\ st_other (s_sym s) = st_other sym /\ st_size (s_sym s) = st_size sym.
  Definition carried (w : writer) : Prop := forall k s, syt_symbols (w_dynsym w) !! k = Some s -> k <> 0 ->
    st_shndx (s_sym s) = 0 /\ st_value (s_sym s) = 0 /\
    exists name i o sym, (name, (i, o)) ∈ stt_names (w_dynstr w) /\ k = u32 o /\ library_lists wd l name sym /\ carries s sym.
  Lemma carried_frame w w' : w_dynsym w' = w_dynsym w -> w_dynstr w' = w_dynstr w -> carried w -> carried w'.
  Proof using. intros E1 E2 H k s Hs Hk. rewrite E1 in Hs. rewrite E2. exact (H k s Hs Hk). Qed.
  Lemma resolve_carried lo fuel w : resolve wd lo l fuel = Ok w -> carried w.
  Proof using PL.
    apply (resolve_inv wd l carried).
    - intros a e name sh data b r S _ _ H. apply (carried_frame a); [| |exact S]; revert H; unfold add_section; destruct (st_get_or_create _ _) as [names en]; (destruct (en_new en);
        [intros [= <- <-]; done|]); intros H; apply bind_Ok in H as (s & _ & H); (destruct data; [by injection H as <- <-|]); cbn in H; (destruct (sc_chunks s); [done|by injection H as <- <-]).
    - intros a e sym sr name ref b r S _ _ _ H. unfold add_symbol in H. apply bind_Ok in H as ([[[nm sy] secs] r0] & Hi & [= <- <-]). apply (carried_frame a); [reflexivity|reflexivity|exact S].
    - intros a rel r sr b S H. apply (carried_frame a); [| |exact S]; revert H; unfold add_relocation; (destruct (_ || _); [done|]); intros H; by apply bind_Ok in H as (secs & _ & [= <-]).
    - intros a path e sym name so b r S Hl Hs Hn _ Hk H.
      assert (X : w_dynsym (add_needed b so) = w_dynsym b /\ extends (w_dynstr b) (w_dynstr (add_needed b so))).
      { unfold add_needed. destruct (st_get_or_create (w_dynstr b) so) as [nm en] eqn:E. destruct (goc_keys _ _ _ _ E) as (Hx & _). destruct (en_new en); (split; [reflexivity|exact Hx]). }
      destruct X as [X1 X2]. unfold add_dyn_symbol in H. cbv zeta in H. apply bind_Ok in H as ([[[nm sy] secs] r0] & Hi & H).
      assert (E : w_dynsym b = sy /\ w_dynstr b = nm) by (destruct (st_get _ _); [apply bind_Ok in H as (x & _ & [= <- <-])|injection H as <- <-]; done). destruct E as [E1 E2].
      destruct (inner_table _ _ _ _ _ _ _ _ _ _ _ Hi) as (en & Hg & Ha). destruct (goc_keys _ _ _ _ Hg) as (Hx & _ & _ & i1 & Hi1).
      apply add_sym_cases in Ha as [(Ht & _)|(_ & _ & _ & s2 & Hsy & Hc)]; [exfalso; exact (PL _ _ _ Hl Hs Ht)|].
      change (syt_symbols sy = <[u32 (en_offset en):=s2]> (syt_symbols (w_dynsym a))) in Hsy.
      assert (Hold : forall k s, syt_symbols (w_dynsym a) !! k = Some s -> k <> 0 -> st_shndx (s_sym s) = 0 /\ st_value (s_sym s) = 0 /\
        exists name i o sym, (name, (i, o)) ∈ stt_names (w_dynstr (add_needed b so)) /\ k = u32 o /\ library_lists wd l name sym /\ carries s sym).
      { intros k s Hks N0. destruct (S _ _ Hks N0) as (A & B & nm' & i & o & sym' & I1 & I2 & I3 & I4). split; [exact A|]. split; [exact B|]. exists nm', i, o, sym'. split; [|done].
        apply (extends_elem (w_dynstr b)); [exact X2|]. rewrite E2. by apply (extends_elem (w_dynstr a)). }
      assert (Hnew : forall s, st_shndx (s_sym s) = 0 -> st_value (s_sym s) = 0 -> carries s sym -> st_shndx (s_sym s) = 0 /\ st_value (s_sym s) = 0 /\
        exists name i o sym, (name, (i, o)) ∈ stt_names (w_dynstr (add_needed b so)) /\ u32 (en_offset en) = u32 o /\ library_lists wd l name sym /\ carries s sym).
      { intros s A B Hcs. split; [exact A|]. split; [exact B|]. exists name, i1, (en_offset en), sym. split; [apply (extends_elem (w_dynstr b)); [exact X2|by rewrite E2]|]. split; [reflexivity|]. split; [exists path, e; done|exact Hcs]. }
      intros k s Hks N0. rewrite X1, E1, Hsy in Hks. apply lookup_insert_Some in Hks as [[<- <-]|[_ Hks]]; [|by apply Hold].
      destruct Hc as [[_ ->]|(old & Ho & Hm)]; [apply Hnew; done|]. change (syt_symbols (w_dynsym a) !! u32 (en_offset en) = Some old) in Ho.
      unfold merge_symbol in Hm. destruct (_ && _ && _ && _); [discriminate Hm|]. destruct (negb _); [injection Hm as <-; apply Hnew; done|].
      destruct (Hold _ _ Ho N0) as (A & B & nm' & i & o & sym' & I1 & I2 & I3 & I4). destruct (st_shndx (s_sym old) =? SHN_UNDEF); injection Hm as <-; (split; [done|]; split; [exact B|]; exists nm', i, o, sym'; done).
    - intros w0 H0 k s Hs N0. destruct (writer_new_ref _ _ H0) as (_ & _ & _ & _ & _ & _ & E). rewrite E in Hs. cbn in Hs. apply lookup_singleton_Some in Hs as [<- _]. by destruct N0.
  Qed.
End carried.

(** Entries other than objects stay as they are. *)
Definition others_kept (t t' : symtab) : Prop := forall k s', syt_symbols t' !! k = Some s' -> is_object s' = false -> syt_symbols t !! k = Some s'.
Lemma others_refl t : others_kept t t. Proof. by intros k s' H _. Qed.
Lemma others_trans a b c : others_kept a b -> others_kept b c -> others_kept a c.
Proof. intros H1 H2 k s' Hs Ho. apply H1; [|exact Ho]. by apply H2. Qed.
Lemma others_dynrel_step ix s n s' : dynrel_step ix s n = Ok s' -> others_kept (dr_dynsym s) (dr_dynsym s').
Proof.
  unfold dynrel_step. destruct (dr_symbols s !! n) as [sym|]; [|intros [= <-]; apply others_refl]. destruct (s_dynamic sym) as [d|]; [|intros [= <-]; apply others_refl].
  intros H. apply bind_Ok in H as (i & _ & H). apply bind_Ok in H as (ds & Hds & [= <-]).
  destruct (is_object ds) eqn:Eo, (s_in_got sym), (s_in_got_plt sym); cbn; try apply others_refl.
  all: assert (Ex : syt_get (dr_dynsym s) d = Some ds) by (change (unwrap (syt_get (dr_dynsym s) d) = Ok ds) in Hds; destruct (syt_get (dr_dynsym s) d) as [x|]; [|discriminate Hds]; cbn in Hds; congruence).
  all: destruct d as [m|a b]; [|intros k s' Hs _; exact Hs].
  all: intros k s' Hs Ho; cbn in Hs; destruct (decide (k = m)) as [->|Hne]; [|by rewrite lookup_alter_ne in Hs by done].
  all: rewrite lookup_alter in Hs; cbn in Ex; rewrite Ex in Hs; cbn in Hs; apply (inj Some) in Hs; subst s'; change (is_object ds = false) in Ho; congruence.
Qed.
Lemma others_dynrel ix k s s' : foldM (dynrel_step ix) k s = Ok s' -> others_kept (dr_dynsym s) (dr_dynsym s').
Proof.
  revert s. induction k as [|n k IH]; intros s H; simpl in H; [injection H as <-; apply others_refl|]. apply bind_Ok in H as (s1 & H1 & H).
  eapply others_trans; [exact (others_dynrel_step _ _ _ _ H1)|exact (IH _ H)].
Qed.
Lemma special_dynsym w w' : handle_special_symbols w = Ok w' -> w_dynsym w' = syt_update_object_symbols (w_dynsym w) (sh_addr (hdr_of id_copyrel (w_sections w'))) match get_section id_copyrel (w_sections w') with Some s => sc_index s | None => 0 end.
Proof.
  unfold handle_special_symbols. intros H. apply bind_Ok in H as ([t secs] & H & [= <-]). cbn. f_equal. unfold set_got_symbol. by destruct (st_get _ _).
Qed.

Section imported.
  Context {wd : world} {lo : lib_oracle} {l : linker} {fuel : nat} {w : writer} {secs : list section}.
  Context (G : good_link wd lo l fuel w secs) (TL : tidy_libs wd l).
  (** Copied objects are said to be in .copyrel. *)
  Lemma object_home j ds d : few_sections secs -> the_sec w secs ".dynsym" ds -> rd_sym (contents ds) (24 * j) = Some d -> typ d = 1 ->
    exists cr, the_sec w secs ".copyrel" cr /\ secs !! N.to_nat (st_shndx d) = Some cr.
  Proof using G.
    intros Hf Tds Hd Ht.
    destruct (links_outcome _ _ _ _ _ _ (gl_links _ _ _ _ _ _ G)) as (w0 & wr & ws & w1 & extra & null & rest & rest' & st & w3 & w4 & w5 & w6 & w7 & null' & out & O).
    pose proof (proj2 (gl_links _ _ _ _ _ _ G)) as Fin. destruct G as [_ V P PL NF AF SF].
    destruct (own_all O Fin V P NF) as (pd & gd & _ & Hown). destruct (Hown 9%nat ".dynsym") as [ds' Ods]; [lia|destruct (opt_hash_style (lk_options l)); vm_compute; reflexivity|].
    destruct (Hown 13%nat ".copyrel") as [cr Ocr]; [lia|destruct (opt_hash_style (lk_options l)); vm_compute; reflexivity|].
    rewrite <- (the_one _ _ _ _ _ (os_the _ _ _ _ _ Ods) Tds) in Ods. assert (Bds : contents ds = syt_chunk_data (o_dyn (lo_writer lo)) (w_dynsym w)) by exact (os_bytes _ _ _ _ _ Ods). clear Ods Hown.
    exists cr. split; [exact (os_the _ _ _ _ _ Ocr)|]. destruct (os_hist _ _ _ _ _ Ocr) as (i & a0 & a1 & a3 & a6 & a7 & H).
    rewrite Bds, <- (N2Nat.id j) in Hd. destruct (emitted_only _ _ _ _ (vo_dyn _ V) (dyn_keyed O PL) (proj2 SF) Hd) as (s & Hs & <-).
    assert (Ho : is_object s = true) by (unfold is_object; rewrite st_type_typ; apply N.eqb_eq; exact Ht).
    destruct (run_fields (oc_run O)) as (_ & _ & _ & _ & _ & _ & _ & Ed & _). rewrite Ed, (special_dynsym _ _ (rn_special (oc_run O))) in Hs. unfold syt_update_object_symbols in Hs. cbn [syt_symbols set] in Hs.
    pose proof (get_w4 O V _ _ _ _ _ _ _ _ _ H) as Hg. rewrite (os_id _ _ _ _ _ Ocr) in Hg. destruct (kept_stages O) as (_ & K6 & _). destruct (get_kept _ _ _ _ K6 Hg) as (a6' & Hg6 & Ka). change 13%nat with id_copyrel in Hg6. rewrite Hg6 in Hs.
    assert (Ei : sc_index a6' = N.of_nat (S i)). { rewrite Ka. cbn. rewrite (op_index _ _ (h_placed H)). reflexivity. }
    rewrite Ei in Hs.
    assert (Hb : secs !! S i = Some cr).
    { pose proof (mapM_res_F2 (fun a b => sec_finalize (lo_writer lo) w a = Ok b) _ _ _ (fun _ _ E => E) Fin) as F. destruct (Forall2_lookup_l _ _ _ _ _ F (h_w H)) as (b & Hb & Eb). rewrite (h_fin H) in Eb. injection Eb as <-. exact Hb. }
    pose proof (lookup_lt_Some _ _ _ Hb) as Hlt. unfold few_sections in Hf.
    assert (E : st_shndx (s_sym s) = N.of_nat (S i)); [|rewrite E, Nat2N.id; exact Hb].
    change (((fun s : symbol => if is_object s then s <| s_sym := s_sym s <| st_value := st_value (s_sym s) + sh_addr (hdr_of id_copyrel (w_sections w6)) |> <| st_shndx := u16 (N.of_nat (S i)) |> |> else s) <$> syt_symbols (w_dynsym w5)) !! st_name (s_sym s) = Some s) in Hs.
    rewrite lookup_fmap in Hs. destruct (syt_symbols (w_dynsym w5) !! st_name (s_sym s)) as [y|]; [|discriminate Hs]. cbn [fmap option_fmap option_map] in Hs. apply (inj Some) in Hs.
    destruct (is_object y) eqn:Ey; [|subst y; congruence]. rewrite <- Hs. cbn. unfold u16. rewrite N.mod_small by lia. reflexivity.
  Qed.
  Lemma imported n j d : n <> "" -> dynsym_entry w secs n j d ->
    (exists sym, library_lists wd l n sym /\ st_info d = st_info sym /\ st_other d = st_other sym /\ st_size d = st_size sym) /\ (typ d <> 1 -> st_shndx d = 0 /\ st_value d = 0).
  Proof using G TL.
    intros Hn (ds & sd & Tds & Tsd & Hd & Hc).
    destruct (links_outcome _ _ _ _ _ _ (gl_links _ _ _ _ _ _ G)) as (w0 & wr & ws & w1 & extra & null & rest & rest' & st & w3 & w4 & w5 & w6 & w7 & null' & out & O).
    pose proof (proj2 (gl_links _ _ _ _ _ _ G)) as Fin. destruct G as [_ V P PL NF AF SF].
    destruct (dyn_names O Fin V P PL NF SF TL ds sd j Tds Tsd) as [E _]. unfold SpecHashLink.dyn_name in E. rewrite Hd in E. cbn [mbind option_bind] in E. rewrite Hc in E.
    destruct (names (lo := lo) (wr := wr) !! N.to_nat j) as [n'|] eqn:En; [|discriminate E]. cbn [fmap option_fmap option_map] in E. apply (inj Some), string_bytes_inj in E. subst n'.
    unfold names in En. rewrite list_lookup_fmap in En. destruct (syt_sorted (o_dyn (lo_writer lo)) (w_dynsym wr) !! N.to_nat j) as [s|] eqn:Es; [|discriminate En]. cbn [fmap option_fmap option_map] in En. apply (inj Some) in En.
    destruct (syms_elem O V PL NF TL s (elem_of_list_lookup_2 _ _ _ Es)) as (S1 & i & S2 & _ & _ & S3 & _). rewrite En in S2, S3.
    assert (N0 : st_name (s_sym s) <> 0) by (intros E; apply Hn, S3, E).
    destruct (resolve_carried wd l PL _ _ _ (oc_resolve O) _ _ S1 N0) as (C1 & C2 & name & i' & o & sym & I1 & I2 & I3 & I4).
    destruct (wr_dynstr O PL NF) as (_ & Hs & HR).
    assert (name = n) as ->.
    { eapply (name_inj (w_dynstr wr)); [exact (st_reach_ok _ HR)|exact Hs|exact I1|exact S2|]. rewrite <- I2. pose proof (entry_off_lt _ _ _ _ (st_reach_ok _ HR) S2). unfold u32, wrap. rewrite N.mod_small by lia. reflexivity. }
    destruct (own_all O Fin V P NF) as (pd & gd & _ & Hown). destruct (Hown 9%nat ".dynsym") as [ds' Ods]; [lia|destruct (opt_hash_style (lk_options l)); vm_compute; reflexivity|].
    rewrite <- (the_one _ _ _ _ _ (os_the _ _ _ _ _ Ods) Tds) in Ods. assert (Bds : contents ds = syt_chunk_data (o_dyn (lo_writer lo)) (w_dynsym w)) by exact (os_bytes _ _ _ _ _ Ods). clear Ods Hown.
    destruct (keeps_all O sym_static) as [_ K]. pose proof (patched_sorted (o_dyn (lo_writer lo)) _ _ (keeps_patched _ _ K)) as F2.
    destruct (Forall2_lookup_l _ _ _ _ _ F2 Es) as (s' & Hs' & Ks & _).
    rewrite Bds, <- (N2Nat.id j), (rd_chunk_sym _ _ _ (vo_dyn _ V) (proj2 SF)), Hs' in Hd. cbn [fmap option_fmap option_map] in Hd. apply (inj Some) in Hd. subst d.
    pose proof (elem_of_list_lookup_2 _ _ _ Hs') as Hin. apply (elem_of_sorted _ _ _ (vo_dyn _ V)) in Hin as [m Hm]. pose proof (dyn_keyed O PL _ _ Hm) as Ek. 
    assert (Em : m = st_name (s_sym s)) by (cbn in Ek; congruence). subst m.
    destruct (keeps_lookup _ _ _ _ _ K Hm) as (s0 & Hs0 & E). rewrite Em, S1 in Hs0. injection Hs0 as <-.
    unfold sym_static in E.
    split.
    - exists sym. split; [exact I3|]. destruct I4 as (J1 & J2 & J3). rewrite <- J1, <- J2, <- J3. split; [congruence|]. split; congruence.
    - intros Ht. assert (Ho : is_object s' = false) by (unfold is_object; rewrite st_type_typ; apply N.eqb_neq; exact Ht).
      assert (K' : others_kept (w_dynsym wr) (w_dynsym w)).
      { destruct (sz_rels _ _ _ _ _ (rn_sizing (oc_run O))) as (sdr & Hdr & _ & Edy & _). apply others_dynrel in Hdr. cbn [dr_dynsym] in Hdr. rewrite <- Edy in Hdr.
        destruct (run_fields (oc_run O)) as (_ & _ & _ & _ & _ & _ & _ & Ed & _). destruct (keeps_five O) as [_ Ed5]. rewrite Ed.
        destruct (ProofBind.ws_fields O) as (F1 & _). rewrite F1 in Hdr.
        eapply others_trans; [exact Hdr|]. intros k x Hx Hxo. pose proof (special_dynsym _ _ (rn_special (oc_run O))) as Q. rewrite Q, Ed5 in Hx. unfold syt_update_object_symbols in Hx. cbn in Hx.
          rewrite lookup_fmap in Hx. destruct (syt_symbols (w_dynsym w1) !! k) as [y|] eqn:Ey; [|discriminate Hx]. cbn in Hx. apply (inj Some) in Hx. destruct (is_object y) eqn:Eyo; [|subst x; reflexivity].
          exfalso. subst x. change (is_object y = false) in Hxo. congruence. }
      pose proof (K' _ _ Hm Ho) as Q. rewrite Em, S1 in Q. injection Q as <-. split; assumption.
  Qed.
End imported.
