(** Which names .dynsym lists. *)
From Verif Require Export ProofOwn ProofHashLink.
From Verif Require Import ProofBase.

(** Every name of .dynsym is one a library lists, and the table of the
    program's symbols knows it as such. *)
Section sourced.
  Context (wd : world) (l : linker) (PL : plain_libs wd l).
  Definition sourced (w : writer) : Prop := forall k s, syt_symbols (w_dynsym w) !! k = Some s -> k <> 0 ->
    exists name i o sym, (name, (i, o)) ∈ stt_names (w_dynstr w) /\ k = u32 o /\ library_lists wd l name sym /\ (6 <= climb_of w name)%nat.
  Definition source_inv (w : writer) : Prop := tidy_names w /\ sourced w.
  Lemma sourced_frame w w' : w_dynsym w' = w_dynsym w -> w_dynstr w' = w_dynstr w -> climbs w w' -> sourced w -> sourced w'.
  Proof using.
    intros E1 E2 Hc H k s Hs Hk. rewrite E1 in Hs. destruct (H k s Hs Hk) as (name & i & o & sym & A & B & C & D). exists name, i, o, sym. rewrite E2. split; [exact A|]. split; [exact B|]. split; [exact C|].
    pose proof (proj2 Hc name). lia.
  Qed.
  Lemma resolve_sourced lo fuel w : resolve wd lo l fuel = Ok w -> sourced w.
  Proof using PL.
    intros H. refine (proj2 (_ : source_inv w)). revert H. apply (resolve_inv wd l source_inv).
    - intros a e name sh data b r [T S] _ _ H. destruct (section_own _ _ _ _ _ _ T H) as (T' & C & _). split; [exact T'|]. apply (sourced_frame a); [| |exact C|exact S]; revert H; unfold add_section; destruct (st_get_or_create _ _) as [names en]; (destruct (en_new en);
        [intros [= <- <-]; done|]); intros H; apply bind_Ok in H as (s & _ & H); (destruct data; [by injection H as <- <-|]); cbn in H; (destruct (sc_chunks s); [done|by injection H as <- <-]).
    - intros a e sym sr name ref b r [T S] _ _ _ H. destruct (add_symbol_own _ _ _ _ _ _ _ T H) as (T' & C & _). split; [exact T'|].
      unfold add_symbol in H. apply bind_Ok in H as ([[[nm sy] secs] r0] & Hi & [= <- <-]). apply (sourced_frame a); [reflexivity|reflexivity|exact C|exact S].
    - intros a rel r sr b [T S] H. destruct (relocation_own _ _ _ _ _ T H) as (T' & C & _). split; [exact T'|].
      apply (sourced_frame a); [| |exact C|exact S]; revert H; unfold add_relocation; (destruct (_ || _); [done|]); intros H; by apply bind_Ok in H as (secs & _ & [= <-]).
    - intros a path e sym name so b r [T S] Hl Hs Hn _ Hk H. destruct (add_dyn_up _ _ _ _ _ so _ _ (tidy_up _ "" T) Hk H) as (A & C & D). split; [exact (up_tidy _ _ A)|]. clear A.
      assert (X : w_dynsym (add_needed b so) = w_dynsym b /\ extends (w_dynstr b) (w_dynstr (add_needed b so))).
      { unfold add_needed. destruct (st_get_or_create (w_dynstr b) so) as [nm en] eqn:E. destruct (goc_keys _ _ _ _ E) as (Hx & _). destruct (en_new en); (split; [reflexivity|exact Hx]). }
      destruct X as [X1 X2]. unfold add_dyn_symbol in H. cbv zeta in H. apply bind_Ok in H as ([[[nm sy] secs] r0] & Hi & H).
      assert (E : w_dynsym b = sy /\ w_dynstr b = nm) by (destruct (st_get _ _); [apply bind_Ok in H as (x & _ & [= <- <-])|injection H as <- <-]; done). destruct E as [E1 E2].
      destruct (inner_table _ _ _ _ _ _ _ _ _ _ _ Hi) as (en & Hg & Ha). destruct (goc_keys _ _ _ _ Hg) as (Hx & _ & _ & i1 & Hi1).
      apply add_sym_cases in Ha as [(Ht & _)|(_ & _ & _ & s2 & Hsy & _)]; [exfalso; exact (PL _ _ _ Hl Hs Ht)|].
      change (syt_symbols sy = <[u32 (en_offset en):=s2]> (syt_symbols (w_dynsym a))) in Hsy.
      intros k s Hks N0. rewrite X1, E1, Hsy in Hks. apply lookup_insert_Some in Hks as [[<- _]|[_ Hks]].
      + exists name, i1, (en_offset en), sym. split; [apply (extends_elem (w_dynstr b)); [exact X2|by rewrite E2]|]. split; [reflexivity|]. split; [|exact D]. exists path, e. done.
      + destruct (S _ _ Hks N0) as (nm' & i & o & sym' & I1 & I2 & I3 & I4). exists nm', i, o, sym'. split; [apply (extends_elem (w_dynstr b)); [exact X2|]; rewrite E2; by apply (extends_elem (w_dynstr a))|].
        split; [exact I2|]. split; [exact I3|]. pose proof (proj2 C nm'). lia.
    - intros w0 H0. split; [exact (up_tidy _ _ (new_up [] _ _ H0))|]. intros k s Hs N0. destruct (writer_new_ref _ _ H0) as (_ & _ & _ & _ & _ & _ & E). rewrite E in Hs. cbn in Hs. apply lookup_singleton_Some in Hs as [<- _]. by destruct N0.
  Qed.
End sourced.

Section bound.
  Context {wd : world} {lo : lib_oracle} {l : linker} {fuel : nat} {w : writer} {secs : list section} (G : good_link wd lo l fuel w secs) (TL : tidy_libs wd l).

  (** A name of .dynsym is bound to a library. *)
  Lemma listed_bound n j d : n <> "" -> dynsym_entry w secs n j d -> exists wr, resolve wd lo l fuel = Ok wr /\ (6 <= climb_of wr n)%nat /\ exists sym, library_lists wd l n sym.
  Proof using G TL.
    intros Hn (ds & sd & Tds & Tsd & Hd & Hc).
    destruct (links_outcome _ _ _ _ _ _ (gl_links _ _ _ _ _ _ G)) as (w0 & wr & ws & w1 & extra & null & rest & rest' & st & w3 & w4 & w5 & w6 & w7 & null' & out & O).
    pose proof (proj2 (gl_links _ _ _ _ _ _ G)) as Fin. destruct G as [_ V P PL NF AF SF]. exists wr. split; [exact (oc_resolve O)|].
    destruct (dyn_names O Fin V P PL NF SF TL ds sd j Tds Tsd) as [E _]. unfold SpecHashLink.dyn_name in E. rewrite Hd in E. cbn [mbind option_bind] in E. rewrite Hc in E.
    destruct (names (lo := lo) (wr := wr) !! N.to_nat j) as [n'|] eqn:En; [|discriminate E]. cbn [fmap option_fmap option_map] in E. apply (inj Some), string_bytes_inj in E. subst n'.
    unfold names in En. rewrite list_lookup_fmap in En. destruct (syt_sorted (o_dyn (lo_writer lo)) (w_dynsym wr) !! N.to_nat j) as [s|] eqn:Es; [|discriminate En]. cbn [fmap option_fmap option_map] in En. apply (inj Some) in En.
    apply elem_of_list_lookup_2 in Es. destruct (syms_elem O V PL NF TL s Es) as (S1 & i & S2 & _ & _ & S3 & _). rewrite En in S2, S3.
    assert (N0 : st_name (s_sym s) <> 0) by (intros E; apply Hn, S3, E).
    destruct (resolve_sourced wd l PL _ _ _ (oc_resolve O) _ _ S1 N0) as (name & i' & o & sym & I1 & I2 & I3 & I4).
    destruct (wr_dynstr O PL NF) as (_ & Hs & HR). 
    assert (name = n) as ->.
    { eapply (name_inj (w_dynstr wr)); [exact (st_reach_ok _ HR)|exact Hs|exact I1|exact S2|]. rewrite <- I2. pose proof (entry_off_lt _ _ _ _ (st_reach_ok _ HR) S2). unfold u32, wrap. rewrite N.mod_small by lia. reflexivity. }
    split; [exact I4|]. eauto.
  Qed.
  (** It is mentioned by an object, and no object of the command line defines
      it for itself. *)
  Lemma listed_open n j d : n <> "" -> dynsym_entry w secs n j d -> (forall i k, lo_undef lo i k ≡ₚ k) -> ~ main_defines wd l n.
  Proof using G TL.
    intros Hn Hd Hun Hm. destruct (listed_bound _ _ _ Hn Hd) as (wr & Hr & H6 & _). destruct (resolve_own wd l n lo (vo_sym _ (gl_oracle _ _ _ _ _ _ G)) Hun fuel wr Hm Hr) as [_ H5]. lia.
  Qed.
  Lemma listed_mentioned es evs n j d : loading wd lo l fuel es evs -> n <> "" -> dynsym_entry w secs n j d -> exists y, y ∈ all_syms es /\ yi_name y = n.
  Proof using G TL.
    intros (wr' & Hr' & R) Hn Hd. destruct (listed_bound _ _ _ Hn Hd) as (wr & Hr & H6 & _). rewrite Hr in Hr'. injection Hr' as <-.
    unfold climb_of in H6. destruct (st_get (w_strtab wr) n) as [e|] eqn:Ee; [|lia]. destruct (proj1 (yv_names _ _ (yinv_wr R) n)) as [->|(y & Hy & Hyn)]; [eauto|done|]. exists y. split; [|exact Hyn]. by rewrite <- (ld_syms _ _ _ _ _ R).
  Qed.
  Lemma listed_once n j d j' d' : dynsym_entry w secs n j d -> dynsym_entry w secs n j' d' -> j = j'.
  Proof using G TL.
    intros (ds & sd & Tds & Tsd & Hd & Hc) (ds' & sd' & Tds' & Tsd' & Hd' & Hc'). rewrite (the_one _ _ _ _ _ Tds Tds') in *. rewrite (the_one _ _ _ _ _ Tsd Tsd') in *.
    destruct (links_outcome _ _ _ _ _ _ (gl_links _ _ _ _ _ _ G)) as (w0 & wr & ws & w1 & extra & null & rest & rest' & st & w3 & w4 & w5 & w6 & w7 & null' & out & O).
    pose proof (proj2 (gl_links _ _ _ _ _ _ G)) as Fin. destruct G as [_ V P PL NF AF SF].
    destruct (dyn_names O Fin V P PL NF SF TL ds sd j Tds Tsd) as [E _]. destruct (dyn_names O Fin V P PL NF SF TL ds sd j' Tds Tsd) as [E' _]. unfold SpecHashLink.dyn_name in E, E'. rewrite Hd in E. rewrite Hd' in E'. cbn [mbind option_bind] in E, E'. rewrite Hc in E. rewrite Hc' in E'.
    destruct (names (lo := lo) (wr := wr) !! N.to_nat j) as [a|] eqn:Ea; [|discriminate E]. destruct (names (lo := lo) (wr := wr) !! N.to_nat j') as [b|] eqn:Eb; [|discriminate E']. cbn [fmap option_fmap option_map] in E, E'. apply (inj Some), string_bytes_inj in E, E'. subst a b.
    apply N2Nat.inj. eapply NoDup_lookup; [exact (names_nodup O V PL NF TL)|exact Ea|exact Eb].
  Qed.
  (** What is left to the libraries is listed. *)
  Lemma left_listed es evs n y : loading wd lo l fuel es evs -> (forall y, y ∈ all_syms es -> nonul (yi_name y)) -> n <> "" -> y ∈ named n (all_syms es) -> all_standard n (all_syms es) -> binding (yi_sym y) <> 0 ->
    ~ object_defines es n -> ~ linker_defines es n -> exists j d, dynsym_entry w secs n j d.
  Proof using G.
    clear TL. intros L Hnn Hn Hy Hst Hb Hod Hld. pose proof (good_only G L) as Hon.
    destruct (links_outcome _ _ _ _ _ _ (gl_links _ _ _ _ _ _ G)) as (w0 & wr & ws & w1 & extra & null & rest & rest' & st & w3 & w4 & w5 & w6 & w7 & null' & out & O).
    pose proof (proj2 (gl_links _ _ _ _ _ _ G)) as Fin. pose proof G as [_ V P PL NF AF SF].
    destruct L as (wr' & Hr & R). rewrite (oc_resolve O) in Hr. injection Hr as <-.
    destruct (must_dynamic O Fin V P NF R n y (link_settled _ _ _ _ _ (proj1 (gl_links _ _ _ _ _ _ G))) Hn Hy Hst Hb Hod Hld) as (s & Hs & [r Hd] & _).
    { intros b' kd Hbs Hbn. apply (Hon b'); [done|done|by destruct kd|]. destruct kd; apply (bool_decide_unpack _); vm_compute; exact I. }
    assert (Hne : named n (all_syms es) <> []) by (intros E; rewrite E in Hy; by apply elem_of_nil in Hy). pose proof (named_known R n Hne) as Hk.
    assert (Hnn' : nonul n) by (apply elem_of_list_filter in Hy as [[_ <-] Hy]; by apply Hnn).
    pose proof (entry_written O Fin V P NF R PL SF n s Hk Hnn' Hnn Hs) as (_ & ss & _ & _ & Hss & _ & Hcs & _). rewrite (sym_keyed O PL _ _ Hs) in Hcs.
    destruct (good_dynamic G _ _ _ Hs Hd) as (ss' & ds & sd & j & dd & Tss & Tds & Tsd & _ & Hrd & (nm & N1 & N2)). rewrite (the_one _ _ _ _ _ Hss Tss) in N1. rewrite Hcs in N1. injection N1 as <-.
    exists j, (s_sym dd), ds, sd. done.
  Qed.
End bound.
