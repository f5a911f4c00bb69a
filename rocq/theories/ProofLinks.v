(** The sh_link fields of a link (C55). *)
From Verif Require Export SpecLinks ProofArrays.

Definition own_links (hs : hash_style) : list (option sid) :=
  [None; None; None; None; None; None; None; None; Some id_symstr; Some id_dynstr; Some id_dynstr; Some id_dynsym; Some id_dynsym; None] ++
  match hs with HBoth => [Some id_dynsym; Some id_dynsym] | _ => [Some id_dynsym] end.
Lemma ref_links hs : sc_link <$> ref_sections hs = own_links hs.
Proof. destruct hs; vm_compute; reflexivity. Qed.
Definition target_id (n : string) : sid := if String.eqb n ".strtab" then id_symstr else if String.eqb n ".dynstr" then id_dynstr else id_dynsym.
Lemma own_target hs i a b ty al e : (a, b) ∈ link_targets -> own_rows hs !! i = Some (a, ty, al, e) -> own_links hs !! i = Some (Some (target_id b)) /\ (fst ∘ fst ∘ fst) <$> own_rows hs !! target_id b = Some b.
Proof.
  intros Hin Hrow.
  assert (K : forallb (fun p : string * string => forallb (fun i => match own_rows hs !! i with Some (x, _, _, _) => if String.eqb x p.1 then bool_decide (own_links hs !! i = Some (Some (target_id p.2))) && bool_decide ((fst ∘ fst ∘ fst) <$> own_rows hs !! target_id p.2 = Some p.2) else true | None => true end) (seq 0 20)) link_targets = true) by (destruct hs; vm_compute; reflexivity).
  rewrite forallb_forall in K. apply elem_of_list_In in Hin. specialize (K _ Hin). cbn [fst snd] in K. rewrite forallb_forall in K.
  assert (Hi : List.In i (seq 0 20)). { apply elem_of_list_In, elem_of_seq. apply lookup_lt_Some in Hrow. destruct hs; vm_compute in Hrow; lia. }
  specialize (K _ Hi). cbv beta in K. rewrite Hrow, String.eqb_refl in K. apply andb_true_iff in K as [K1 K2]. split; [exact (bool_decide_eq_true_1 _ K1)|exact (bool_decide_eq_true_1 _ K2)].
Qed.

Section good.
  Context {wd : world} {lo : lib_oracle} {l : linker} {fuel : nat} {w : writer} {secs : list section}.
  Context (G : good_link wd lo l fuel w secs).
  Lemma good_link_field a b s : (a, b) ∈ link_targets -> s ∈ secs -> sec_name w s = Some a -> N.of_nat (length secs) <= 2^32 ->
    exists t, secs !! N.to_nat (sh_link (sc_sh s)) = Some t /\ the_sec w secs b t.
  Proof using G.
    intros Hab Hs Hn Hf.
    destruct (links_outcome _ _ _ _ _ _ (gl_links _ _ _ _ _ _ G)) as (w0 & wr & ws & w1 & extra & null & rest & rest' & st & w3 & w4 & w5 & w6 & w7 & null' & out & O).
    pose proof (proj2 (gl_links _ _ _ _ _ _ G)) as Fin. destruct G as [_ V P PL NF AF SF].
    destruct (secs_class O Fin V P s (proj1 NF) Hs) as (n' & Hn' & Hc). rewrite Hn in Hn'. injection Hn' as <-.
    destruct Hc as [(e & Hrow)|(Hres & _)].
    2:{ exfalso. apply Hres. unfold link_targets in Hab. rewrite !elem_of_cons, elem_of_nil in Hab. repeat (destruct Hab as [Hab|Hab]; [injection Hab as -> _; apply (bool_decide_unpack _); vm_compute; exact I|]). destruct Hab. }
    destruct (own_target _ _ _ _ _ _ _ Hab Hrow) as [Hl Ht].
    assert (Hti : (0 < target_id b < 14)%nat) by (unfold target_id, id_symstr, id_dynstr, id_dynsym; repeat destruct (String.eqb _ _); lia).
    pose proof Hs as Hs'. apply elem_of_list_lookup in Hs' as [i Hi]. rewrite (oc_secs O) in Hi. destruct i as [|i].
    { exfalso. injection Hi as <-. destruct (null_facts O) as (N0 & _). rewrite N0 in Hl. cbn in Hl. destruct (opt_hash_style _); discriminate. }
    cbn in Hi. destruct (history O Fin V) as (pd & gd & _ & Hh). destruct (Hh i s Hi) as (a0 & a1 & a3 & a6 & a7 & HH). destruct (hist_decl _ _ _ _ _ _ _ _ _ HH) as (D0 & _).
    assert (Hsl : sc_link s = Some (target_id b)).
    { assert (E0 : sc_link s = sc_link a0) by (unfold decl in D0; congruence). rewrite E0. pose proof (h_wr HH) as Hwr.
      destruct (writer_new_ref _ _ (oc_new O)) as (Es & _). rewrite <- (ref_links (opt_hash_style (lk_options l))) in Hl. rewrite list_lookup_fmap in Hl.
      destruct (ref_sections (opt_hash_style (lk_options l)) !! sc_id s) as [sr|] eqn:Er; [|discriminate Hl]. cbn [fmap option_fmap option_map] in Hl. apply (inj Some) in Hl.
      assert (E1 : sec_sig <$> w_sections w0 !! sc_id s = Some (sec_sig sr)). { rewrite <- list_lookup_fmap, Es, list_lookup_fmap, Er. reflexivity. }
      destruct (w_sections w0 !! sc_id s) as [s0|] eqn:E2; [|discriminate E1]. cbn [fmap option_fmap option_map] in E1. apply (inj Some) in E1. destruct (wi_fixed _ _ _ (oc_winv O) _ _ E2) as (s1 & Hs1 & Esig & _).
      assert (s1 = a0) as -> by congruence. rewrite <- Hl. apply (f_equal (fun x => x.1.1.1.1.1.2)) in Esig, E1. cbn in Esig, E1. rewrite <- E1. exact Esig. }
    (* the section is finalized from one that is linked to the target *)
    assert (Hf1 : exists a9, w_sections w !! S i = Some a9 /\ sec_finalize (lo_writer lo) w a9 = Ok s).
    { pose proof (mapM_res_F2 (fun a b => sec_finalize (lo_writer lo) w a = Ok b) _ _ _ (fun _ _ H => H) Fin) as F. assert (Hi' : secs !! S i = Some s) by (rewrite (oc_secs O); exact Hi). destruct (Forall2_lookup_r _ _ _ _ _ F Hi') as (a9 & H9 & E9). eauto. }
    destruct Hf1 as (a9 & H9 & E9). destruct (finalize_spec _ _ _ _ E9) as (Ef & _ & _ & Hlk).
    assert (Hl9 : sc_link a9 = Some (target_id b)) by (rewrite Ef in Hsl; exact Hsl). rewrite Hl9 in Hlk. destruct Hlk as (t9 & Ht9 & Hsh).
    assert (Ht' : exists j, w_sections w !! j = Some t9 /\ sc_id t9 = target_id b).
    { revert Ht9. generalize (w_sections w), (target_id b). clear. intros k i. unfold get_section. induction k as [|x k IH]; [discriminate|]. cbn. destruct (Nat.eqb_spec (sc_id x) i) as [E|E].
      - intros [= <-]. by exists 0%nat.
      - intros H. destruct (IH H) as (j & Hj & ?). by exists (S j). }
    destruct Ht' as (j & Hj & Hid). pose proof (mapM_res_F2 (fun a b => sec_finalize (lo_writer lo) w a = Ok b) _ _ _ (fun _ _ H => H) Fin) as F. destruct (Forall2_lookup_l _ _ _ _ _ F Hj) as (t & Htj & Et). destruct (finalize_spec _ _ _ _ Et) as (Eft & _).
    assert (Hidt : sc_id t = target_id b) by (rewrite Eft; exact Hid). assert (Hixt : sc_index t = sc_index t9) by (rewrite Eft; reflexivity).
    exists t. split.
    - rewrite Hsh, <- Hixt. rewrite (oc_secs O) in Htj. destruct j as [|j]; [injection Htj as <-; destruct (null_facts O) as (N0 & _); lia|]. cbn in Htj. rewrite (out_index O _ _ Htj).
      rewrite (oc_secs O) in Hf. simpl length in Hf. apply lookup_lt_Some in Htj as Hlt. unfold u32. rewrite N.mod_small by lia. rewrite Nat2N.id, (oc_secs O). exact Htj.
    - apply (own_the O Fin V P NF (target_id b) b Hti Ht); [by eapply elem_of_list_lookup_2|exact Hidt].
  Qed.
  (** The sections are there. *)
  Lemma good_tables a b : (a, b) ∈ link_targets -> a ∈ [".symtab"; ".dynsym"; ".dynamic"; ".rela.dyn"; ".rela.plt"] -> exists s, the_sec w secs a s.
  Proof using G.
    intros Hab Ha.
    destruct (links_outcome _ _ _ _ _ _ (gl_links _ _ _ _ _ _ G)) as (w0 & wr & ws & w1 & extra & null & rest & rest' & st & w3 & w4 & w5 & w6 & w7 & null' & out & O).
    pose proof (proj2 (gl_links _ _ _ _ _ _ G)) as Fin. destruct G as [_ V P PL NF AF SF].
    destruct (own_all O Fin V P NF) as (pd & gd & _ & Hown). rewrite !elem_of_cons, elem_of_nil in Ha.
    destruct Ha as [-> |[-> |[-> |[-> |[-> |[]]]]]]; [destruct (Hown 8%nat ".symtab") as [s Hs]|destruct (Hown 9%nat ".dynsym") as [s Hs]|destruct (Hown 10%nat ".dynamic") as [s Hs]|destruct (Hown 11%nat ".rela.dyn") as [s Hs]|destruct (Hown 12%nat ".rela.plt") as [s Hs]];
      try lia; try (destruct (opt_hash_style (lk_options l)); vm_compute; reflexivity); exists s; exact (os_the _ _ _ _ _ Hs).
  Qed.
End good.
