(** Locks of a link: proofs (C62). *)
From Verif Require Export SpecLock ProofNames.

(** * Running lock operations *)
Definition is_excl (m : mode) : bool := match m with Excl => true | Shared => false end.
Definition conflict (h : list (mode * sid)) (m : mode) (i : sid) : bool :=
  existsb (fun y => (y.2 =? i)%nat && (is_excl m || is_excl y.1)) h.
Fixpoint go (h : list (mode * sid)) (es : list lock_ev) : option (list (mode * sid)) :=
  match es with
  | [] => Some h
  | Acq m i :: t => if conflict h m i then None else go ((m, i) :: h) t
  | Rel m i :: t => go (release (m, i) h) t
  end.
Lemma go_app h a b : go h (a ++ b) = match go h a with Some h' => go h' b | None => None end.
Proof. revert h. induction a as [|[m i|m i] a IH]; intros h; [done| |]; cbn; [destruct (conflict h m i); [done|]|]; apply IH. Qed.
Lemma go_held h es h' : go h es = Some h' -> h' = fold_left held_step es h.
Proof. revert h. induction es as [|[m i|m i] es IH]; intros h; cbn; [congruence| |]; [destruct (conflict h m i); [discriminate|]|]; apply IH. Qed.
Lemma conflict_false h m i m' : conflict h m i = false -> (m', i) ∈ h -> ~ blocks m m'.
Proof.
  intros Hc Hin Hb. apply elem_of_list_In in Hin. assert (conflict h m i = true); [|congruence]. apply existsb_exists. exists (m', i). split; [done|]. cbn. rewrite Nat.eqb_refl.
  destruct Hb as [->| ->]; [done|]. by rewrite orb_true_r.
Qed.
Lemma conflict_true h m i : conflict h m i = true -> exists m', (m', i) ∈ h /\ blocks m m'.
Proof.
  intros H. apply existsb_exists in H as ([m' j] & Hin & H). apply elem_of_list_In in Hin. cbn in H. apply andb_true_iff in H as [H1 H2]. apply Nat.eqb_eq in H1 as ->.
  exists m'. split; [done|]. unfold blocks. destruct m, m'; cbn in H2; [discriminate|right|left|left]; reflexivity.
Qed.
Lemma go_safe es h : go [] es = Some h -> ~ self_deadlock es.
Proof.
  intros H (pre & m & i & post & m' & -> & Hin & Hb). rewrite go_app in H. destruct (go [] pre) as [h1|] eqn:E; [|discriminate H]. apply go_held in E. cbn in H.
  destruct (conflict h1 m i) eqn:Ec; [discriminate H|]. eapply conflict_false; [exact Ec| |exact Hb]. rewrite E. exact Hin.
Qed.
Lemma go_stuck es : go [] es = None -> self_deadlock es.
Proof.
  assert (G : forall es h, go h es = None -> exists pre m i post m', es = pre ++ Acq m i :: post /\ (m', i) ∈ fold_left held_step pre h /\ blocks m m').
  { clear. induction es as [|[m i|m i] es IH]; intros h; cbn; [discriminate| |].
    - destruct (conflict h m i) eqn:Ec.
      + intros _. destruct (conflict_true _ _ _ Ec) as (m' & Hin & Hb). exists [], m, i, es, m'. done.
      + intros H. destruct (IH _ H) as (pre & m1 & i1 & post & m' & -> & Hin & Hb). exists (Acq m i :: pre), m1, i1, post, m'. done.
    - intros H. destruct (IH _ H) as (pre & m1 & i1 & post & m' & -> & Hin & Hb). exists (Rel m i :: pre), m1, i1, post, m'. done. }
  apply G.
Qed.
Lemma stuck_app a b : self_deadlock a -> self_deadlock (a ++ b).
Proof. intros (pre & m & i & post & m' & -> & H). exists pre, m, i, (post ++ b), m'. rewrite <- (assoc_L (++)). done. Qed.

(** * Operations that leave the locks as they found them *)
Definition quiet (h : list (mode * sid)) (es : list lock_ev) : Prop := go h es = Some h.
Lemma quiet_nil h : quiet h [].
Proof. done. Qed.
Lemma quiet_app h a b : quiet h a -> quiet h b -> quiet h (a ++ b).
Proof. unfold quiet. rewrite go_app. by intros ->. Qed.
Lemma quiet_bind {A} h (f : A -> list lock_ev) (k : list A) : (forall x, x ∈ k -> quiet h (f x)) -> quiet h (k ≫= f).
Proof.
  induction k as [|x k IH]; intros H; [done|]. rewrite bind_cons. apply quiet_app; [apply H; left|]. apply IH. intros y Hy. apply H. by right.
Qed.
Lemma quiet_hold h m i body : Forall (fun y => y.2 <> i \/ (y.1 = Shared /\ m = Shared)) h -> quiet ((m, i) :: h) body -> quiet h (hold m i body).
Proof.
  intros Hf Hb. unfold quiet, hold. cbn [go]. assert (conflict h m i = false) as ->.
  { destruct (conflict h m i) eqn:E; [|done]. exfalso. destruct (conflict_true _ _ _ E) as (m' & Hin & Hbl). rewrite Forall_forall in Hf. destruct (Hf _ Hin) as [Hn|[E1 E2]]; [done|].
    cbn in E1. subst. destruct Hbl; discriminate. }
  rewrite go_app. unfold quiet in Hb. rewrite Hb. cbn. by rewrite decide_True.
Qed.
Lemma quiet_safe es : quiet [] es -> ~ self_deadlock es.
Proof. apply go_safe. Qed.
Ltac no_conflict := rewrite ?Forall_cons, ?Forall_nil; repeat match goal with |- _ /\ _ => split end; try exact I; cbn [fst snd];
  first [right; split; reflexivity|left; discriminate|left; assumption|left; apply not_eq_sym; assumption|left; congruence].
Ltac quiet1 := first [apply quiet_nil|apply quiet_app|apply quiet_hold; [no_conflict|]].
Ltac quieten := unfold lrd, lwr; repeat quiet1.

(** * Each phase *)
Lemma quiet_scan w : (forall s, s ∈ w_sections w -> sc_id s = id_sym \/ sc_id s = id_plt -> sc_chunks s = []) -> quiet [] (lk_scan w).
Proof.
  intros H. apply quiet_bind. intros s Hs. quieten. apply quiet_bind. intros c Hc.
  destruct (decide (sc_id s = id_sym)) as [E|E8]; [rewrite (H s Hs (or_introl E)) in Hc; by apply elem_of_nil in Hc|].
  destruct (decide (sc_id s = id_plt)) as [E|E7]; [rewrite (H s Hs (or_intror E)) in Hc; by apply elem_of_nil in Hc|].
  quieten. apply quiet_bind. intros x _. destruct (plt_call _ _); quieten.
Qed.
Lemma quiet_expand w : w_hash_id w <> Some id_dynsym -> w_gnu_hash_id w <> Some id_dynsym ->
  (forall s, s ∈ w_sections w -> sc_id s = id_dynsym -> sh_type (sc_sh s) = SHT_DYNSYM) -> quiet [] (lk_expand w).
Proof.
  intros H1 H2 H. unfold lk_expand. quieten.
  - unfold lk_opt. destruct (w_hash_id w) as [i|]; [|quieten]. assert (i <> id_dynsym) by congruence. quieten.
  - unfold lk_opt. destruct (w_gnu_hash_id w) as [i|]; [|quieten]. assert (i <> id_dynsym) by congruence. quieten.
  - apply quiet_bind. intros s Hs. quieten. destruct (N.eqb_spec (sh_type (sc_sh s)) SHT_DYNSYM) as [E|E]; [quieten|].
    assert (sc_id s <> id_dynsym) by (intros Ei; apply E, H; assumption). quieten.
Qed.
Lemma quiet_dynrels o w : quiet [] (lk_dynrels o w).
Proof.
  unfold lk_dynrels, quiet. rewrite go_app.
  change (go [] [Acq Excl id_sym; Acq Excl id_dynsym; Acq Shared id_shstr]) with (Some [(Shared, id_shstr); (Excl, id_dynsym); (Excl, id_sym)]). cbv iota.
  assert (Q : quiet [(Shared, id_shstr); (Excl, id_dynsym); (Excl, id_sym)]
    ((o_sym o (keys (syt_symbols (w_symtab w))) ≫= fun n => if copies w n then lwr id_copyrel else []) ++ lwr id_dynrel ++ lwr id_pltrel)).
  { quieten. apply quiet_bind. intros n _. destruct (copies w n); quieten. }
  rewrite (assoc_L (++) (lwr id_dynrel)), (assoc_L (++) (_ ≫= _)), go_app. unfold quiet in Q. rewrite Q. rewrite go_app.
  change (go [(Shared, id_shstr); (Excl, id_dynsym); (Excl, id_sym)] [Rel Excl id_sym; Rel Excl id_dynsym]) with (Some [(Shared, id_shstr)]). cbv iota.
  assert (Q2 : quiet [(Shared, id_shstr)] ((w_sections w ≫= fun s => lrd (sc_id s)) ++ lwr id_dynamic)).
  { quieten. apply quiet_bind. intros s _. quieten. }
  rewrite (assoc_L (++)), go_app. unfold quiet in Q2. rewrite Q2. reflexivity.
Qed.
Lemma quiet_sort cmps w : quiet [] (lk_sort cmps w).
Proof. unfold lk_sort. quieten; apply quiet_bind; intros x _; quieten. Qed.
Lemma quiet_headers w : quiet [] (lk_headers w).
Proof. unfold lk_headers. quieten; apply quiet_bind; intros x _; quieten. Qed.
Lemma quiet_dyn_entries w : quiet [] (lk_dyn_entries w).
Proof. apply quiet_bind. intros x _. quieten. Qed.
Lemma quiet_patch_plt : quiet [] lk_patch_plt.
Proof. reflexivity. Qed.
Lemma quiet_special w : (forall s, s ∈ w_sections w -> sc_id s = id_symstr \/ sc_id s = id_shstr -> sh_name (sc_sh s) ∈ skip_of w) ->
  (forall s, s ∈ w_sections w -> sc_id s = id_sym -> sh_name (sc_sh s) ∉ skip_of w -> ends_array w s = false) -> quiet [] (lk_special w).
Proof.
  intros H1 H2. unfold lk_special. quieten.
  - destruct (st_get _ _); quieten.
  - apply quiet_bind. intros s Hs. quieten. fold (skip_of w). case_bool_decide as Hk; [quieten|].
    assert (sc_id s <> id_symstr) by (intros E; apply Hk, H1; [exact Hs|by left]). assert (sc_id s <> id_shstr) by (intros E; apply Hk, H1; [exact Hs|by right]).
    quieten. destruct (decide (sc_id s = id_sym)) as [E|E]; [rewrite (H2 s Hs E Hk); quieten|]. destruct (ends_array w s); quieten.
Qed.
Lemma quiet_relocations w : (forall s, s ∈ w_sections w -> sc_id s = id_sym \/ sc_id s = id_dynsym -> relocatable w s = false) -> quiet [] (lk_relocations w).
Proof.
  intros H. assert (G : forall s, s ∈ drop 1 (w_sections w) -> relocatable w s = true -> sc_id s <> id_sym /\ sc_id s <> id_dynsym).
  { intros s Hs Hr. assert (Hs' : s ∈ w_sections w) by (rewrite <- (take_drop 1 (w_sections w)); apply elem_of_app; by right).
    split; intros E; [rewrite (H s Hs' (or_introl E)) in Hr|rewrite (H s Hs' (or_intror E)) in Hr]; discriminate Hr. }
  unfold lk_relocations. quieten.
  - apply quiet_bind. intros s Hs. quieten. destruct (relocatable w s) eqn:E; [|quieten]. destruct (G s Hs E). quieten.
  - apply quiet_bind. intros s Hs. quieten. destruct (relocatable w s) eqn:E; [|quieten]. destruct (G s Hs E). quieten.
Qed.
Lemma quiet_tables : quiet [] lk_tables.
Proof. reflexivity. Qed.
Lemma quiet_entry w : quiet [] (lk_entry w).
Proof. unfold lk_entry. quieten. destruct (st_get _ _); quieten. Qed.
Lemma quiet_write w : (forall s, s ∈ w_sections w -> sc_link s <> Some (sc_id s)) -> quiet [] (lk_write false w).
Proof.
  intros H. unfold lk_write. quieten; apply quiet_bind; intros s Hs; quieten. destruct (sc_link s) as [i|] eqn:E; [|quieten].
  assert (i <> sc_id s) by (intros Ei; apply (H s Hs); congruence). quieten.
Qed.

(** * A link *)
Lemma hdr_own (k : list section) s : NoDup (sc_id <$> k) -> s ∈ k -> hdr_of (sc_id s) k = sc_sh s.
Proof.
  unfold hdr_of, get_section. induction k as [|x k IH]; intros Hn Hs; [by apply elem_of_nil in Hs|]. rewrite fmap_cons, NoDup_cons in Hn. destruct Hn as [H1 H2]. cbn.
  destruct (Nat.eqb_spec (sc_id x) (sc_id s)) as [E|E].
  - apply elem_of_cons in Hs as [->|Hs]; [done|]. exfalso. apply H1. rewrite E. by apply elem_of_list_fmap_1.
  - apply elem_of_cons in Hs as [->|Hs]; [done|]. by apply IH.
Qed.
Lemma ref_hash_id st w0 : ref_writer st = Ok w0 -> w_hash_id w0 <> Some id_dynsym /\ w_gnu_hash_id w0 <> Some id_dynsym.
Proof. intros H. destruct st; vm_compute in H; injection H as <-; vm_compute; split; discriminate. Qed.
Lemma own_links_other hs i : own_links hs !! i <> Some (Some i).
Proof.
  assert (K : forallb (fun i => bool_decide (own_links hs !! i <> Some (Some i))) (seq 0 20) = true) by (destruct hs; vm_compute; reflexivity).
  destruct (decide (i < 20)%nat) as [Hi|Hi].
  - rewrite forallb_forall in K. specialize (K i). rewrite <- elem_of_list_In, elem_of_seq in K. assert (Hr : (0 <= i < 0 + 20)%nat) by lia. exact (bool_decide_eq_true_1 _ (K Hr)).
  - rewrite lookup_ge_None_2; [discriminate|]. destruct hs; cbn; lia.
Qed.

Section outcome.
  Context {wd : world} {lo : lib_oracle} {l : linker} {fuel : nat} {w : writer} {secs : list section}.
  Context {w0 wr ws w1 : writer} {extra : N} {null : section} {rest rest' : list section} {st : layout} {w3 w4 w5 w6 w7 : writer} {null' : section} {out : list section}.
  Context (O : outcome wd lo l fuel w secs w0 wr ws w1 extra null rest rest' st w3 w4 w5 w6 w7 null' out).
  Context (Fin : mapM_res (sec_finalize (lo_writer lo) w) (w_sections w) = Ok secs).
  Context (V : valid_oracle (lo_writer lo)) (P : plain_inputs wd l) (NF : names_fit w).
  Let n0 := length (w_sections w0).

  Lemma kept_ids (a b : list section) : Forall2 kept a b -> sc_id <$> b = sc_id <$> a.
  Proof using. intros H. induction H as [|x y a b K H IH]; [reflexivity|]. rewrite !fmap_cons, IH. f_equal. exact (proj1 (proj2 (kept_sh _ _ K))). Qed.
  Lemma ids_stages : NoDup (sc_id <$> w_sections w5) /\ NoDup (sc_id <$> w_sections w6).
  Proof using O V.
    destruct (kept_stages O) as (K5 & K6 & _). rewrite (kept_ids _ _ K5), (kept_ids _ _ K6), (w4_sections O), (run_w3_secs (oc_run O)).
    split; exact (proj1 (laid_ids O V)).
  Qed.
  Lemma wr_links s : s ∈ w_sections wr -> sc_link s <> Some (sc_id s).
  Proof using O.
    intros Hs Hl. apply elem_of_list_lookup in Hs as [i Hi]. pose proof (wi_ids _ _ _ (oc_winv O) _ _ Hi) as Hid. rewrite Hid in Hl.
    destruct (decide (i < n0)%nat) as [Hlt|Hge].
    - destruct (writer_new_ref _ _ (oc_new O)) as (Es & _). pose proof Hlt as Hlt'. apply lookup_lt_is_Some_2 in Hlt' as [s0 E2].
      destruct (wi_fixed _ _ _ (oc_winv O) _ _ E2) as (s1 & Hs1 & Esig & _). assert (s1 = s) as -> by congruence.
      assert (E1 : (sec_sig <$> ref_sections (opt_hash_style (lk_options l))) !! i = Some (sec_sig s0)) by (rewrite <- Es, list_lookup_fmap, E2; reflexivity).
      rewrite list_lookup_fmap in E1. destruct (ref_sections (opt_hash_style (lk_options l)) !! i) as [sr|] eqn:Er; [|discriminate E1]. cbn [fmap option_fmap option_map] in E1. apply (inj Some) in E1.
      apply (f_equal (fun x => x.1.1.1.1.1.2)) in Esig, E1. cbn in Esig, E1.
      apply (own_links_other (opt_hash_style (lk_options l)) i). rewrite <- ref_links, list_lookup_fmap, Er. cbn [fmap option_fmap option_map]. f_equal. rewrite E1, <- Esig. exact Hl.
    - destruct (wi_new _ _ _ (oc_winv O) i s ltac:(unfold n0 in Hge; lia) Hi) as (_ & Hn & _). rewrite Hn in Hl. discriminate Hl.
  Qed.
  Lemma final_links s : s ∈ w_sections w -> sc_link s <> Some (sc_id s).
  Proof using O V.
    intros Hs. destruct (run_kept (oc_run O)) as (nl & fin & Es & Kn & Kf). rewrite Es in Hs.
    assert (H : exists a, a ∈ w_sections wr /\ decl a = decl s).
    { apply elem_of_cons in Hs as [->|Hs].
      - pose proof (oc_decls O) as F. inversion F as [|a b la lb Hd F' Ea Eb]; subst. exists a. split; [left|].
        rewrite (kept_decl _ _ Kn). symmetry. exact Hd.
      - apply elem_of_list_lookup in Hs as [i Hi]. destruct (Forall2_lookup_r _ _ _ _ _ Kf Hi) as (a & Ha & Ka). destruct (fmap_decl_lookup _ _ _ _ (rest'_decls O) Ha) as (b & Hb & Eb).
        destruct (out_input O V b (elem_of_list_lookup_2 _ _ _ Hb)) as (j & sr & _ & Hj & Ej). exists sr. split; [by eapply elem_of_list_lookup_2|]. rewrite (kept_decl _ _ Ka). congruence. }
    destruct H as (a & Ha & Hd). pose proof (wr_links a Ha) as Hl. assert (E1 : sc_link s = sc_link a) by (unfold decl in Hd; congruence). assert (E2 : sc_id s = sc_id a) by (unfold decl in Hd; congruence).
    rewrite E1, E2. exact Hl.
  Qed.
  Lemma wr_empty s : s ∈ w_sections wr -> sc_id s = id_sym \/ sc_id s = id_plt -> sc_chunks s = [].
  Proof using O P.
    intros Hs Hid. apply elem_of_list_lookup in Hs as [i Hi]. rewrite (wi_ids _ _ _ (oc_winv O) _ _ Hi) in Hid. pose proof (n0_ge O) as Hge.
    assert (Hb : (0 < i < length (w_sections w0))%nat /\ i <> 4%nat) by (unfold id_sym, id_plt in Hid; clear -Hid Hge; lia).
    destruct (fixed_start O P i s (proj1 Hb) Hi) as (_ & _ & _ & _ & H). rewrite decide_False in H by exact (proj2 Hb). exact (proj1 H).
  Qed.
  Lemma ws_dynsym s : s ∈ w_sections ws -> sc_id s = id_dynsym -> sh_type (sc_sh s) = SHT_DYNSYM.
  Proof using O P.
    intros Hs Hid. apply elem_of_list_lookup in Hs as [i Hi]. destruct (Forall2_lookup_r _ _ _ _ _ (scan_secs _ _ (sz_scan _ _ _ _ _ (rn_sizing (oc_run O)))) Hi) as (a & Ha & Hk & _).
    destruct (kept_sh _ _ Hk) as (-> & E & _). rewrite E, (wi_ids _ _ _ (oc_winv O) _ _ Ha) in Hid. pose proof (n0_ge O) as Hge.
    assert (Hb : (0 < i < length (w_sections w0))%nat) by (unfold id_dynsym in Hid; clear -Hid Hge; lia).
    destruct (fixed_start O P i a Hb Ha) as (_ & (_ & H) & _). apply H. exact Hid.
  Qed.
  Lemma ws_hash_ids : w_hash_id ws <> Some id_dynsym /\ w_gnu_hash_id ws <> Some id_dynsym.
  Proof using O.
    destruct (scan_flat _ _ (sz_scan _ _ _ _ _ (rn_sizing (oc_run O)))) as (sst & _ & ->). cbn.
    destruct (writer_new_ref _ _ (oc_new O)) as (_ & _ & _ & (wx & Hx & Hc) & _). apply ref_hash_id in Hx. pose proof (wi_const _ _ _ (oc_winv O)) as Hk. rewrite Hc in Hk. unfold wconst in Hk.
    assert (E1 : w_hash_id wr = w_hash_id wx) by congruence. assert (E2 : w_gnu_hash_id wr = w_gnu_hash_id wx) by congruence. rewrite E1, E2. exact Hx.
  Qed.
  Lemma w5_skip s : s ∈ w_sections w5 -> sc_id s = id_symstr \/ sc_id s = id_shstr -> sh_name (sc_sh s) ∈ skip_of w5.
  Proof using O V.
    intros Hs Hid. pose proof (hdr_own _ _ (proj1 ids_stages) Hs) as Hh. unfold skip_of. destruct Hid as [E|E]; rewrite E in Hh; rewrite Hh; [left|right; left].
  Qed.
  Lemma w5_ends s : s ∈ w_sections w5 -> sc_id s = id_sym -> sh_name (sc_sh s) ∉ skip_of w5 -> ends_array w5 s = false.
  Proof using O Fin V P NF.
    intros Hs Hid Hsk. destruct (ends_array w5 s) eqn:E; [|reflexivity]. exfalso.
    assert (Hk : exists kd, array_kind (w_shstrtab w5) (skip_of w5) s = Some kd).
    { unfold array_kind. rewrite bool_decide_eq_false_2 by exact Hsk. unfold ends_array in E. case_bool_decide as D1; [eauto|]. apply andb_true_iff in E as [E _]. rewrite E. eauto. }
    destruct Hk as [kd Hk]. apply elem_of_list_lookup in Hs as [i Hi]. destruct (stage5 O _ _ Hi) as (b & Hb & Hn & Hidb). pose proof (kind_name O NF _ _ _ Hk Hn) as Hnm.
    assert (Hrow : (fst ∘ fst ∘ fst) <$> own_rows (opt_hash_style (lk_options l)) !! id_sym = Some ".symtab") by (destruct (opt_hash_style (lk_options l)); vm_compute; reflexivity).
    assert (Hran : (0 < id_sym < 14)%nat) by (unfold id_sym; clear; lia).
    destruct (own_the O Fin V P NF id_sym ".symtab" Hran Hrow b (elem_of_list_lookup_2 _ _ _ Hb) ltac:(congruence)) as (_ & Hn2 & _). rewrite Hnm in Hn2. destruct kd; discriminate Hn2.
  Qed.
  Lemma w6_fixed s : s ∈ w_sections w6 -> sc_id s = id_sym \/ sc_id s = id_dynsym -> relocatable w6 s = false.
  Proof using O V.
    intros Hs Hid. pose proof (hdr_own _ _ (proj2 ids_stages) Hs) as Hh. unfold relocatable. apply negb_false_iff, bool_decide_eq_true.
    destruct Hid as [E|E]; rewrite E in Hh; rewrite Hh; [left|right; left].
  Qed.

  Lemma link_locks cmps tr : exists es, lk_link (lo_writer lo) cmps tr wr = Ok (es ++ lk_write tr w) /\ quiet [] es.
  Proof using O Fin V P NF.
    pose proof (oc_run O) as R. unfold lk_link. rewrite (sz_scan _ _ _ _ _ (rn_sizing R)). cbn [mbind res_bind]. rewrite (rn_sizes R). cbn [mbind res_bind]. rewrite (rn_assign R). cbn [mbind res_bind].
    rewrite (rn_special R). cbn [mbind res_bind]. rewrite (rn_rel R). cbn [mbind res_bind]. rewrite (rn_fin R). cbn [mbind res_bind].
    exists (lk_scan wr ++ lk_expand ws ++ lk_dynrels (lo_writer lo) ws ++ lk_sort cmps w1 ++ lk_headers w5 ++ lk_dyn_entries w5 ++ lk_patch_plt ++
      lk_special w5 ++ lk_relocations w6 ++ lk_tables ++ lk_entry w7 ++ lk_undefined). split; [f_equal; rewrite <- !(assoc_L (++)); reflexivity|].
    apply quiet_app; [apply quiet_scan; exact wr_empty|]. apply quiet_app; [destruct ws_hash_ids; apply quiet_expand; [assumption|assumption|exact ws_dynsym]|].
    apply quiet_app; [apply quiet_dynrels|]. apply quiet_app; [apply quiet_sort|]. apply quiet_app; [apply quiet_headers|]. apply quiet_app; [apply quiet_dyn_entries|].
    apply quiet_app; [apply quiet_patch_plt|]. apply quiet_app; [apply quiet_special; [exact w5_skip|exact w5_ends]|]. apply quiet_app; [apply quiet_relocations; exact w6_fixed|].
    apply quiet_app; [apply quiet_tables|]. apply quiet_app; [apply quiet_entry|]. reflexivity.
  Qed.
  Lemma has_shstr : exists s, s ∈ w_sections w /\ sc_id s = id_shstr.
  Proof using O V.
    destruct (run_kept (oc_run O)) as (nl & fin & Es & Kn & Kf). pose proof (n0_ge O) as Hge.
    assert (H : id_shstr ∈ sc_id <$> w_sections w).
    { rewrite Es, (kept_ids (null <| sc_index := 0 |> :: rest') (nl :: fin)) by (constructor; assumption). apply (proj2 (laid_ids O V)). unfold id_shstr. clear -Hge. lia. }
    apply elem_of_list_fmap in H as (s & E & Hs). exists s. split; [exact Hs|]. symmetry. exact E.
  Qed.
  Context {es : list (string * elf_obj)} {evs : list event} (R : reads wd l es evs wr).
  Lemma sec_refs x sr : EvSec x sr ∈ evs -> sr_section sr = 0%nat \/ (14 <= sr_section sr)%nat.
  Proof using O P R.
    intros Hx. destruct (decide (si_name x = "")) as [E|E]; [left; by eapply (unnamed_zero O R)|right].
    assert (Hin : x ∈ all_secs es). { rewrite <- (ld_secs _ _ _ _ _ R). apply elem_of_list_omap. exists (EvSec x sr). done. }
    destruct (sec_input _ _ _ _ _ _ R Hin) as (p & e & _ & _ & Hinp & _). assert (Hres : si_name x ∉ reserved) by (by eapply (pi_names _ _ P)).
    apply elem_of_list_split in Hx as (pre & post & Hev). destruct (sv_ref _ _ _ _ (wr_sinv O R) pre x sr post Hev) as [(ofs & Hofs) _]. pose proof (n0_ge O) as Hge.
    destruct (decide (sr_section sr < length (w_sections w0))%nat) as [Hlt|Hge']; [|clear -Hge Hge'; lia].
    destruct (prefix_names l _ w0 (oc_new O) eq_refl wr _ _ _ (oc_winv O) Hofs Hlt) as [?|?]; done.
  Qed.
  Lemma event_quiet pre v post wp : evs = pre ++ v :: post -> quiet [] (event_locks wp v).
  Proof using O P R.
    intros E. pose proof (ld_ok _ _ _ _ _ R pre v post E) as Hok. destruct v as [x sr|x sr r|x r sr|path e sym name so r]; cbn [event_locks].
    - unfold lk_add_section. quieten. destruct (st_get _ _); [|quieten]. destruct (_ !! _); quieten.
    - unfold lk_add_symbol. quieten. destruct sr as [sr|]; [|quieten]. destruct (_ =? _); [quieten|]. cbn [event_ok] in Hok. destruct Hok as (y & Hy & _).
      assert (Hin : EvSec y sr ∈ evs) by (rewrite E; apply elem_of_app; by left). destruct (sec_refs y sr Hin) as [E0|E0].
      + rewrite E0. quieten.
      + assert (sr_section sr <> id_symstr) by (unfold id_symstr; clear -E0; lia). assert (sr_section sr <> id_sym) by (unfold id_sym; clear -E0; lia). quieten.
    - unfold lk_add_relocation. quieten.
    - unfold lk_add_dyn_symbol, lk_add_needed. quieten. destruct (st_get _ _); quieten.
  Qed.
End outcome.

(** Trace messages. *)
Lemma write_traced w s : s ∈ w_sections w -> sc_id s = id_shstr -> self_deadlock (lk_write true w).
Proof.
  intros Hs Hid. unfold lk_write. apply stuck_app. apply elem_of_list_split in Hs as (a & b & ->). rewrite bind_app, bind_cons, Hid.
  exists ((a ≫= fun s => hold Excl (sc_id s) (lrd id_shstr ++ match sc_link s with Some l => lrd l | None => [] end)) ++ [Acq Excl id_shstr]), Shared, id_shstr. eexists _, Excl.
  split; [|split].
  - rewrite <- (assoc_L (++)). reflexivity.
  - unfold held. rewrite fold_left_app. cbn. left.
  - by right.
Qed.
Lemma stuck_quiet_app a b : quiet [] a -> self_deadlock b -> self_deadlock (a ++ b).
Proof.
  intros Ha (pre & m & i & post & m' & -> & Hin & Hb). exists (a ++ pre), m, i, post, m'. rewrite (assoc_L (++)). split; [done|]. split; [|done].
  unfold held in *. rewrite fold_left_app. apply go_held in Ha. rewrite <- Ha. exact Hin.
Qed.
