(** A name with a global definition in an object of the command line is never
    bound to a library's. *)
From Verif Require Export SpecSyms ProofResolve.
From Verif Require Import ProofBase.

Definition tidy_names (w : writer) : Prop := st_ok (w_strtab w) /\ forall n s, syt_symbols (w_symtab w) !! n = Some s -> n < 2 ^ 32.
Lemma tidy_up w x : tidy_names w -> up_ok (x :: (stt_names (w_strtab w)).*1) w.
Proof.
  intros [H1 H2]. constructor; [exact H1| |exact H2]. intros name [e He]. unfold st_get in He. destruct (ModelTables.assoc name (stt_names (w_strtab w))) as [p|] eqn:E; [|discriminate He].
  apply assoc_Some_elem in E. right. right. apply elem_of_list_fmap. exists (name, p). split; [reflexivity|exact E].
Qed.

Lemma up_tidy U w : up_ok U w -> tidy_names w.
Proof. intros [H1 _ H3]. by split. Qed.
Lemma climb_low s : (climb s <= 5)%nat <-> s_dynamic s = None.
Proof. unfold climb, climb_bind. destruct (s_dynamic s), (is_local s), (is_weak s), (st_shndx (s_sym s) =? 0); split; (intros E; first [discriminate E|reflexivity|lia]). Qed.
Lemma merge_low old new s : merge_symbol old new = Some s -> s_dynamic s = s_dynamic old.
Proof. unfold merge_symbol. repeat case_match; intros [= <-]; reflexivity. Qed.
Lemma merge_strong old new s : merge_symbol old new = Some s -> binding (s_sym new) = 1 -> st_shndx (s_sym new) <> 0 -> (5 <= climb s)%nat.
Proof.
  unfold merge_symbol, higher_bind_than. rewrite !st_bind_binding. intros H Hb Hd. rewrite Hb in H. destruct (_ && _ && _ && _); [discriminate H|].
  change STB_LOCAL with 0 in H. change STB_WEAK with 2 in H. change STB_GLOBAL with 1 in H. change SHN_UNDEF with 0 in H. cbn [N.eqb Pos.eqb] in H.
  unfold climb, climb_bind, is_local, is_weak. rewrite !st_bind_binding. change STB_LOCAL with 0. change STB_WEAK with 2.
  destruct (N.eqb_spec (binding (s_sym old)) 0) as [E0|E0]; [|destruct (N.eqb_spec (binding (s_sym old)) 2) as [E2|E2]]; cbn [negb andb orb] in H.
  - injection H as <-. cbn [s_sym st_shndx set]. unfold binding in *. cbn [s_sym st_info set]. rewrite Hb. destruct (N.eqb_spec (st_shndx (s_sym new)) 0); [done|]. cbn [N.eqb Pos.eqb]. lia.
  - injection H as <-. cbn [s_sym st_shndx set]. unfold binding in *. cbn [s_sym st_info set]. rewrite Hb. destruct (N.eqb_spec (st_shndx (s_sym new)) 0); [done|]. cbn [N.eqb Pos.eqb]. lia.
  - destruct (N.eqb_spec (st_shndx (s_sym old)) 0) as [Z|Z]; injection H as <-; cbn [s_sym st_shndx set]; unfold binding in *; cbn [s_sym st_info set];
      (destruct (N.eqb_spec (st_info (s_sym old) / 16) 0); [done|]); (destruct (N.eqb_spec (st_info (s_sym old) / 16) 2); [done|]).
    + destruct (N.eqb_spec (st_shndx (s_sym new)) 0); [done|]. lia.
    + destruct (N.eqb_spec (st_shndx (s_sym old)) 0); [done|]. lia.
Qed.

(** ** Adding a symbol of an input *)
Lemma syt_add_low t sym h g ref t' r : syt_add_symbol t sym h g ref = inl (t', r) ->
  (forall n, (climb_at t n <= 5)%nat -> (climb_at t' n <= 5)%nat) /\ (typ sym <> 3 -> binding sym = 1 -> st_shndx sym <> 0 -> (5 <= climb_at t' (st_name sym))%nat).
Proof.
  unfold syt_add_symbol. rewrite st_type_typ. change STT_SECTION with 3. destruct (N.eqb_spec (typ sym) 3) as [E3|E3].
  { intros [= <- <-]. split; [done|]. intros; done. }
  unfold climb_at. destruct (syt_symbols t !! st_name sym) as [old|] eqn:Eo.
  - destruct (merge_symbol old _) as [s|] eqn:Em; [|done]. intros [= <- <-]. cbn [syt_symbols set]. split.
    + intros n. destruct (decide (n = st_name sym)) as [->|]; [rewrite lookup_insert, Eo, !climb_low, (merge_low _ _ _ Em); done|by rewrite lookup_insert_ne].
    + intros _ Hb Hd. rewrite lookup_insert. exact (merge_strong _ _ _ Em Hb Hd).
  - intros [= <- <-]. set (new := symbol_new sym h g ref).
    assert (E : syt_symbols (if is_local new then t <| syt_num_locals := syt_num_locals t + 1 |> else t) = syt_symbols t) by (by destruct (is_local new)).
    cbn [syt_symbols set]. rewrite E. split.
    + intros n. destruct (decide (n = st_name sym)) as [->|]; [|by rewrite lookup_insert_ne]. intros _. rewrite lookup_insert. apply climb_low. reflexivity.
    + intros _ Hb Hd. rewrite lookup_insert. unfold climb, climb_bind, is_local, is_weak. rewrite !st_bind_binding. subst new. cbn [symbol_new s_sym s_dynamic]. rewrite Hb.
      destruct (N.eqb_spec (st_shndx sym) 0); [done|]. cbn [N.eqb Pos.eqb]. change STB_LOCAL with 0. change STB_WEAK with 2. cbn [N.eqb Pos.eqb]. lia.
Qed.
Definition undyn_step (w w' : writer) : Prop := forall n, (climb_at (w_symtab w) n <= 5)%nat -> (climb_at (w_symtab w') n <= 5)%nat.
Lemma add_symbol_own w sym sr name path w' r : tidy_names w -> add_symbol w sym sr name path = Ok (w', r) ->
  tidy_names w' /\ climbs w w' /\ undyn_step w w' /\ (typ sym <> 3 -> binding sym = 1 -> st_shndx sym <> 0 -> (5 <= climb_of w' name)%nat).
Proof.
  intros HT H. destruct (add_symbol_up (name :: (stt_names (w_strtab w)).*1) _ _ _ _ _ _ _ (elem_of_list_here _ _) (tidy_up _ name HT) H) as (A & B & _). split; [exact (up_tidy _ _ A)|]. split; [exact B|]. clear A B.
  unfold add_symbol in H. apply bind_Ok in H as ([[[names t] secs] r1] & H & [= <- <-]). unfold add_symbol_inner in H.
  destruct (st_get_or_create (w_strtab w) name) as [names' en] eqn:En. set (sym' := sym <| st_name := u32 (en_offset en) |>) in *.
  destruct (syt_add_symbol (w_symtab w) sym' _ _ path) as [[t1 r2]|] eqn:Ea; [|done].
  assert (names = names' /\ t = t1) as [-> ->].
  { destruct sr as [sr|]; [|by injection H as <- <- <- <-]. destruct (_ =? SHN_ABS); [by injection H as <- <- <- <-|]. by apply bind_Ok in H as (secs' & _ & [= <- <- <- <-]). }
  clear H. destruct (syt_add_low _ _ _ _ _ _ _ Ea) as [A1 A2]. split; [exact A1|]. intros Ht Hb Hd.
  unfold climb_of. cbn [w_strtab w_symtab set]. unfold st_get. pose proof (goc_assoc _ _ _ _ En) as En'. rewrite En'. cbn [en_offset]. exact (A2 Ht Hb Hd).
Qed.

(** ** Objects and archives *)
Section own.
  Context (wd : world) (l : linker).
  (** The command line without its libraries. *)
  Definition unshared : linker := mkLinker (lk_options l <| opt_shared_libs := [] |>) (lk_objects l) (lk_archives l).
  Lemma no_lib path e : ~ is_lib wd unshared path e.
  Proof using. intros [H _]. by apply elem_of_nil in H. Qed.

  (** While the objects of the command line are read nothing is dynamic. *)
  Definition undynamic (w : writer) : Prop := tidy_names w /\ forall n, (climb_at (w_symtab w) n <= 5)%nat.
  Definition strong_at (e : elf_obj) (sym : Sym) (w : writer) (r : symref) : Prop :=
    forall name, eo_strtab e (st_name sym) = Some name -> typ sym <> 3 -> binding sym = 1 -> st_shndx sym <> 0 -> (5 <= climb_of w name)%nat.
  Lemma tidy_same w w' : w_strtab w' = w_strtab w -> w_symtab w' = w_symtab w -> tidy_names w -> tidy_names w' /\ climbs w w' /\ undyn_step w w'.
  Proof using.
    intros E1 E2 H. destruct (up_same _ _ _ E1 E2 (tidy_up _ "" H)) as [A B]. split; [exact (up_tidy _ _ A)|]. split; [exact B|]. intros n. by rewrite E2.
  Qed.
  Lemma section_own w name sh data w' sr : tidy_names w -> add_section w name sh data = Ok (w', sr) -> tidy_names w' /\ climbs w w' /\ undyn_step w w'.
  Proof using.
    intros HT H. apply tidy_same; [| |exact HT]; revert H; unfold add_section; destruct (st_get_or_create _ _) as [names en]; (destruct (en_new en);
      [intros [= <- <-]; done|]); intros H; apply bind_Ok in H as (s & _ & H); (destruct data; [by injection H as <- <-|]); cbn in H;
      (destruct (sc_chunks s); [done|by injection H as <- <-]).
  Qed.
  Lemma relocation_own w rel r sr w' : tidy_names w -> add_relocation w rel r sr = Ok w' -> tidy_names w' /\ climbs w w' /\ undyn_step w w'.
  Proof using.
    intros HT H. apply tidy_same; [| |exact HT]; revert H; unfold add_relocation; (destruct (_ || _); [done|]); intros H; by apply bind_Ok in H as (secs & _ & [= <-]).
  Qed.
  Lemma load_objects_own w w' : undynamic w -> load_objects wd l w = Ok w' -> undynamic w' /\
    forall p e, p ∈ lk_objects l -> wd_elf wd p = Some (Some e) -> eo_is_object e = true -> forall sym, sym ∈ eo_syms e -> exists r, strong_at e sym w' r.
  Proof using.
    intros HP H. change (load_objects wd l w) with (load_objects wd unshared w) in H.
    assert (S : forall a b, undynamic a -> tidy_names b -> undyn_step a b -> undynamic b) by (intros a b [_ Ha] Hb Hc; split; [exact Hb|]; intros n; apply Hc, Ha).
    destruct (load_objects_refs wd unshared undynamic climbs (fun _ _ _ _ => True) strong_at climbs_refl climbs_trans) with (7 := HP) (8 := H) as (A & _ & B).
    - done.
    - intros e sym a b r _ _ Hc Hs name H1 H2 H3 H4. pose proof (Hs name H1 H2 H3 H4). pose proof (proj2 Hc name). lia.
    - intros a e i name sh data b sr Ha _ _ _ Hab. destruct (section_own _ _ _ _ _ _ (proj1 Ha) Hab) as (X & Y & Z). split; [exact (S _ _ Ha X Z)|]. by split.
    - intros a e sym o name path b r Ha _ _ Hn _ Hab. destruct (add_symbol_own _ _ _ _ _ _ _ (proj1 Ha) Hab) as (X & Y & Z & W). split; [exact (S _ _ Ha X Z)|]. split; [exact Y|].
      intros name' Hn' H1 H2 H3. rewrite Hn in Hn'. injection Hn' as <-. by apply W.
    - intros a e idx rels rel sym sym' r sr b Ha _ _ _ _ _ _ _ _ _ _ Hab. destruct (relocation_own _ _ _ _ _ (proj1 Ha) Hab) as (X & Y & Z). split; [exact (S _ _ Ha X Z)|exact Y].
    - intros a path e sym name so b r _ Hl. by apply no_lib in Hl.
    - split; [exact A|]. intros p e Hp He Ho sym Hs. exact (proj2 (B p e Hp He Ho) sym Hs).
  Qed.

  (** Later on, for a name with a global definition. *)
  Context (n : string).
  Definition kept_own (w : writer) : Prop := tidy_names w /\ climb_of w n = 5%nat.
  Lemma kept_step w w' : kept_own w -> tidy_names w' -> climbs w w' -> undyn_step w w' -> kept_own w'.
  Proof using.
    intros [_ Hk] HT Hc Hl. split; [exact HT|]. pose proof (proj2 Hc n) as Hge. enough (climb_of w' n <= 5)%nat by lia. clear Hge.
    destruct Hc as [[tl Htl] _]. unfold climb_of in *. destruct (st_get (w_strtab w) n) as [e|] eqn:E; [|discriminate Hk]. pose proof (st_get_assoc _ _ _ E) as Ea.
    unfold st_get. rewrite Htl, (assoc_app_l _ _ _ _ Ea). cbn [en_offset]. apply Hl. rewrite Hk. lia.
  Qed.
  Lemma archives_own lo round us w w' us' : kept_own w -> process_archives_containing wd lo round l us w = Ok (w', us') -> kept_own w'.
  Proof using.
    intros HP H. change (process_archives_containing wd lo round l us w) with (process_archives_containing wd lo round unshared us w) in H.
    refine (proj1 (archives_refs wd unshared kept_own climbs (fun _ _ _ _ => True) (fun _ _ _ _ => True) climbs_refl climbs_trans _ _ _ _ _ _ lo round us w w' us' HP H)); [done|done| | | |].
    - intros a e i name sh data b sr Ha _ _ _ Hab. destruct (section_own _ _ _ _ _ _ (proj1 Ha) Hab) as (X & Y & Z). split; [exact (kept_step _ _ Ha X Y Z)|]. by split.
    - intros a e sym o name path b r Ha _ _ Hn _ Hab. destruct (add_symbol_own _ _ _ _ _ _ _ (proj1 Ha) Hab) as (X & Y & Z & W). split; [exact (kept_step _ _ Ha X Y Z)|]. by split.
    - intros a e idx rels rel sym sym' r sr b Ha _ _ _ _ _ _ _ _ _ _ Hab. destruct (relocation_own _ _ _ _ _ (proj1 Ha) Hab) as (X & Y & Z). split; [exact (kept_step _ _ Ha X Y Z)|exact Y].
    - intros a path e sym name so b r _ Hl. by apply no_lib in Hl.
  Qed.

  (** ** Libraries *)
  Definition name_key (t : strtab) : N := match st_get t n with Some e => u32 (en_offset e) | None => 0 end.
  Lemma add_dyn_own w sym k name path so w' r : tidy_names w -> st_name_at (w_strtab w) k = Some name -> k < 2 ^ 32 -> k <> name_key (w_strtab w) -> add_dyn_symbol w sym None name path = Ok (w', r) ->
    w_strtab (add_needed w' so) = w_strtab w /\ tidy_names (add_needed w' so) /\ climb_of (add_needed w' so) n = climb_of w n.
  Proof using.
    intros HT Hat Hk Hne H. destruct (st_name_at_get _ _ _ Hat) as [en Hen].
    assert (Ek : u32 (en_offset en) = k).
    { unfold st_name_at in Hat. apply name_in_Some_elem in Hat as [i Hi]. unfold st_get in Hen. rewrite (assoc_elem_Some _ _ _ (ok_nodup _ (proj1 HT)) Hi) in Hen. injection Hen as <-. cbn [en_offset]. unfold u32. lia. }
    destruct (add_dyn_up _ _ _ _ _ so _ _ (tidy_up _ "" HT) (st_name_at_get _ _ _ Hat) H) as (A & _ & _). pose proof (add_dyn_symbol_strtab _ _ _ _ _ _ _ H) as Est.
    split; [by rewrite add_needed_strtab|]. split; [exact (up_tidy _ _ A)|]. clear A. unfold add_dyn_symbol in H.
    apply bind_Ok in H as ([[[names t] secs] r1] & _ & H). cbn [w_strtab w_symtab set] in H. rewrite Hen in H. apply bind_Ok in H as (s & Hs & [= <- <-]).
    match goal with |- climb_of (add_needed ?x so) n = _ => set (w1 := x) in * end.
    assert (Esy : w_symtab (add_needed w1 so) = w_symtab w1). { unfold add_needed. destruct (st_get_or_create (w_dynstr w1) so) as [t' e']. by destruct (en_new e'). }
    unfold climb_of. rewrite add_needed_strtab, Est. unfold name_key in Hne. destruct (st_get (w_strtab w) n) as [e|]; [|reflexivity]. unfold climb_at. rewrite Esy.
    assert (E1 : syt_symbols (w_symtab w1) = alter (fun s => s <| s_dynamic := Some r1 |>) (u32 (en_offset en)) (syt_symbols (w_symtab w))) by done.
    rewrite E1, Ek, lookup_alter_ne by exact Hne. reflexivity.
  Qed.
  Definition away (us : list symref) (t : strtab) : Prop := forall k, RNamed k ∈ us -> k < 2 ^ 32 /\ k <> name_key t.
  Lemma match_dynsyms_own e path k name syms found w w' found' : tidy_names w -> st_name_at (w_strtab w) k = Some name -> k < 2 ^ 32 -> k <> name_key (w_strtab w) ->
    match_dynsyms e path name syms found w = Ok (w', found') -> w_strtab w' = w_strtab w /\ tidy_names w' /\ climb_of w' n = climb_of w n.
  Proof using.
    revert found w; induction syms as [|sym syms IH]; intros found w HT Hat Hk Hne H; cbn [match_dynsyms] in H; [by injection H as <- <-|].
    destruct (eo_dynstr e (st_name sym)) as [nm|]; [|done]. destruct (decide (name = nm)) as [<-|]; [|by eapply IH].
    apply bind_Ok in H as ([w1 r] & H1 & H). apply bind_Ok in H as (so & _ & H).
    destruct (add_dyn_own _ _ _ _ _ so _ _ HT Hat Hk Hne H1) as (A & B & C). rewrite <- A in Hat, Hne.
    destruct (IH _ _ B Hat Hk Hne H) as (D & F & G). rewrite D, G. done.
  Qed.
  Lemma match_undefines_own e path us w w' us' : tidy_names w -> away us (w_strtab w) -> match_undefines e path us w = Ok (w', us') ->
    w_strtab w' = w_strtab w /\ tidy_names w' /\ climb_of w' n = climb_of w n /\ us' ⊆ us.
  Proof using.
    revert w us'; induction us as [|u us IH]; intros w us' HT Hap H; cbn [match_undefines] in H; [by injection H as <- <-|].
    apply bind_Ok in H as (name & Hn & H). apply bind_Ok in H as ([w1 found] & H1 & H). apply bind_Ok in H as ([w2 rest] & H2 & [= <- <-]).
    assert (G : w_strtab w1 = w_strtab w /\ tidy_names w1 /\ climb_of w1 n = climb_of w n).
    { destruct name as [name|]; [|by injection H1 as <- <-]. unfold symbol_name in Hn. destruct u as [k|]; [|done].
      apply bind_Ok in Hn as (s & Hs & [= <-]). apply unwrap_Ok in Hs. destruct (Hap k) as [K1 K2]; [by left|]. exact (match_dynsyms_own _ _ _ _ _ _ _ _ _ HT Hs K1 K2 H1). }
    destruct G as (G1 & G2 & G3). destruct (IH w1 rest G2) as (I1 & I2 & I3 & I4); [rewrite G1; intros k Hk; apply Hap; by right|exact H2|].
    split; [by rewrite I1|]. split; [exact I2|]. split; [by rewrite I3|]. destruct found; [|intros x [->|Hx]%elem_of_cons; [by left|]]; [intros x Hx|]; right; by apply I4.
  Qed.
  Lemma libs_own us w w' us' : kept_own w -> away us (w_strtab w) -> find_undefined_symbols_in_libs wd l us w = Ok (w', us') -> kept_own w'.
  Proof using.
    unfold find_undefined_symbols_in_libs. revert us w. induction (opt_shared_libs (lk_options l)) as [|lib libs IH]; intros us w HP Hap H; cbn [foldM] in H; [by injection H as <- <-|].
    apply bind_Ok in H as ([w1 us1] & H1 & H). unfold search_lib in H1. destruct (wd_elf wd lib.1) as [[e|]|]; [|done|done].
    destruct (match_undefines_own _ _ _ _ _ _ (proj1 HP) Hap H1) as (A1 & A2 & A3 & A4). apply (IH _ _ ltac:(split; [exact A2|rewrite A3; apply HP]) ltac:(rewrite A1; intros k Hk; by apply Hap, A4) H).
  Qed.

  (** ** The loop *)
  Context (lo : lib_oracle) (Hsy : forall k, o_sym (lo_writer lo) k ≡ₚ k) (Hun : forall i k, lo_undef lo i k ≡ₚ k).
  Lemma undefined_apart w : kept_own w -> away (undefined_symbols (lo_writer lo) w) (w_strtab w).
  Proof using Hsy.
    intros [[_ HT] Hk] k Hin. unfold undefined_symbols in Hin. apply elem_of_list_fmap in Hin as (k' & [= <-] & Hin). apply elem_of_list_filter in Hin as [Hs _].
    destruct (syt_symbols (w_symtab w) !! k) as [s|] eqn:Es; [|done]. cbn [fmap option_fmap option_map default from_option id] in Hs. split; [exact (HT _ _ Es)|]. intros ->.
    unfold climb_of in Hk. unfold name_key in Es. destruct (st_get (w_strtab w) n) as [e|]; [|discriminate Hk]. unfold climb_at in Hk. rewrite Es in Hk.
    unfold is_unresolved in Hs. rewrite !andb_true_iff in Hs. destruct Hs as [[S1 _] S3]. apply bool_decide_eq_true in S3. change SHN_UNDEF with 0 in S1. unfold climb in Hk. rewrite S1, S3 in Hk.
    unfold climb_bind in Hk. destruct (is_local s), (is_weak s); discriminate Hk.
  Qed.
  Lemma resolve_loop_own fuel round w w' : kept_own w -> resolve_loop wd lo l fuel round (undefined_symbols (lo_writer lo) w) w = Ok w' -> kept_own w'.
  Proof using Hsy Hun.
    revert round w. induction fuel as [|fuel IH]; intros round w HP H; [discriminate H|]. cbn [resolve_loop] in H. pose proof (undefined_apart _ HP) as Hap.
    apply bind_Ok in H as ([w1 n1] & H1 & H). apply bind_Ok in H as ([w2 n2] & H2 & H).
    assert (Hap' : away (lo_undef lo (2 * round) (undefined_symbols (lo_writer lo) w)) (w_strtab w)) by (intros k Hk; apply Hap; by rewrite Hun in Hk).
    pose proof (libs_own _ _ _ _ HP Hap' H1) as P1. pose proof (archives_own _ _ _ _ _ _ P1 H2) as P2.
    destruct (_ =? _)%nat; [by injection H as <-|]. exact (IH _ _ P2 H).
  Qed.
  Lemma resolve_own fuel w : main_defines wd l n -> resolve wd lo l fuel = Ok w -> kept_own w.
  Proof using Hsy Hun.
    intros (p & e & sym & Hp & He & Ho & Hs & Hn & Ht & Hb & Hd) H. unfold resolve in H. apply bind_Ok in H as (w0 & H0 & H). apply bind_Ok in H as (w1 & H1 & H).
    assert (S0 : undynamic w0).
    { split; [exact (up_tidy _ _ (new_up [] _ _ H0))|]. destruct (new_tables _ _ H0) as [_ E]. intros k. rewrite E. unfold climb_at. destruct (syt_symbols (syt_new false) !! k) as [s|] eqn:Es; [|lia].
      assert (F : map_Forall (fun _ s => s_dynamic s = None) (syt_symbols (syt_new false))) by (apply (bool_decide_unpack _); vm_compute; exact I). apply climb_low. exact (F _ _ Es). }
    destruct (load_objects_own _ _ S0 H1) as [[T1 S1] K]. destruct (K p e Hp He Ho sym Hs) as [r0 Hst]. specialize (Hst n Hn Ht Hb Hd).
    apply (resolve_loop_own fuel 0 w1); [|exact H]. split; [exact T1|]. unfold climb_of in *. destruct (st_get (w_strtab w1) n) as [en|]; [|lia]. specialize (S1 (u32 (en_offset en))). lia.
  Qed.
  Lemma resolve_own_entry fuel w s : main_defines wd l n -> resolve wd lo l fuel = Ok w -> syt_symbols (w_symtab w) !! name_key (w_strtab w) = Some s ->
    s_dynamic s = None /\ st_shndx (s_sym s) <> 0.
  Proof using Hsy Hun.
    intros Hm H Hs. destruct (resolve_own _ _ Hm H) as [_ Hk]. unfold climb_of in Hk. unfold name_key in Hs. destruct (st_get (w_strtab w) n) as [e|]; [|discriminate Hk]. unfold climb_at in Hk. rewrite Hs in Hk.
    split; [apply climb_low; lia|]. intros E. unfold climb, climb_bind in Hk. rewrite E in Hk. destruct (is_local s), (is_weak s), (s_dynamic s); discriminate Hk.
  Qed.
End own.
