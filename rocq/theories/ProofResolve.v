(** The resolution loop: names only ever move up (towards being defined), and
    a round after which the loop goes on has moved one up. *)
From Verif Require Export ProofRun ProofSym.

(** * How far a name has come *)
Definition climb_bind (s : symbol) : nat := if is_local s then 0 else if is_weak s then 1 else 2.
Definition climb (s : symbol) : nat :=
  2 * climb_bind s + (if st_shndx (s_sym s) =? 0 then 0 else 1) + (match s_dynamic s with Some _ => 6 | None => 0 end).
Definition climb_at (t : symtab) (n : N) : nat := match syt_symbols t !! n with Some s => climb s | None => 0 end.
Definition climb_of (w : writer) (name : string) : nat :=
  match st_get (w_strtab w) name with Some e => climb_at (w_symtab w) (u32 (en_offset e)) | None => 0 end.
(** Not (known to be) defined. *)
Definition open (k : nat) : Prop := (k <= 4 /\ k mod 2 = 0)%nat.

Lemma climb_le s : (climb s <= 11)%nat.
Proof. unfold climb, climb_bind. destruct (is_local s), (is_weak s), (_ =? 0), (s_dynamic s); lia. Qed.
Lemma climb_of_le w name : (climb_of w name <= 11)%nat.
Proof. unfold climb_of, climb_at. destruct (st_get _ _); [|lia]. destruct (_ !! _); [apply climb_le|lia]. Qed.

Lemma merge_climbs old new s : merge_symbol old new = Some s -> (climb old <= climb s)%nat /\
  (st_shndx (s_sym new) <> 0 -> forall k, open k -> (k <= climb old)%nat -> (k < climb s)%nat).
Proof.
  unfold merge_symbol. destruct (_ && _); [done|]. unfold higher_bind_than, climb, climb_bind, is_local, is_weak, open.
  destruct (negb (negb _)) eqn:Eb.
  - intros [= Es]. assert (st_bind (s_sym s) = st_bind (s_sym new)) as -> by (by subst s). assert (st_shndx (s_sym s) = st_shndx (s_sym new)) as -> by (by subst s).
    assert (s_dynamic s = s_dynamic old) as -> by (by subst s). clear Es.
    rewrite negb_involutive in Eb. revert Eb. generalize (st_bind (s_sym old)), (st_bind (s_sym new)). intros bo bn Eb.
    assert (bo = STB_LOCAL /\ (bn = STB_WEAK \/ bn = STB_GLOBAL) \/ bo = STB_WEAK /\ bn = STB_GLOBAL) as C by (clear -Eb; lia). clear Eb.
    destruct C as [[-> [-> | ->]]|[-> ->]]; simpl; destruct (N.eqb_spec (st_shndx (s_sym new)) 0), (N.eqb_spec (st_shndx (s_sym old)) 0), (s_dynamic old);
      split; try done; lia.
  - change SHN_UNDEF with 0. destruct (N.eqb_spec (st_shndx (s_sym old)) 0) as [E|E]; intros [= Es].
    + assert (st_bind (s_sym s) = st_bind (s_sym old)) as -> by (by subst s). assert (st_shndx (s_sym s) = st_shndx (s_sym new)) as -> by (by subst s).
      assert (s_dynamic s = s_dynamic old) as -> by (by subst s). clear Es.
      destruct (N.eqb_spec (st_shndx (s_sym new)) 0), (s_dynamic old), (_ =? STB_LOCAL), (_ =? STB_WEAK); (split; [lia|]); intros; try done; lia.
    + subst s. destruct (N.eqb_spec (st_shndx (s_sym old)) 0); [done|]. destruct (s_dynamic old), (_ =? STB_LOCAL), (_ =? STB_WEAK); (split; [lia|]); intros; try done; lia.
Qed.

(** * The invariant *)
Record up_ok (U : list string) (w : writer) : Prop := {
  uo_st : st_ok (w_strtab w);
  uo_names : forall name, is_Some (st_get (w_strtab w) name) -> name ∈ "" :: U;
  uo_keys : forall n s, syt_symbols (w_symtab w) !! n = Some s -> n < 2 ^ 32 }.
Definition climbs (w w' : writer) : Prop :=
  (exists tl, stt_names (w_strtab w') = stt_names (w_strtab w) ++ tl) /\ forall name, (climb_of w name <= climb_of w' name)%nat.
Lemma climbs_refl w : climbs w w.
Proof. split; [exists []; by rewrite app_nil_r|]. intros name. lia. Qed.
Lemma climbs_trans a b c : climbs a b -> climbs b c -> climbs a c.
Proof.
  intros [[t1 E1] H1] [[t2 E2] H2]. split; [exists (t1 ++ t2); by rewrite E2, E1, app_assoc|].
  intros name. specialize (H1 name). specialize (H2 name). lia.
Qed.

Lemma up_same U w w' : w_strtab w' = w_strtab w -> w_symtab w' = w_symtab w -> up_ok U w -> up_ok U w' /\ climbs w w'.
Proof. intros E1 E2 [H1 H2 H3]. split; [constructor; by rewrite ?E1, ?E2|]. split; [exists []; by rewrite app_nil_r, E1|]. intros name. unfold climb_of. by rewrite E1, E2. Qed.
Lemma add_section_up U w name sh data w' sr : up_ok U w -> add_section w name sh data = Ok (w', sr) -> up_ok U w' /\ climbs w w'.
Proof.
  intros HU H. apply up_same; [| |done]; revert H; unfold add_section; destruct (st_get_or_create _ _) as [names en]; (destruct (en_new en);
    [intros [= <- <-]; done|]); intros H; apply bind_Ok in H as (s & _ & H); (destruct data; [by injection H as <- <-|]); cbn in H;
    (destruct (sc_chunks s); [done|by injection H as <- <-]).
Qed.
Lemma add_relocation_up U w rel r sr w' : up_ok U w -> add_relocation w rel r sr = Ok w' -> up_ok U w' /\ climbs w w'.
Proof.
  intros HU H. apply up_same; [| |done]; revert H; unfold add_relocation; (destruct (_ || _); [done|]); intros H;
    by apply bind_Ok in H as (secs & _ & [= <-]).
Qed.

Lemma st_get_assoc t name e : st_get t name = Some e -> ModelTables.assoc name (stt_names t) = Some (en_index e, en_offset e).
Proof. unfold st_get. destruct (ModelTables.assoc _ _) as [[i o]|]; [|done]. by intros [= <-]. Qed.
Lemma intern_get t name name' e : st_get t name' = Some e -> exists e', st_get (intern t name) name' = Some e' /\ en_offset e' = en_offset e.
Proof.
  intros H%st_get_assoc. destruct (intern_prefix t name) as [tl E]. unfold st_get. rewrite E, (assoc_app_l _ _ _ _ H). by eexists.
Qed.

(** Adding a symbol. *)
Lemma syt_add_climbs t sym h g ref t' r : syt_add_symbol t sym h g ref = inl (t', r) ->
  (forall n, (climb_at t n <= climb_at t' n)%nat) /\
  (forall n s, syt_symbols t' !! n = Some s -> is_Some (syt_symbols t !! n) \/ n = st_name sym) /\
  (typ sym <> 3 -> st_shndx sym <> 0 -> forall k, open k -> (k <= climb_at t (st_name sym))%nat -> (k < climb_at t' (st_name sym))%nat).
Proof.
  unfold syt_add_symbol. rewrite st_type_typ. change STT_SECTION with 3. destruct (N.eqb_spec (typ sym) 3) as [E3|E3].
  { intros [= <- <-]. split; [done|]. split; [|done]. intros n s Hs. left. eauto. }
  unfold climb_at. destruct (syt_symbols t !! st_name sym) as [old|] eqn:Eo.
  - destruct (merge_symbol old _) as [s|] eqn:Em; [|done]. intros [= <- <-]. cbn [syt_symbols set]. destruct (merge_climbs _ _ _ Em) as [M1 M2]. split; [|split].
    + intros n. destruct (decide (n = st_name sym)) as [->|]; [by rewrite lookup_insert, Eo|by rewrite lookup_insert_ne].
    + intros n s' Hs. destruct (decide (n = st_name sym)) as [->|]; [by right|]. rewrite lookup_insert_ne in Hs by done. left. eauto.
    + intros _ Hd. rewrite lookup_insert. by apply M2.
  - intros [= <- <-]. set (new := symbol_new sym h g ref).
    assert (E : forall t1 : symtab, syt_symbols (if is_local new then t <| syt_num_locals := syt_num_locals t + 1 |> else t) = syt_symbols t) by (intros; by destruct (is_local new)).
    cbn [syt_symbols set]. rewrite (E t). split; [|split].
    + intros n. destruct (decide (n = st_name sym)) as [->|]; [rewrite Eo; lia|by rewrite lookup_insert_ne].
    + intros n s' Hs. destruct (decide (n = st_name sym)) as [->|]; [by right|]. rewrite lookup_insert_ne in Hs by done. left. eauto.
    + intros _ Hd k _ Hk. rewrite lookup_insert. assert (k = 0)%nat as -> by lia. unfold climb. subst new. cbn [symbol_new s_sym].
      destruct (N.eqb_spec (st_shndx sym) 0); [done|lia].
Qed.

Lemma add_symbol_up U w sym sr name path w' r : name ∈ U -> up_ok U w -> add_symbol w sym sr name path = Ok (w', r) ->
  up_ok U w' /\ climbs w w' /\
  (typ sym <> 3 -> st_shndx sym <> 0 -> forall k, open k -> (k <= climb_of w name)%nat -> (k < climb_of w' name)%nat).
Proof.
  intros Hin [H1 H2 H3] H. unfold add_symbol in H. apply bind_Ok in H as ([[[names t] secs] r1] & H & [= <- <-]). unfold add_symbol_inner in H.
  destruct (st_get_or_create (w_strtab w) name) as [names' en] eqn:En. set (sym' := sym <| st_name := u32 (en_offset en) |>) in *.
  destruct (syt_add_symbol (w_symtab w) sym' _ _ path) as [[t1 r2]|] eqn:Ea; [|done].
  assert (names = names' /\ t = t1) as [-> ->].
  { destruct sr as [sr|]; [|by injection H as <- <- <- <-]. destruct (_ =? SHN_ABS); [by injection H as <- <- <- <-|]. by apply bind_Ok in H as (secs' & _ & [= <- <- <- <-]). }
  clear H. assert (names' = intern (w_strtab w) name) as -> by (unfold intern; by rewrite En).
  destruct (syt_add_climbs _ _ _ _ _ _ _ Ea) as (A1 & A2 & A3). cbn [w_strtab w_symtab set].
  assert (Hget : st_get (intern (w_strtab w) name) name = Some (mkStrEntry (en_index en) (en_offset en) false)).
  { unfold st_get. apply goc_assoc in En. by rewrite En. }
  split; [|split].
  - constructor; cbn [w_strtab w_symtab set].
    + by apply st_ok_intern.
    + intros x [e He]. unfold st_get, intern, st_get_or_create in He.
      destruct (ModelTables.assoc name (stt_names (w_strtab w))) as [[i o]|] eqn:Eas.
      * apply H2. exists e. exact He.
      * cbn [stt_names fst] in He. destruct (ModelTables.assoc x (stt_names (w_strtab w))) as [[i o]|] eqn:Ex.
        -- apply H2. unfold st_get. rewrite Ex. eauto.
        -- rewrite assoc_app_r in He by done. simpl in He. destruct (decide (x = name)) as [->|]; [|done]. set_solver.
    + intros n s Hs. destruct (A2 _ _ Hs) as [[s' Hs']| ->]; [by eapply H3|]. subst sym'. cbn [st_name set]. unfold u32. lia.
  - split; [apply intern_prefix|]. intros x. unfold climb_of. cbn [w_strtab w_symtab set]. destruct (st_get (w_strtab w) x) as [e|] eqn:Ex; [|lia].
    destruct (intern_get _ name _ _ Ex) as (e' & -> & ->). apply A1.
  - intros Ht Hd k Hk Hle. unfold climb_of. cbn [w_strtab w_symtab set]. rewrite Hget. cbn [en_offset]. change (u32 (en_offset en)) with (st_name sym').
    apply A3; [done|done|done|]. unfold climb_of in Hle. destruct (st_get (w_strtab w) name) as [e|] eqn:Ex; [|lia].
    destruct (intern_get _ name _ _ Ex) as (e' & He' & Eoff). rewrite Hget in He'. injection He' as <-. cbn [en_offset] in Eoff. subst sym'. cbn [st_name set]. by rewrite Eoff.
Qed.

(** Adding a symbol of a library. *)
Lemma add_dyn_up U w sym name path so w' r : up_ok U w -> is_Some (st_get (w_strtab w) name) -> add_dyn_symbol w sym None name path = Ok (w', r) ->
  up_ok U (add_needed w' so) /\ climbs w (add_needed w' so) /\ (6 <= climb_of (add_needed w' so) name)%nat.
Proof.
  intros HU [en Hen] H. pose proof (add_dyn_symbol_strtab _ _ _ _ _ _ _ H) as Est. unfold add_dyn_symbol in H.
  apply bind_Ok in H as ([[[names t] secs] r1] & _ & H). cbn [w_strtab w_symtab set] in H. rewrite Hen in H. apply bind_Ok in H as (s & Hs & [= <- <-]). apply unwrap_Ok in Hs.
  cbn [syt_get] in Hs. set (k := u32 (en_offset en)) in *.
  match goal with |- up_ok U (add_needed ?x so) /\ _ => set (w1 := x) in * end.
  assert (Esy : w_symtab (add_needed w1 so) = w_symtab w1). { unfold add_needed. destruct (st_get_or_create (w_dynstr w1) so) as [t' e']. by destruct (en_new e'). }
  assert (E1 : syt_symbols (w_symtab w1) = alter (fun s => s <| s_dynamic := Some r1 |>) k (syt_symbols (w_symtab w))) by done.
  assert (Hup : forall s0, (climb s0 <= climb (s0 <| s_dynamic := Some r1 |>))%nat /\ (6 <= climb (s0 <| s_dynamic := Some r1 |>))%nat).
  { intros s0. unfold climb, climb_bind, is_local, is_weak. cbn [s_sym s_dynamic set]. destruct (s_dynamic s0); lia. }
  destruct HU as [U1 U2 U3]. split; [|split].
  - constructor; rewrite ?add_needed_strtab, ?Est; [done|done|]. intros n s0 Hn. rewrite Esy, E1 in Hn.
    destruct (decide (k = n)) as [<-|]; [rewrite lookup_alter, Hs in Hn; by eapply U3|rewrite lookup_alter_ne in Hn by done; by eapply U3].
  - split; [exists []; by rewrite app_nil_r, add_needed_strtab, Est|]. intros x. unfold climb_of. rewrite add_needed_strtab, Est. destruct (st_get (w_strtab w) x) as [e|]; [|done]. unfold climb_at. rewrite Esy, E1.
    destruct (decide (k = u32 (en_offset e))) as [Ek|]; [|by rewrite lookup_alter_ne].
    rewrite <- Ek, lookup_alter, Hs. apply Hup.
  - unfold climb_of. rewrite add_needed_strtab, Est, Hen. unfold climb_at. rewrite Esy, E1. fold k. rewrite lookup_alter, Hs. apply Hup.
Qed.

(** * One round *)
Section round.
  Context (wd : world) (l : linker) (U : list string).
  Context (HU : forall e sym name, is_input wd l e -> sym ∈ eo_syms e -> eo_strtab e (st_name sym) = Some name -> name ∈ U).

  (** Relative to heights [f] reached before. *)
  Context (f : string -> nat).
  Definition above (w : writer) : Prop := up_ok U w /\ forall name, (f name <= climb_of w name)%nat.
  Definition passed (e : elf_obj) (sym : Sym) (w : writer) (r : symref) : Prop :=
    forall name, eo_strtab e (st_name sym) = Some name -> typ sym <> 3 -> st_shndx sym <> 0 -> open (f name) -> (f name < climb_of w name)%nat.
  Lemma above_climbs w w' : above w -> up_ok U w' -> climbs w w' -> above w' /\ climbs w w'.
  Proof using HU f. intros [_ H] Hu Hc. split; [|done]. split; [done|]. intros name. specialize (H name). pose proof (proj2 Hc name). lia. Qed.
  Lemma hsec w e (i : nat) name sh data w' sr : above w -> input_section wd l e name sh -> eo_shdrs e !! i = Some sh ->
    section_data (eo_data e) sh = Ok data -> add_section w name sh data = Ok (w', sr) -> above w' /\ climbs w w' /\ True.
  Proof using HU f.
    intros HP _ _ _ Ha. destruct (add_section_up U _ _ _ _ _ _ (proj1 HP) Ha). destruct (above_climbs w w'); done.
  Qed.
  Lemma hsym w e sym o name path w' r : above w -> is_input wd l e -> sym ∈ eo_syms e ->
    eo_strtab e (st_name sym) = Some name -> sec_ref_of (fun _ _ _ _ => True) e w (N.to_nat (st_shndx sym)) o ->
    add_symbol w sym o name path = Ok (w', r) -> above w' /\ climbs w w' /\ passed e sym w' r.
  Proof using HU f.
    intros HP Hi Hs Hn _ Ha. destruct (add_symbol_up U _ _ _ _ _ _ _ (HU _ _ _ Hi Hs Hn) (proj1 HP) Ha) as (A & B & C).
    destruct (above_climbs w w') as [D _]; [done|done|done|]. split; [done|]. split; [done|].
    intros nm Hnm Ht Hd Ho. rewrite Hn in Hnm. injection Hnm as <-. apply C; [done|done|done|apply HP].
  Qed.
  Lemma hrel w e idx (rels : list greloc) rel sym sym' r sr w' : above w -> is_input wd l e -> (idx, rels) ∈ eo_relocs e -> rel ∈ rels ->
    gr_sym rel <> 0 -> eo_syms e !! N.to_nat (gr_sym rel) = Some sym -> idx <> 0 -> True ->
    sym' ∈ eo_syms e -> sym_key sym' = sym_key sym -> passed e sym' w r ->
    add_relocation w (mkRela (gr_offset rel) (u64 (gr_sym rel * 2^32) + gr_type rel) (default 0%Z (gr_addend rel))) r sr = Ok w' ->
    above w' /\ climbs w w'.
  Proof using HU f. intros HP _ _ _ _ _ _ _ _ _ _ Ha. destruct (add_relocation_up U _ _ _ _ _ (proj1 HP) Ha). by apply above_climbs. Qed.
  Lemma hdyn w path e sym name so w' r : above w -> is_lib wd l path e -> sym ∈ eo_dynsyms e ->
    eo_dynstr e (st_name sym) = Some name -> file_name path = Some so -> is_Some (st_get (w_strtab w) name) ->
    add_dyn_symbol w sym None name path = Ok (w', r) -> above (add_needed w' so) /\ climbs w (add_needed w' so).
  Proof using HU f. intros HP _ _ _ _ Hn Ha. destruct (add_dyn_up U _ _ _ _ so _ _ (proj1 HP) Hn Ha) as (A & B & _). by apply above_climbs. Qed.
  Lemma epass e sym w w' r : above w -> above w' -> climbs w w' -> passed e sym w r -> passed e sym w' r.
  Proof using HU f. intros _ _ Hc H name Hn Ht Hd Ho. specialize (H name Hn Ht Hd Ho). pose proof (proj2 Hc name). lia. Qed.

  Lemma load_objects_up w w' : above w -> load_objects wd l w = Ok w' -> above w'.
  Proof using HU f.
    intros HP H. exact (proj1 (load_objects_refs wd l above climbs (fun _ _ _ _ => True) passed climbs_refl climbs_trans
      (fun _ _ _ _ _ _ _ _ _ => I) epass hsec hsym hrel hdyn w w' HP H)).
  Qed.
  Lemma load_member_up ar path w m w' : path ∈ lk_archives l -> wd_archive wd path = Some (Some ar) -> above w ->
    load_member ar path w m = Ok w' -> above w' /\ climbs w w' /\
    exists e, ar_get ar m = Some (Some e) /\ forall sym, sym ∈ eo_syms e -> exists r, passed e sym w' r.
  Proof using HU f.
    intros Hp Har HP H. unfold load_member in H. apply bind_Ok in H as ([e|] & He & H); [|done]. apply unwrap_Ok in He.
    assert (is_input wd l e) as Hi by (right; eauto 10).
    destruct (eo_is_object e); [|done]. apply bind_Ok in H as ([w1 es1] & H1 & H). apply bind_Ok in H as ([w2 es2] & H2 & H).
    destruct (process_sections_refs wd l above climbs (fun _ _ _ _ => True) passed climbs_refl climbs_trans
      (fun _ _ _ _ _ _ _ _ _ => I) epass hsec hsym hrel hdyn e w w1 es1 Hi HP H1) as (A1 & A2 & A3 & A4).
    destruct (process_symbols_refs wd l above climbs (fun _ _ _ _ => True) passed climbs_refl climbs_trans
      (fun _ _ _ _ _ _ _ _ _ => I) epass hsec hsym hrel hdyn e path w1 es1 w2 es2 Hi A1 A3) as (B1 & B2 & B3 & B4 & B5); [|done|].
    { intros k r Hk. by rewrite A4 in Hk. }
    destruct (process_relocations_refs wd l above climbs (fun _ _ _ _ => True) passed climbs_refl climbs_trans
      (fun _ _ _ _ _ _ _ _ _ => I) epass hsec hsym hrel hdyn e es2 w2 w' Hi B1) as (C1 & C2); [rewrite B3; split; [done|]; by apply A3|done|done|].
    split; [done|]. split; [eapply climbs_trans; [exact A2|]; by eapply climbs_trans|]. exists e. split; [done|].
    intros sym Hs. destruct (B5 sym Hs) as [r Hr]. exists r. exact (epass _ _ _ _ _ B1 C1 C2 Hr).
  Qed.

  (** ** Libraries *)
  Lemma match_dynsyms_up e path name syms found w w' found' : up_ok U w -> is_Some (st_get (w_strtab w) name) ->
    match_dynsyms e path name syms found w = Ok (w', found') ->
    w_strtab w' = w_strtab w /\ up_ok U w' /\ climbs w w' /\ (found' = true -> found = true \/ (6 <= climb_of w' name)%nat).
  Proof using HU f.
    revert found w; induction syms as [|sym syms IH]; intros found w HP Hn H; cbn [match_dynsyms] in H; [injection H as <- <-; split; [done|]; split; [done|]; split; [apply climbs_refl|by left]|].
    destruct (eo_dynstr e (st_name sym)) as [n|]; [|done]. destruct (decide (name = n)) as [->|]; [|by apply IH].
    apply bind_Ok in H as ([w1 r] & H1 & H). apply bind_Ok in H as (so & _ & H).
    destruct (add_dyn_up U w sym n path so w1 r HP Hn H1) as (P1 & P2 & P3). pose proof (add_dyn_symbol_strtab _ _ _ _ _ _ _ H1) as Est.
    destruct (IH true (add_needed w1 so) P1) as (Q1 & Q2 & Q3 & _); [by rewrite add_needed_strtab, Est|done|].
    split; [by rewrite Q1, add_needed_strtab|]. split; [done|]. split; [by eapply climbs_trans|]. intros _. right. pose proof (proj2 Q3 n). lia.
  Qed.
  Lemma match_undefines_up e path us w w' us' : up_ok U w -> match_undefines e path us w = Ok (w', us') ->
    w_strtab w' = w_strtab w /\ up_ok U w' /\ climbs w w' /\
    (us' = us \/ (length us' < length us)%nat /\ us' ⊆ us /\ exists n name, RNamed n ∈ us /\ st_name_at (w_strtab w) n = Some name /\ (6 <= climb_of w' name)%nat).
  Proof using HU f.
    revert w us'; induction us as [|u us IH]; intros w us' HP H; cbn [match_undefines] in H.
    { injection H as <- <-. split; [done|]. split; [done|]. split; [apply climbs_refl|]. by left. }
    apply bind_Ok in H as (name & Hn & H). apply bind_Ok in H as ([w1 found] & H1 & H). apply bind_Ok in H as ([w2 rest] & H2 & [= <- <-]).
    assert (G : w_strtab w1 = w_strtab w /\ up_ok U w1 /\ climbs w w1 /\
      (found = true -> exists n nm, u = RNamed n /\ st_name_at (w_strtab w) n = Some nm /\ (6 <= climb_of w1 nm)%nat)).
    { destruct name as [name|]; [|injection H1 as <- <-; split; [done|]; split; [done|]; split; [apply climbs_refl|done]]. unfold symbol_name in Hn. destruct u as [n|]; [|done].
      apply bind_Ok in Hn as (s & Hs & [= <-]). apply unwrap_Ok in Hs.
      destruct (match_dynsyms_up _ _ _ _ _ _ _ _ HP (st_name_at_get _ _ _ Hs) H1) as (A & B & C & D). split; [done|]. split; [done|]. split; [done|].
      intros Hf. exists n, s. split; [done|]. split; [done|]. by destruct (D Hf). }
    destruct G as (G1 & G2 & G3 & G4). destruct (IH w1 rest G2 H2) as (I1 & I2 & I3 & I4).
    split; [by rewrite I1|]. split; [done|]. split; [by eapply climbs_trans|].
    destruct found.
    - right. split; [|split].
      + destruct I4 as [->|[? _]]; simpl; lia.
      + destruct I4 as [->|(_ & Hs & _)]; set_solver.
      + destruct (G4 eq_refl) as (n & nm & -> & Hnm & Hc). exists n, nm. split; [by left|]. split; [done|]. pose proof (proj2 I3 nm). lia.
    - destruct I4 as [->|(Hl & Hs & n & nm & Hin & Hnm & Hc)]; [by left|]. right. split; [simpl; lia|]. split; [set_solver|].
      exists n, nm. split; [by right|]. split; [by rewrite <- G1|done].
  Qed.
  Lemma libs_up us w w' us' : up_ok U w -> find_undefined_symbols_in_libs wd l us w = Ok (w', us') ->
    w_strtab w' = w_strtab w /\ up_ok U w' /\ climbs w w' /\
    (us' = us \/ (length us' < length us)%nat /\ us' ⊆ us /\ exists n name, RNamed n ∈ us /\ st_name_at (w_strtab w) n = Some name /\ (6 <= climb_of w' name)%nat).
  Proof using HU f.
    unfold find_undefined_symbols_in_libs. revert us w. induction (opt_shared_libs (lk_options l)) as [|lib libs IH]; intros us w HP H; cbn [foldM] in H.
    { injection H as <- <-. split; [done|]. split; [done|]. split; [apply climbs_refl|]. by left. }
    apply bind_Ok in H as ([w1 us1] & H1 & H). unfold search_lib in H1. destruct (wd_elf wd lib.1) as [[e|]|]; [|done|done].
    destruct (match_undefines_up _ _ _ _ _ _ HP H1) as (A1 & A2 & A3 & A4). destruct (IH _ _ A2 H) as (B1 & B2 & B3 & B4).
    split; [by rewrite B1|]. split; [done|]. split; [by eapply climbs_trans|].
    destruct A4 as [->|(L1 & S1 & n & name & N1 & N2 & N3)].
    - destruct B4 as [->|(L2 & S2 & n & name & N1 & N2 & N3)]; [by left|]. right. split; [done|]. split; [done|]. exists n, name. rewrite <- A1. done.
    - right. split; [destruct B4 as [->|[? _]]; lia|]. split; [destruct B4 as [->|(_ & S2 & _)]; set_solver|].
      exists n, name. split; [done|]. split; [done|]. pose proof (proj2 B3 name). lia.
  Qed.

  (** ** Archives whose index tells the truth *)
  Context (Htrue : forall p ar name m e, p ∈ lk_archives l -> wd_archive wd p = Some (Some ar) -> ar_member_of_symbol ar name = Some m ->
    ar_get ar m = Some (Some e) -> exists sym, sym ∈ eo_syms e /\ eo_strtab e (st_name sym) = Some name /\ typ sym <> 3 /\ defined sym).
  Lemma wanted_up w ar us ms un : wanted_members w ar us = Ok (ms, un) ->
    un = us \/ (length un < length us)%nat /\ un ⊆ us /\ exists n name m, RNamed n ∈ us /\ st_name_at (w_strtab w) n = Some name /\ ar_member_of_symbol ar name = Some m /\ m ∈ ms.
  Proof using HU Htrue f.
    revert ms un. induction us as [|u us IH]; intros ms un H; cbn [wanted_members] in H; [injection H as <- <-; by left|].
    apply bind_Ok in H as (name & Hn & H). apply bind_Ok in H as ([ms1 un1] & H1 & H). specialize (IH _ _ H1).
    assert (Hcase : (exists n nm m, u = RNamed n /\ st_name_at (w_strtab w) n = Some nm /\ ar_member_of_symbol ar nm = Some m /\ ms = m :: ms1 /\ un = un1) \/ ms = ms1 /\ un = u :: un1).
    { destruct name as [name|]; cbn [mbind option_bind] in H; [|right; by injection H as <- <-].
      destruct (ar_member_of_symbol ar name) as [m|] eqn:Em; [|right; by injection H as <- <-]. left. unfold symbol_name in Hn. destruct u as [n|]; [|done].
      apply bind_Ok in Hn as (s & Hs & [= <-]). apply unwrap_Ok in Hs. injection H as <- <-. exists n, s, m. done. }
    clear H. destruct Hcase as [(n & nm & m & -> & Hnm & Hm & -> & ->)|[-> ->]].
    - right. split; [destruct IH as [->|[? _]]; simpl; lia|]. split; [destruct IH as [->|(_ & ? & _)]; set_solver|].
      exists n, nm, m. split; [by left|]. split; [done|]. split; [done|by left].
    - destruct IH as [->|(L & S & n & nm & m & N1 & N2 & N3 & N4)]; [by left|]. right. split; [simpl; lia|]. split; [set_solver|].
      exists n, nm, m. split; [by right|]. done.
  Qed.
  Lemma wanted_names w ar us ms un : wanted_members w ar us = Ok (ms, un) -> forall n, RNamed n ∈ us -> is_Some (st_name_at (w_strtab w) n).
  Proof using HU Htrue f.
    revert ms un. induction us as [|u us IH]; intros ms un H n Hn; cbn [wanted_members] in H; [by apply elem_of_nil in Hn|].
    apply bind_Ok in H as (name & Hnm & H). apply bind_Ok in H as ([ms1 un1] & H1 & H). apply elem_of_cons in Hn as [<-|Hn]; [|by eapply IH].
    unfold symbol_name in Hnm. apply bind_Ok in Hnm as (s & Hs & _). apply unwrap_Ok in Hs. eauto.
  Qed.
  Lemma archives_up lo round us w w' us' : (forall r p k, lo_members lo r p k ≡ₚ k) -> above w ->
    (forall n name, RNamed n ∈ us -> st_name_at (w_strtab w) n = Some name -> open (f name)) ->
    process_archives_containing wd lo round l us w = Ok (w', us') -> above w' /\ climbs w w' /\
    (us' = us \/ (length us' < length us)%nat /\ exists name, name ∈ "" :: U /\ (f name < climb_of w' name)%nat).
  Proof using HU Htrue f.
    intros Hlo HP Hop H. unfold process_archives_containing in H.
    assert (Hnames : forall w0, up_ok U w0 -> forall n name, st_name_at (w_strtab w0) n = Some name -> name ∈ "" :: U).
    { intros w0 [_ H0 _] n name Hn. apply H0. by eapply st_name_at_get. }
    enough (G : forall ps us w, (forall p, p ∈ ps -> p ∈ lk_archives l) -> above w ->
      (forall n name, RNamed n ∈ us -> st_name_at (w_strtab w) n = Some name -> open (f name)) ->
      foldM (search_archive wd lo round) ps (w, us) = Ok (w', us') -> above w' /\ climbs w w' /\
      (us' = us \/ (length us' < length us)%nat /\ exists name, name ∈ "" :: U /\ (f name < climb_of w' name)%nat)) by (by eapply G).
    clear us w HP Hop H. induction ps as [|p ps IH]; intros us w Hps HP Hop H; cbn [foldM] in H.
    { injection H as <- <-. split; [done|]. split; [apply climbs_refl|]. by left. }
    apply bind_Ok in H as ([w1 us1] & H1 & H). unfold search_archive in H1. destruct (wd_archive wd p) as [[ar|]|] eqn:Ea; [|done|done].
    apply bind_Ok in H1 as ([ms un] & Hw & H1). apply bind_Ok in H1 as (w2 & Hf & [= <- <-]).
    assert (Hp : p ∈ lk_archives l) by (apply Hps; by left).
    assert (G : above w2 /\ climbs w w2 /\
      forall m, m ∈ lo_members lo round p (remove_dups ms) -> exists e, ar_get ar m = Some (Some e) /\ forall sym, sym ∈ eo_syms e -> exists r, passed e sym w2 r).
    { revert Hf. apply (foldM_trace (fun pre st => above st /\ climbs w st /\
        forall m, m ∈ pre -> exists e, ar_get ar m = Some (Some e) /\ forall sym, sym ∈ eo_syms e -> exists r, passed e sym st r)).
      { split; [done|]. split; [apply climbs_refl|]. intros m Hm. by apply elem_of_nil in Hm. }
      intros pre m post w3 w4 _ (Q1 & Q2 & Q4) Hm. destruct (load_member_up ar p w3 m w4 Hp Ea Q1 Hm) as (R1 & R2 & e & Re & R3).
      split; [done|]. split; [by eapply climbs_trans|].
      intros m' [Hm'|Hm']%elem_of_app.
      - destruct (Q4 m' Hm') as (e' & He' & He2). exists e'. split; [done|]. intros sym Hs. destruct (He2 sym Hs) as [r Hr]. exists r. exact (epass _ _ _ _ _ Q1 R1 R2 Hr).
      - apply elem_of_list_singleton in Hm' as ->. by exists e. }
    destruct G as (G1 & G2 & G4).
    assert (Hname : forall n name, RNamed n ∈ us -> st_name_at (w_strtab w2) n = Some name -> open (f name)).
    { intros n name Hn Hat. destruct (wanted_names _ _ _ _ _ Hw n Hn) as [nm Enm]. unfold st_name_at in Hat. destruct G2 as [[tl G3] _]. rewrite G3 in Hat.
      assert (st_name_in (stt_names (w_strtab w) ++ tl) n = Some nm) as E.
      { clear -Enm. unfold st_name_at in Enm. induction (stt_names (w_strtab w)) as [|[k [i o]] k' IH]; [done|]. simpl in *. destruct (o =? n); [done|by apply IH]. }
      rewrite E in Hat. injection Hat as <-. by eapply Hop. }
    destruct (wanted_up _ _ _ _ _ Hw) as [->|(L & S & n & name & m & N1 & N2 & N3 & N4)].
    - destruct (IH us w2) as (B1 & B2 & B3); [intros q Hq; apply Hps; by right|done|done|done|]. split; [done|]. split; [by eapply climbs_trans|done].
    - destruct (IH un w2) as (B1 & B2 & B3); [intros q Hq; apply Hps; by right|done|intros n' nm' Hn'; apply Hname; by apply S|done|].
      split; [done|]. split; [by eapply climbs_trans|]. right. split; [destruct B3 as [->|[? _]]; lia|].
      exists name. split; [by eapply Hnames; [apply HP|]|].
      destruct (G4 m) as (e & He & Hpass); [rewrite Hlo; by apply elem_of_remove_dups|].
      destruct (Htrue p ar name m e Hp Ea N3 He) as (sym & Hs & Hsn & Ht & Hd). destruct (Hpass sym Hs) as [r Hr].
      specialize (Hr name Hsn Ht Hd (Hop _ _ N1 N2)). pose proof (proj2 B2 name). lia.
  Qed.
End round.

(** * No other loop *)
Definition runs {A} (m : res A) : Prop := m <> Panic PFuel.
Lemma runs_bind {A B} (m : res A) (g : A -> res B) : runs m -> (forall a, m = Ok a -> runs (g a)) -> runs (m ≫= g).
Proof. unfold runs. destruct m as [a|e|p]; simpl; [intros _ H; by apply H|done|]. intros H _ E. apply H. congruence. Qed.
Lemma runs_unwrap {A} (o : option A) : runs (unwrap o).
Proof. by destruct o. Qed.
Lemma runs_index {A} (k : list A) i : runs (index k i).
Proof. unfold index. by destruct (_ !! _). Qed.
Lemma runs_foldM {S A} (g : S -> A -> res S) k s : (forall s a, runs (g s a)) -> runs (foldM g k s).
Proof. intros H. revert s. induction k as [|a k IH]; intros s; [done|]. apply runs_bind; [apply H|]. intros; apply IH. Qed.
Lemma runs_mapM {A B} (g : A -> res B) k : (forall a, runs (g a)) -> runs (mapM_res g k).
Proof. intros H. induction k as [|a k IH]; [done|]. apply runs_bind; [apply H|]. intros; by apply runs_bind. Qed.
Lemma runs_mod_chunk i j g secs : runs (mod_chunk i j g secs).
Proof.
  unfold mod_chunk. apply runs_bind; [apply runs_unwrap|]. intros s _. apply runs_bind; [apply runs_index|]. done.
Qed.
Lemma runs_section w name sh data : runs (add_section w name sh data).
Proof.
  unfold add_section. destruct (st_get_or_create _ _) as [names en]. destruct (en_new en); [done|]. apply runs_bind; [apply runs_index|]. intros s _.
  destruct data; [done|]. cbn. by destruct (sc_chunks s).
Qed.
Lemma runs_inner sym sec name ref names t secs : runs (add_symbol_inner sym sec name ref names t secs).
Proof.
  unfold add_symbol_inner. destruct (st_get_or_create _ _) as [n e]. destruct (syt_add_symbol _ _ _ _ _) as [[t' r]|]; [|done].
  destruct sec; [|done]. destruct (_ =? _); [done|]. apply runs_bind; [apply runs_mod_chunk|done].
Qed.
Lemma runs_symbol w sym sec name ref : runs (add_symbol w sym sec name ref).
Proof. apply runs_bind; [apply runs_inner|]. by intros [[[? ?] ?] ?] _. Qed.
Lemma runs_dyn w sym sec name ref : runs (add_dyn_symbol w sym sec name ref).
Proof.
  apply runs_bind; [apply runs_inner|]. intros [[[names t] secs] r] _. cbv beta iota zeta.
  match goal with |- runs (match ?x with _ => _ end) => destruct x end; [|done]. apply runs_bind; [apply runs_unwrap|done].
Qed.
Lemma runs_name w r : runs (symbol_name w r).
Proof. destruct r; [|done]. apply runs_bind; [apply runs_unwrap|done]. Qed.
Lemma runs_sections e w : runs (process_sections e w).
Proof.
  apply runs_bind; [|by intros [? ?] _]. apply runs_foldM. intros [w0 m] [i sh]. unfold process_section. destruct (bool_decide _); [done|].
  destruct (eo_shstr _ _); [|done]. apply runs_bind.
  - unfold section_data. destruct (_ =? _); [done|]. apply runs_bind; [|done]. unfold slice. by destruct (_ <=? _).
  - intros d _. apply runs_bind; [apply runs_section|]. by intros [? ?] _.
Qed.
Lemma runs_symbols e path w es : runs (process_symbols e path w es).
Proof.
  apply runs_foldM. intros [w0 es0] sym. unfold process_symbol. destruct (eo_strtab _ _); [|done]. apply runs_bind; [apply runs_symbol|]. by intros [? ?] _.
Qed.
Lemma runs_relocations e es w : runs (process_relocations e es w).
Proof.
  apply runs_foldM. intros w0 [idx rels]. apply runs_foldM. intros w1 rel. unfold process_relocation. destruct (_ =? _); [done|].
  apply runs_bind; [apply runs_unwrap|]. intros sym _. apply runs_bind; [unfold usub; by destruct (_ <=? _)|]. intros t _.
  destruct (_ !! _); [|done]. destruct (kassoc _ _); [|done]. unfold add_relocation. destruct (_ || _); [done|]. apply runs_bind; [apply runs_mod_chunk|done].
Qed.
Lemma runs_dynsyms e path name syms found w : runs (match_dynsyms e path name syms found w).
Proof.
  revert found w. induction syms as [|sym syms IH]; intros found w; [done|]. cbn [match_dynsyms]. destruct (eo_dynstr _ _); [|done].
  destruct (decide _); [|apply IH]. apply runs_bind; [apply runs_dyn|]. intros [? ?] _. apply runs_bind; [apply runs_unwrap|]. intros; apply IH.
Qed.
Lemma runs_undefines e path us w : runs (match_undefines e path us w).
Proof.
  revert w. induction us as [|u us IH]; intros w; [done|]. cbn [match_undefines]. apply runs_bind; [apply runs_name|]. intros name _. apply runs_bind.
  - destruct name; [apply runs_dynsyms|done].
  - intros [w1 b] _. apply runs_bind; [apply IH|]. by intros [? ?] _.
Qed.
Lemma runs_libs wd l us w : runs (find_undefined_symbols_in_libs wd l us w).
Proof. apply runs_foldM. intros [w0 us0] lib. unfold search_lib. destruct (wd_elf _ _) as [[e|]|]; [apply runs_undefines|done|done]. Qed.
Lemma runs_wanted w ar us : runs (wanted_members w ar us).
Proof.
  induction us as [|u us IH]; [done|]. cbn [wanted_members]. apply runs_bind; [apply runs_name|]. intros name _. apply runs_bind; [apply IH|].
  intros [ms un] _. by destruct (name ≫= _).
Qed.
Lemma runs_member ar path w m : runs (load_member ar path w m).
Proof.
  apply runs_bind; [apply runs_unwrap|]. intros [e|] _; [|done]. destruct (eo_is_object e); [|done].
  apply runs_bind; [apply runs_sections|]. intros [w1 es1] _. apply runs_bind; [apply runs_symbols|]. intros [w2 es2] _. apply runs_relocations.
Qed.
Lemma runs_archives wd lo round l us w : runs (process_archives_containing wd lo round l us w).
Proof.
  apply runs_foldM. intros [w0 us0] p. unfold search_archive. destruct (wd_archive _ _) as [[ar|]|]; [|done|done].
  apply runs_bind; [apply runs_wanted|]. intros [ms un] _. apply runs_bind; [|done]. apply runs_foldM. intros. apply runs_member.
Qed.
Lemma runs_objects wd l w : runs (load_objects wd l w).
Proof.
  apply runs_bind.
  - apply runs_mapM. intros p. unfold read_object. by destruct (wd_elf _ _).
  - intros inputs _. apply runs_bind.
    + apply runs_foldM. intros [w0 elfs] [p o]. unfold add_object_sections. cbn [snd]. destruct o as [e|]; [|done]. destruct (eo_is_object e); [|done].
      apply runs_bind; [apply runs_sections|]. by intros [? ?] _.
    + intros [w1 elfs] _. apply runs_foldM. intros w2 [[p e] es]. apply runs_bind; [apply runs_symbols|]. intros [? ?] _. apply runs_relocations.
Qed.
Lemma runs_new opts : runs (writer_new opts).
Proof.
  unfold writer_new. cbv zeta. repeat lazymatch goal with
  | |- runs (let '(_, _) := ?x in _) => destruct x
  | |- runs (mbind _ _) => apply runs_bind; [apply runs_unwrap|intros ? _]
  | |- runs (Ok _) => discriminate
  end.
Qed.
Lemma new_tables opts w : writer_new opts = Ok w -> w_strtab w = st_default /\ w_symtab w = syt_new false.
Proof.
  unfold writer_new. cbv zeta. repeat lazymatch goal with
  | |- (let '(_, _) := ?x in _) = _ -> _ => destruct x
  | |- mbind _ _ = _ -> _ => let H := fresh in intros H; apply bind_Ok in H as (? & _ & H); revert H
  end.
  intros H. split.
  - by apply (f_equal (fun r => match r with Ok w => w_strtab w | _ => st_default end)) in H.
  - by apply (f_equal (fun r => match r with Ok w => w_symtab w | _ => syt_new false end)) in H.
Qed.
Lemma new_up U opts w : writer_new opts = Ok w -> up_ok U w.
Proof.
  intros H. destruct (new_tables _ _ H) as [E1 E2]. constructor; rewrite ?E1, ?E2.
  - apply st_ok_default.
  - intros name [e He]. unfold st_get, st_default, st_get_or_create in He. simpl in He. destruct (decide (name = "")) as [->|]; [by left|done].
  - intros n s Hs. unfold syt_new in Hs. cbn [syt_symbols] in Hs. apply lookup_singleton_Some in Hs as [<- _]. lia.
Qed.

(** * The loop *)
Definition height (U : list string) (w : writer) : nat := sum_list_with (climb_of w) U.
Lemma height_le U w : (height U w <= 11 * length U)%nat.
Proof. unfold height. induction U as [|x U IH]; cbn [sum_list_with length]; [lia|]. pose proof (climb_of_le w x). lia. Qed.
Lemma height_mono U w w' : climbs w w' -> (height U w <= height U w')%nat /\
  forall name, name ∈ U -> (climb_of w name < climb_of w' name)%nat -> (height U w < height U w')%nat.
Proof.
  intros [_ Hc]. unfold height. induction U as [|x U [IH1 IH2]]; simpl; [split; [lia|]; intros name Hn; by apply elem_of_nil in Hn|].
  pose proof (Hc x). split; [lia|]. intros name [->|Hn]%elem_of_cons Hlt; [lia|]. specialize (IH2 name Hn Hlt). lia.
Qed.

Lemma undefined_open U o w n name : up_ok U w -> (forall k, o_sym o k ≡ₚ k) -> RNamed n ∈ undefined_symbols o w -> st_name_at (w_strtab w) n = Some name ->
  open (climb_of w name) /\ (climb_of w name < 6)%nat.
Proof.
  intros [U1 U2 U3] Ho Hn Hat. unfold undefined_symbols in Hn. apply elem_of_list_fmap in Hn as (n' & [= <-] & Hn). apply elem_of_list_filter in Hn as [Hs _].
  destruct (syt_symbols (w_symtab w) !! n) as [s|] eqn:Es; [|done]. simpl in Hs.
  assert (Hg : st_get (w_strtab w) name = Some (mkStrEntry (default 0 (fst <$> ModelTables.assoc name (stt_names (w_strtab w)))) n false)).
  { unfold st_name_at in Hat. apply name_in_Some_elem in Hat as [i Hi]. unfold st_get. by rewrite (assoc_elem_Some _ _ _ (ok_nodup _ U1) Hi). }
  assert (climb_of w name = climb s) as ->.
  { unfold climb_of. rewrite Hg. cbn [en_offset]. unfold climb_at. specialize (U3 _ _ Es). assert (u32 n = n) as -> by (unfold u32; lia). by rewrite Es. }
  unfold is_unresolved in Hs. rewrite !andb_true_iff, orb_true_iff in Hs. destruct Hs as [[S1 S2] S3]. apply bool_decide_eq_true in S3.
  unfold climb, open. rewrite S3. change SHN_UNDEF with 0 in S1. rewrite S1. unfold climb_bind. destruct (is_local s), (is_weak s); simpl; lia.
Qed.

Section loop.
  Context (wd : world) (l : linker) (U : list string) (lo : lib_oracle).
  Context (HU : forall e sym name, is_input wd l e -> sym ∈ eo_syms e -> eo_strtab e (st_name sym) = Some name -> name ∈ U).
  Context (Htrue : forall p ar name m e, p ∈ lk_archives l -> wd_archive wd p = Some (Some ar) -> ar_member_of_symbol ar name = Some m ->
    ar_get ar m = Some (Some e) -> exists sym, sym ∈ eo_syms e /\ eo_strtab e (st_name sym) = Some name /\ typ sym <> 3 /\ defined sym).
  Context (Hsy : forall k, o_sym (lo_writer lo) k ≡ₚ k) (Hun : forall i k, lo_undef lo i k ≡ₚ k) (Hme : forall r p k, lo_members lo r p k ≡ₚ k).

  Lemma loop_runs fuel round w : up_ok U w -> (11 * length ("" :: U) - height ("" :: U) w < fuel)%nat ->
    runs (resolve_loop wd lo l fuel round (undefined_symbols (lo_writer lo) w) w).
  Proof using HU Htrue Hsy Hun Hme.
    revert round w. induction fuel as [|fuel IH]; intros round w HP Hf; [lia|]. cbn [resolve_loop]. set (us := undefined_symbols (lo_writer lo) w).
    apply runs_bind; [apply runs_libs|]. intros [w1 n1] H1. apply runs_bind; [apply runs_archives|]. intros [w2 n2] H2.
    destruct (Nat.eqb_spec (length us) (length n2)) as [|Hne]; [done|].
    assert (Hopen : forall n name, RNamed n ∈ us -> st_name_at (w_strtab w) n = Some name -> open (climb_of w name) /\ (climb_of w name < 6)%nat)
      by (intros n name Hn Hat; exact (undefined_open U _ _ _ _ HP Hsy Hn Hat)).
    destruct (libs_up wd l U HU (climb_of w) (lo_undef lo (2 * round) us) w w1 n1 HP H1) as (L1 & L2 & L3 & L4).
    assert (Hab : above U (climb_of w) w1) by (split; [done|apply L3]).
    assert (Hn1 : forall x, x ∈ n1 -> x ∈ us). { intros x Hx. destruct L4 as [->|(_ & S & _)]; [by rewrite Hun in Hx|]. apply S in Hx. by rewrite Hun in Hx. }
    destruct (archives_up wd l U HU (climb_of w) Htrue lo round (lo_undef lo (2 * round + 1) n1) w1 w2 n2 Hme Hab) as (A1 & A2 & A3); [|done|].
    { intros n name Hn Hat. rewrite Hun in Hn. rewrite L1 in Hat. exact (proj1 (Hopen n name (Hn1 _ Hn) Hat)). }
    pose proof (climbs_trans _ _ _ L3 A2) as Hc. destruct (height_mono ("" :: U) _ _ Hc) as [_ Hlt].
    assert (Hprog : exists name, name ∈ "" :: U /\ (climb_of w name < climb_of w2 name)%nat).
    { destruct A3 as [->|(_ & name & Hn & Hl)]; [|by exists name].
      destruct L4 as [->|(_ & _ & n & name & N1 & N2 & N3)]; [exfalso; apply Hne; by rewrite !Hun|].
      exists name. rewrite Hun in N1. split; [apply (uo_names _ _ HP); by eapply st_name_at_get|].
      pose proof (proj2 (Hopen n name N1 N2)). pose proof (proj2 A2 name). lia. }
    destruct Hprog as (name & Hn & Hl). specialize (Hlt name Hn Hl). apply IH; [apply A1|].
    pose proof (height_le ("" :: U) w2). lia.
  Qed.
  Lemma resolve_runs fuel : (11 * length ("" :: U) < fuel)%nat -> runs (resolve wd lo l fuel).
  Proof using HU Htrue Hsy Hun Hme.
    intros Hf. unfold resolve. apply runs_bind; [apply runs_new|]. intros w0 H0. apply runs_bind; [apply runs_objects|]. intros w1 H1.
    pose proof (new_up U _ _ H0) as HP. apply loop_runs; [|lia].
    apply (load_objects_up wd l U HU (fun _ => 0%nat) w0 w1); [|done]. split; [done|]. intros; lia.
  Qed.
End loop.
