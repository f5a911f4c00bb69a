(** Computing the output: where a crash can be. *)
From Verif Require Import ProofHash ProofGnuHash.
From Verif Require Import SpecCrash.
From Verif Require Export ProofTotal.

(** * Mapping with a state *)
Lemma fine_mapM_st {S A} (I : S -> Prop) (f : S -> A -> res (S * A)) k s : I s -> (forall s a, a ∈ k -> I s -> fine (f s a) /\ forall s' a', f s a = Ok (s', a') -> I s') -> fine (mapM_st f k s).
Proof.
  revert s. induction k as [|a k IH]; intros s Hs H; cbn [mapM_st]; [discriminate|]. destruct (H s a) as [H1 H2]; [left|exact Hs|].
  apply fine_bind; [exact H1|]. intros [s' a'] E. apply fine_bind; [|intros [? ?] _; discriminate]. apply IH; [by eapply H2|]. intros s0 b Hb. apply H. by right.
Qed.

(** * What relocations and names refer to *)
Definition in_table (w : writer) (r : symref) : Prop := is_Some (syt_get (w_symtab w) r).
Definition keeps_refs (w w' : writer) : Prop := forall r, in_table w r -> in_table w' r.
(** A relocation of an input, as it is kept. *)
Definition read_from (wd : world) (l : linker) (rel : Rela) : Prop := exists e idx rels g, is_input wd l e /\ (idx, rels) ∈ eo_relocs e /\ g ∈ rels /\ gr_sym g <> 0 /\
  rel = mkRela (gr_offset g) (u64 (gr_sym g * 2^32) + gr_type g) (default 0%Z (gr_addend g)).
Record tied (wd : world) (l : linker) (w : writer) : Prop := {
  td_refs : forall s c x, s ∈ w_sections w -> c ∈ sc_chunks s -> x ∈ c_relocations c -> in_table w x.2 /\ read_from wd l x.1;
  td_names : forall name i o, (name, (i, o)) ∈ stt_names (w_strtab w) -> name <> "" -> is_Some (syt_symbols (w_symtab w) !! u32 o) }.

Lemma add_symbol_keeps t sym h g ref t' r : syt_add_symbol t sym h g ref = inl (t', r) ->
  (forall r', is_Some (syt_get t r') -> is_Some (syt_get t' r')) /\ is_Some (syt_get t' r) /\ (typ sym <> 3 -> is_Some (syt_symbols t' !! st_name sym)).
Proof.
  unfold syt_add_symbol. rewrite st_type_typ. change STT_SECTION with 3. destruct (N.eqb_spec (typ sym) 3) as [E3|E3].
  - intros [= <- <-]. cbn [syt_get syt_symbols syt_section_syms set]. split; [|split].
    + intros [n|a b]; cbn [syt_get syt_symbols syt_section_syms set]; [done|]. destruct (decide (a = st_shndx sym)) as [->|Hne]; [|by rewrite lookup_insert_ne by done].
      rewrite lookup_insert. destruct (syt_section_syms t !! st_shndx sym) as [v|]; cbn [mbind option_bind default]; [|intros [? Q]; discriminate Q]. intros [y Hy]. exists y. by apply lookup_app_l_Some.
    + rewrite lookup_insert. cbn [mbind option_bind]. rewrite lookup_app_r by lia. rewrite Nat.sub_diag. eauto.
    + contradiction.
  - assert (K : forall t1 s, syt_section_syms t1 = syt_section_syms t -> syt_symbols t1 = <[st_name sym := s]> (syt_symbols t) ->
      (forall r', is_Some (syt_get t r') -> is_Some (syt_get t1 r')) /\ is_Some (syt_get t1 (RNamed (st_name sym))) /\ (typ sym <> 3 -> is_Some (syt_symbols t1 !! st_name sym))).
    { intros t1 s E1 E2. split; [|split].
      - intros [n|a b]; cbn [syt_get]; rewrite ?E1, ?E2; [|done]. destruct (decide (st_name sym = n)) as [->|Hne]; [rewrite lookup_insert; eauto|by rewrite lookup_insert_ne].
      - cbn [syt_get]. rewrite E2, lookup_insert. eauto.
      - intros _. rewrite E2, lookup_insert. eauto. }
    destruct (syt_symbols t !! st_name sym) as [old|].
    + destruct (merge_symbol old _) as [s|]; [|discriminate]. intros [= <- <-]. by eapply K.
    + intros [= <- <-]. eapply K; [by destruct (is_local _)|by destruct (is_local _)].
Qed.

Local Transparent writer_new.
Lemma new_no_relocs opts w : writer_new opts = Ok w -> forall s c x, s ∈ w_sections w -> c ∈ sc_chunks s -> x ∈ c_relocations c -> False.
Proof.
  assert (K : forall (k : list section), forallb (fun s => forallb (fun c => if c_relocations c then true else false) (sc_chunks s)) k = true -> forall s c x, s ∈ k -> c ∈ sc_chunks s -> x ∈ c_relocations c -> False).
  { intros k H s c x Hs Hc Hx. rewrite forallb_forall in H. specialize (H s (proj1 (elem_of_list_In _ _) Hs)). cbv beta in H. rewrite forallb_forall in H. specialize (H c (proj1 (elem_of_list_In _ _) Hc)). cbv beta in H.
    destruct (c_relocations c); [by apply elem_of_nil in Hx|discriminate H]. }
  unfold writer_new. intros H. apply bind_Ok in H as (n & _ & H). cbv zeta in H.
  repeat match type of H with (let '(_, _) := ?x in _) = Ok _ => destruct x end. injection H as <-. cbn [w_sections]. apply K.
  repeat match goal with |- context [match ?x with Some _ => _ | None => _ end] => destruct x end; reflexivity.
Qed.
Local Opaque writer_new.

Section tied.
  Context (wd : world) (l : linker).
  Context (HN : forall e sym name, is_input wd l e -> sym ∈ eo_syms e -> typ sym = 3 -> eo_strtab e (st_name sym) = Some name -> name = "").
  Collection tie := wd l HN.
  Lemma tied_secs w w' : w_symtab w' = w_symtab w -> w_strtab w' = w_strtab w ->
    (forall s c x, s ∈ w_sections w' -> c ∈ sc_chunks s -> x ∈ c_relocations c -> (exists s c, s ∈ w_sections w /\ c ∈ sc_chunks s /\ x ∈ c_relocations c) \/ in_table w x.2 /\ read_from wd l x.1) -> tied wd l w -> tied wd l w'.
  Proof using tie.
    intros E1 E2 H T. split.
    - intros s c x Hs Hc Hx. unfold in_table. rewrite E1. destruct (H s c x Hs Hc Hx) as [(s0 & c0 & H1 & H2 & H3)|H1]; [by eapply (td_refs _ _ _ T)|exact H1].
    - rewrite E1, E2. exact (td_names _ _ _ T).
  Qed.
  Lemma chunk_mod (secs : list section) id i f s c x : (forall c, c_relocations (f c) = c_relocations c) -> s ∈ upd_section id (fun s => s <| sc_chunks := alter f i (sc_chunks s) |>) secs -> c ∈ sc_chunks s -> x ∈ c_relocations c ->
    exists s c, s ∈ secs /\ c ∈ sc_chunks s /\ x ∈ c_relocations c.
  Proof using tie.
    intros Hf Hs Hc Hx. unfold upd_section in Hs. apply elem_of_list_fmap in Hs as (s0 & -> & Hs). exists s0. destruct (_ =? _)%nat; [|eauto].
    cbn [sc_chunks set] in Hc. apply elem_of_list_lookup in Hc as (j & Hc). destruct (decide (i = j)) as [->|Hne].
    - rewrite list_lookup_alter in Hc. destruct (sc_chunks s0 !! j) as [c0|] eqn:E; [|discriminate Hc]. cbn in Hc. injection Hc as <-. rewrite Hf in Hx. exists c0. split; [exact Hs|]. split; [by eapply elem_of_list_lookup_2|exact Hx].
    - rewrite list_lookup_alter_ne in Hc by done. exists c. split; [exact Hs|]. split; [by eapply elem_of_list_lookup_2|exact Hx].
  Qed.
  Lemma k_sec w e (i : nat) name sh data w' sr : tied wd l w -> input_section wd l e name sh -> eo_shdrs e !! i = Some sh ->
    section_data (eo_data e) sh = Ok data -> add_section w name sh data = Ok (w', sr) -> tied wd l w' /\ keeps_refs w w' /\ True.
  Proof using tie.
    intros T _ _ _ H. unfold add_section in H. destruct (st_get_or_create (w_shstrtab w) name) as [names en]. cbv zeta in H.
    assert (K : w_symtab w' = w_symtab w /\ w_strtab w' = w_strtab w /\ forall s c x, s ∈ w_sections w' -> c ∈ sc_chunks s -> x ∈ c_relocations c -> exists s c, s ∈ w_sections w /\ c ∈ sc_chunks s /\ x ∈ c_relocations c).
    { destruct (en_new en).
      - injection H as <- <-. split; [reflexivity|]. split; [reflexivity|]. intros s c x Hs Hc Hx. cbn [w_sections set] in Hs. apply elem_of_app in Hs as [Hs|Hs]; [eauto|].
        apply elem_of_list_singleton in Hs as ->. cbn [sc_chunks set] in Hc. apply elem_of_list_singleton in Hc as ->. cbn in Hx. by apply elem_of_nil in Hx.
      - apply bind_Ok in H as (s0 & H0 & H). apply index_Ok in H0. cbn [w_sections set] in H0, H.
        assert (M : forall s1 d, (sc_chunks s1 = sc_chunks s0 \/ sc_chunks s1 = sc_chunks s0 ++ [chunk_new d]) -> forall s c x, s ∈ <[N.to_nat (en_index en) := s1]> (w_sections w) -> c ∈ sc_chunks s -> x ∈ c_relocations c -> exists s c, s ∈ w_sections w /\ c ∈ sc_chunks s /\ x ∈ c_relocations c).
        { intros s1 d Hd s c x Hs Hc Hx. apply elem_of_list_lookup in Hs as (j & Hs). apply list_lookup_insert_Some in Hs as [(_ & <- & _)|(_ & Hs)].
          - exists s0, c. split; [by eapply elem_of_list_lookup_2|]. split; [|exact Hx]. destruct Hd as [E|E]; rewrite E in Hc; [exact Hc|]. apply elem_of_app in Hc as [Hc|Hc]; [exact Hc|].
            apply elem_of_list_singleton in Hc as ->. cbn in Hx. by apply elem_of_nil in Hx.
          - exists s, c. split; [by eapply elem_of_list_lookup_2|]. done. }
        destruct data as [d|].
        + injection H as <- <-. split; [reflexivity|]. split; [reflexivity|]. refine (M _ d _). right. reflexivity.
        + cbn [sc_chunks set] in H. destruct (sc_chunks s0) as [|c0 cs] eqn:Ec; [discriminate H|]. injection H as <- <-. split; [reflexivity|]. split; [reflexivity|]. refine (M _ [] _). left. cbn [sc_chunks set]. exact Ec. }
    destruct K as (K1 & K2 & K3). split; [|split; [|exact I]].
    - apply (tied_secs w w' K1 K2); [|exact T]. intros s c x Hs Hc Hx. left. by eapply K3.
    - intros r. unfold in_table. by rewrite K1.
  Qed.
  Lemma k_sym w e sym o name path w' r : tied wd l w -> is_input wd l e -> sym ∈ eo_syms e ->
    eo_strtab e (st_name sym) = Some name -> sec_ref_of (fun _ _ _ _ => True) e w (N.to_nat (st_shndx sym)) o ->
    add_symbol w sym o name path = Ok (w', r) -> tied wd l w' /\ keeps_refs w w' /\ in_table w' r.
  Proof using tie.
    intros T He Hin Hn _ H. unfold add_symbol in H. apply bind_Ok in H as ([[[names t] secs] r1] & H & [= <- <-]). unfold add_symbol_inner in H.
    destruct (st_get_or_create (w_strtab w) name) as [names' en] eqn:En. set (sym' := sym <| st_name := u32 (en_offset en) |>) in *.
    destruct (syt_add_symbol (w_symtab w) sym' _ _ path) as [[t1 r2]|] eqn:Ea; [|discriminate H]. destruct (add_symbol_keeps _ _ _ _ _ _ _ Ea) as (A1 & A2 & A3).
    assert (K : names = names' /\ t = t1 /\ r1 = r2 /\ forall s c x, s ∈ secs -> c ∈ sc_chunks s -> x ∈ c_relocations c -> exists s c, s ∈ w_sections w /\ c ∈ sc_chunks s /\ x ∈ c_relocations c).
    { destruct o as [sr|]; [|injection H as <- <- <- <-; split_and!; eauto]. destruct (_ =? SHN_ABS); [injection H as <- <- <- <-; split_and!; eauto|].
      apply bind_Ok in H as (secs' & Hm & [= <- <- <- <-]). split; [done|]. split; [done|]. split; [done|]. intros s c x. apply mod_chunk_Ok in Hm as (s0 & c0 & _ & _ & ->). apply chunk_mod. intros c1. unfold chunk_add_symbol. by destruct (decide _). }
    destruct K as (-> & -> & -> & K). split; [|split; [exact A1|exact A2]]. split.
    - intros s c x Hs Hc Hx. cbn [w_sections set] in Hs. destruct (K s c x Hs Hc Hx) as (s0 & c0 & H1 & H2 & H3). destruct (td_refs _ _ _ T _ _ _ H1 H2 H3) as [Q1 Q2]. split; [by apply A1|exact Q2].
    - cbn [w_strtab w_symtab set]. intros nm i off Hnm Hne. assert (C : (nm, (i, off)) ∈ stt_names (w_strtab w) \/ nm = name /\ off = en_offset en).
      { apply goc_cases in En as [(_ & -> & _)|(_ & Ei & Enames & Eidx & Eoff)]; [by left|]. rewrite Enames in Hnm. apply elem_of_app in Hnm as [Hnm|Hnm]; [by left|]. apply elem_of_list_singleton in Hnm. injection Hnm as -> -> ->. right. done. }
      destruct C as [C|[-> ->]].
      + pose proof (td_names _ _ _ T _ _ _ C Hne) as Q. exact (A1 (RNamed (u32 off)) Q).
      + apply A3. intros E3. apply Hne. refine (HN _ _ _ He Hin _ Hn). exact E3.
  Qed.
  Lemma k_rel w e idx (rels : list greloc) rel sym sym' r sr w' : tied wd l w -> is_input wd l e -> (idx, rels) ∈ eo_relocs e -> rel ∈ rels ->
    gr_sym rel <> 0 -> eo_syms e !! N.to_nat (gr_sym rel) = Some sym -> idx <> 0 -> True ->
    sym' ∈ eo_syms e -> sym_key sym' = sym_key sym -> in_table w r ->
    add_relocation w (mkRela (gr_offset rel) (u64 (gr_sym rel * 2^32) + gr_type rel) (default 0%Z (gr_addend rel))) r sr = Ok w' -> tied wd l w' /\ keeps_refs w w'.
  Proof using tie.
    intros T He Hrels Hrel Hnz _ _ _ _ _ Hr H. unfold add_relocation in H. destruct (_ || _); [discriminate H|]. apply bind_Ok in H as (secs & Hm & [= <-]). apply mod_chunk_Ok in Hm as (s0 & c0 & _ & _ & ->).
    split; [|by intros ?]. apply (tied_secs w); [reflexivity|reflexivity| |exact T]. cbn [w_sections set]. intros s c x Hs Hc Hx.
    unfold upd_section in Hs. apply elem_of_list_fmap in Hs as (s1 & -> & Hs). destruct (_ =? _)%nat; [|left; eauto].
    cbn [sc_chunks set] in Hc. apply elem_of_list_lookup in Hc as (j & Hc). destruct (decide (sr_chunk sr = j)) as [<-|Hne].
    - rewrite list_lookup_alter in Hc. destruct (sc_chunks s1 !! sr_chunk sr) as [c1|] eqn:E; [|discriminate Hc]. cbn in Hc. injection Hc as <-. cbn [c_relocations chunk_add_relocation set] in Hx. apply elem_of_app in Hx as [Hx|Hx].
      + left. exists s1, c1. split; [exact Hs|]. split; [by eapply elem_of_list_lookup_2|exact Hx].
      + right. apply elem_of_list_singleton in Hx as ->. split; [exact Hr|]. exists e, idx, rels, rel. split_and!; done.
    - rewrite list_lookup_alter_ne in Hc by done. left. exists s1, c. split; [exact Hs|]. split; [by eapply elem_of_list_lookup_2|exact Hx].
  Qed.
  Lemma k_dyn w path e sym name so w' r : tied wd l w -> is_lib wd l path e -> sym ∈ eo_dynsyms e ->
    eo_dynstr e (st_name sym) = Some name -> file_name path = Some so -> is_Some (st_get (w_strtab w) name) ->
    add_dyn_symbol w sym None name path = Ok (w', r) -> tied wd l (add_needed w' so) /\ keeps_refs w (add_needed w' so).
  Proof using tie.
    intros T _ _ _ _ Hk H. pose proof (add_dyn_symbol_strtab _ _ _ _ _ _ _ H) as Est.
    assert (Esec : w_sections (add_needed w' so) = w_sections w').
    { unfold add_needed. destruct (st_get_or_create (w_dynstr w') so) as [t' e']. by destruct (en_new e'). }
    assert (Esym : w_symtab (add_needed w' so) = w_symtab w').
    { unfold add_needed. destruct (st_get_or_create (w_dynstr w') so) as [t' e']. by destruct (en_new e'). }
    assert (G : w_sections w' = w_sections w /\ forall r, is_Some (syt_get (w_symtab w) r) -> is_Some (syt_get (w_symtab w') r)).
    { unfold add_dyn_symbol in H. apply bind_Ok in H as ([[[names t] secs] r1] & Hi & H).
      assert (secs = w_sections w) as ->. { unfold add_symbol_inner in Hi. destruct (st_get_or_create _ _) as [a b]. cbv zeta in Hi. destruct (syt_add_symbol _ _ _ _ _) as [[t1 r2]|]; [|discriminate Hi]. by injection Hi as _ _ -> _. }
      cbn [w_strtab w_symtab set] in H. destruct (st_get (w_strtab w) name) as [en|]; [|by injection H as <- <-]. apply bind_Ok in H as (s & _ & [= <- <-]). split; [reflexivity|].
      intros r' Hr'. refine (_ : is_Some (syt_get (syt_modify (w_symtab w) (RNamed (u32 (en_offset en))) _) r')). rewrite syt_get_modify. destruct (decide _) as [->|]; [|exact Hr']. destruct Hr' as [y ->]. cbn. eauto. }
    destruct G as [G1 G2]. split; [split|].
    - rewrite Esec, G1. intros s c x Hs Hc Hx. unfold in_table. rewrite Esym. destruct (td_refs _ _ _ T _ _ _ Hs Hc Hx) as [Q1 Q2]. split; [by apply G2|exact Q2].
    - rewrite add_needed_strtab, Est, Esym. intros nm i o Hnm Hne. exact (G2 (RNamed (u32 o)) (td_names _ _ _ T _ _ _ Hnm Hne)).
    - intros r' Hr'. unfold in_table. rewrite Esym. by apply G2.
  Qed.
  Lemma resolve_tied lo fuel w : resolve wd lo l fuel = Ok w -> tied wd l w.
  Proof using tie.
    intros H. refine (proj1 (resolve_refs wd l (tied wd l) keeps_refs (fun _ _ _ _ => True) (fun _ _ w r => in_table w r) _ _ _ _ k_sec k_sym k_rel k_dyn lo fuel w _ H)).
    - by intros ? ?.
    - intros a b c H1 H2 r Hr. by apply H2, H1.
    - done.
    - intros e sym w1 w2 r _ _ HE Hr. by apply HE.
    - intros w0 Hw0. destruct (writer_new_ref _ _ Hw0) as (_ & _ & _ & _ & E1 & E2 & _). split.
      + intros s c x Hs Hc Hx. exfalso. exact (new_no_relocs _ _ Hw0 s c x Hs Hc Hx).
      + rewrite E1. intros name i o Hin Hne. exfalso. apply Hne. vm_compute in Hin. apply elem_of_list_singleton in Hin. by injection Hin.
  Qed.
End tied.

(** * Sections keep their names and chunks *)
Definition arrays : list string := [".init_array"; ".fini_array"].
(** A relocation comes from another: the same, except that a call through the
    PLT (type 4) may have become a direct one (type 2). *)
Definition came (x x' : Rela * symref) : Prop := x'.2 = x.2 /\ r_offset x'.1 = r_offset x.1 /\ r_addend x'.1 = r_addend x.1 /\
  (r_info x'.1 = r_info x.1 \/ (r_info x.1) mod 2 ^ 32 = 4 /\ (r_info x'.1) mod 2 ^ 32 = 2).
Lemma came_refl x : came x x.
Proof. by split_and!; [..|left]. Qed.
Lemma came_trans x y z : came x y -> came y z -> came x z.
Proof. intros (A1 & A2 & A3 & A4) (B1 & B2 & B3 & B4). split; [congruence|]. split; [congruence|]. split; [congruence|]. destruct A4 as [A4|[A4 A5]], B4 as [B4|[B4 B5]]; [left; congruence|right; rewrite <- A4; done|right; rewrite B4; done|]. rewrite A5 in B4. discriminate B4. Qed.
Definition relocs_of (k : list section) (x : Rela * symref) : Prop := exists s c, s ∈ k /\ c ∈ sc_chunks s /\ x ∈ c_relocations c.
Definition ok_section (w0 : writer) (s : section) : Prop :=
  (exists n, st_name_at (w_shstrtab w0) (sh_name (sc_sh s)) = Some n /\ (n ∈ arrays -> sc_chunks s <> [])) /\
  forall c x, c ∈ sc_chunks s -> x ∈ c_relocations c -> exists x0, relocs_of (w_sections w0) x0 /\ came x0 x.
Definition follows (s s' : section) : Prop := sh_name (sc_sh s') = sh_name (sc_sh s) /\ (sc_chunks s <> [] -> sc_chunks s' <> []) /\
  forall c x, c ∈ sc_chunks s' -> x ∈ c_relocations c -> exists c0 x0, c0 ∈ sc_chunks s /\ x0 ∈ c_relocations c0 /\ came x0 x.
Lemma follows_same s s' : sh_name (sc_sh s') = sh_name (sc_sh s) -> c_relocations <$> sc_chunks s' = c_relocations <$> sc_chunks s -> follows s s'.
Proof.
  intros H1 H2. split; [exact H1|]. split; [intros Hs E; apply Hs; rewrite E in H2; symmetry in H2; by apply fmap_nil_inv in H2|].
  intros c x Hc Hx. apply elem_of_list_lookup in Hc as (i & Hc). assert (K : (c_relocations <$> sc_chunks s') !! i = Some (c_relocations c)) by (rewrite list_lookup_fmap, Hc; reflexivity).
  rewrite H2, list_lookup_fmap in K. destruct (sc_chunks s !! i) as [c0|] eqn:E; [|discriminate K]. cbn in K. injection K as K. exists c0, x. split; [by eapply elem_of_list_lookup_2|]. split; [by rewrite K|apply came_refl].
Qed.
Lemma follows_refl s : follows s s.
Proof. by apply follows_same. Qed.
Lemma follows_trans a b c : follows a b -> follows b c -> follows a c.
Proof.
  intros (H1 & H2 & H5) (H3 & H4 & H6). split; [congruence|]. split; [auto|]. intros x y Hx Hy. destruct (H6 _ _ Hx Hy) as (c1 & y1 & Hc1 & Hy1 & C1). destruct (H5 _ _ Hc1 Hy1) as (c0 & y0 & Hc0 & Hy0 & C0).
  exists c0, y0. split; [exact Hc0|]. split; [exact Hy0|]. by eapply came_trans.
Qed.
Lemma ok_follows w0 s s' : follows s s' -> ok_section w0 s -> ok_section w0 s'.
Proof.
  intros (H1 & H2 & H3) [(n & Hn & Hc) HR]. split; [exists n; rewrite H1; auto|]. intros c x Hx Hy. destruct (H3 _ _ Hx Hy) as (c1 & x1 & Hc1 & Hx1 & C1). destruct (HR _ _ Hc1 Hx1) as (x0 & R0 & C0).
  exists x0. split; [exact R0|]. by eapply came_trans.
Qed.
Definition all_ok (w0 : writer) (k : list section) : Prop := forall s, s ∈ k -> ok_section w0 s.
Lemma all_ok_map w0 (f : section -> section) k : (forall s, follows s (f s)) -> all_ok w0 k -> all_ok w0 (f <$> k).
Proof. intros Hf H s Hs. apply elem_of_list_fmap in Hs as (s0 & -> & Hs). eapply ok_follows; [apply Hf|by apply H]. Qed.
Lemma all_ok_upd w0 id f k : (forall s, follows s (f s)) -> all_ok w0 k -> all_ok w0 (upd_section id f k).
Proof. intros Hf. unfold upd_section. apply all_ok_map. intros s. destruct (_ =? _)%nat; [apply Hf|apply follows_refl]. Qed.
Lemma all_ok_F2 w0 k k' : Forall2 follows k k' -> all_ok w0 k -> all_ok w0 k'.
Proof. intros HF H s Hs. apply elem_of_list_lookup in Hs as (i & Hi). destruct (Forall2_lookup_r _ _ _ _ _ HF Hi) as (s0 & H0 & Hf). eapply ok_follows; [exact Hf|]. apply H. by eapply elem_of_list_lookup_2. Qed.
Lemma follows_size n s : follows s (ModelWriter.set_size n s).
Proof. by apply follows_same. Qed.
Lemma follows_app s s' d : sh_name (sc_sh s') = sh_name (sc_sh s) -> sc_chunks s' = sc_chunks s ++ [chunk_new d] -> follows s s'.
Proof.
  intros H1 H2. split; [exact H1|]. rewrite H2. split; [by destruct (sc_chunks s)|]. intros c x Hc Hx. apply elem_of_app in Hc as [Hc|Hc]; [exists c, x; split; [exact Hc|]; split; [exact Hx|apply came_refl]|].
  apply elem_of_list_singleton in Hc as ->. cbn in Hx. by apply elem_of_nil in Hx.
Qed.
Lemma follows_chunk d s : follows s (sec_add_chunk (chunk_new d) s).
Proof. by apply (follows_app _ _ d). Qed.
Lemma follows_expand o w s : follows s (sec_expand o w s).
Proof.
  unfold sec_expand. destruct (sc_synth s) as [[]|]; first [apply follows_refl|apply follows_size|eapply follows_app; reflexivity].
Qed.
Lemma follows_place st s : follows s (layout_place st s).2.
Proof.
  assert (C : forall (k : list chunk) a, c_relocations <$> set_chunk_addresses a k = c_relocations <$> k) by (induction k as [|c k IH]; intros a; [done|]; cbn [set_chunk_addresses]; rewrite !fmap_cons, IH; done).
  assert (A : forall a b, follows b (sec_set_address a b)) by (intros a b; apply follows_same; [reflexivity|]; cbn [sec_set_address sc_chunks set]; apply C).
  unfold layout_place. destruct (negb _).
  - unfold get_load_program_header. destruct (has_flag _ _); cbn [fst snd]; [|by apply follows_same]. exact (A _ _).
  - destruct (ly_cur _); cbn [fst snd]; [|by apply follows_same]. exact (A _ _).
Qed.

(** * Tables keep their entries *)
Definition keep (t t' : symtab) : Prop := forall r, is_Some (syt_get t r) -> is_Some (syt_get t' r).
Lemma keep_refl t : keep t t.
Proof. by intros r. Qed.
Lemma keep_trans a b c : keep a b -> keep b c -> keep a c.
Proof. intros H1 H2 r Hr. by apply H2, H1. Qed.
Lemma keep_modify t r f : keep t (syt_modify t r f).
Proof. intros r' Hr'. rewrite syt_get_modify. destruct (decide _) as [->|]; [|exact Hr']. destruct Hr' as [y ->]. cbn. eauto. Qed.
Lemma keep_fold {A} (f : symtab -> A -> symtab) (k : list A) t : (forall t a, keep t (f t a)) -> keep t (fold_left f k t).
Proof. intros Hf. revert t. induction k as [|a k IH]; intros t; cbn [fold_left]; [apply keep_refl|]. eapply keep_trans; [apply Hf|apply IH]. Qed.
Lemma keep_patch s t : keep t (patch_symbol_values s t).
Proof.
  unfold patch_symbol_values. generalize (sh_addr (sc_sh s)). revert t. induction (sc_chunks s) as [|c cs IH]; intros t base; cbn [patch_chunks]; [apply keep_refl|].
  eapply keep_trans; [|apply IH]. apply keep_fold. intros t' r. apply keep_modify.
Qed.

(** * Scanning *)
Lemma scan_one (st : scan_state) (t : symtab) x : keep t (sn_symbols st) -> is_Some (syt_get t x.2) ->
  fine (scan_reloc st x) /\ forall st' x', scan_reloc st x = Ok (st', x') -> keep t (sn_symbols st').
Proof.
  destruct x as [rel r]. cbn [snd]. intros HK Hr. apply HK in Hr as [sym Hsym]. unfold scan_reloc. rewrite Hsym. cbn [unwrap mbind res_bind].
  destruct (needs_got _).
  - destruct (s_in_got sym); (split; [discriminate|]); intros st' x' [= <- <-]; [exact HK|]. cbn [sn_symbols set]. eapply keep_trans; [exact HK|apply keep_modify].
  - destruct (_ =? R_X86_64_PLT32).
    + destruct (s_dynamic sym).
      * destruct (or_insert _ _ _) as [gp off]. destruct (plt_insert _ _) as [pl ix]. split; [discriminate|]. intros st' x' [= <- <-]. cbn [sn_symbols]. eapply keep_trans; [exact HK|apply keep_modify].
      * split; [discriminate|]. intros st' x' [= <- <-]. exact HK.
    + split; [discriminate|]. intros st' x' [= <- <-]. exact HK.
Qed.
Lemma scan_fine w : (forall s c x, s ∈ w_sections w -> c ∈ sc_chunks s -> x ∈ c_relocations c -> in_table w x.2) -> fine (scan_relocations w).
Proof.
  intros H. unfold scan_relocations. apply fine_bind; [|intros [? ?] _; discriminate].
  apply (fine_mapM_st (fun st => keep (w_symtab w) (sn_symbols st))); [apply keep_refl|]. intros st s Hs HK.
  assert (HC : forall st c, c ∈ sc_chunks s -> keep (w_symtab w) (sn_symbols st) -> fine (scan_chunk st c) /\ forall st' c', scan_chunk st c = Ok (st', c') -> keep (w_symtab w) (sn_symbols st')).
  { intros st1 c Hc HK1. unfold scan_chunk. split.
    - apply fine_bind; [|intros [? ?] _; discriminate]. apply (fine_mapM_st (fun st => keep (w_symtab w) (sn_symbols st))); [exact HK1|]. intros st2 x Hx HK2. exact (scan_one st2 _ x HK2 (H s c x Hs Hc Hx)).
    - intros st' c' E. apply bind_Ok in E as ([st2 rels] & E & [= <- <-]). eapply (mapM_st_inv (fun st => keep (w_symtab w) (sn_symbols st)) (fun _ _ => True)) in E; [exact (proj1 E)| |exact HK1].
      intros st2' x st3 x' Hx HK2 E2. split; [|exact I]. exact (proj2 (scan_one st2' _ x HK2 (H s c x Hs Hc Hx)) _ _ E2). }
  unfold scan_section. split.
  - apply fine_bind; [|intros [? ?] _; discriminate]. apply (fine_mapM_st (fun st => keep (w_symtab w) (sn_symbols st))); [exact HK|]. intros st1 c Hc HK1. by apply HC.
  - intros st' s' E. apply bind_Ok in E as ([st2 cs] & E & [= <- <-]). eapply (mapM_st_inv (fun st => keep (w_symtab w) (sn_symbols st)) (fun _ _ => True)) in E; [exact (proj1 E)| |exact HK].
    intros st1 c st3 c' Hc HK1 E2. split; [|exact I]. exact (proj2 (HC st1 c Hc HK1) _ _ E2).
Qed.
Lemma scan_keep w w' : scan_relocations w = Ok w' -> keep (w_symtab w) (w_symtab w').
Proof.
  intros H r [s Hs]. destruct (scan_relocations_scanned _ _ H) as [Hd _]. specialize (Hd r). rewrite Hs in Hd. destruct (syt_get (w_symtab w') r); [eauto|discriminate Hd].
Qed.
Lemma scanned_came t x x' : scanned t x x' -> came x x'.
Proof.
  intros (A1 & A2 & A3 & A4). split; [exact A1|]. split; [exact A2|]. split; [exact A3|]. destruct (decide _) as [[E _]|_]; [|by left]. right. split; [exact E|]. rewrite A4, N.add_comm, N.mul_comm, N.mod_add by discriminate. reflexivity.
Qed.
Lemma scan_follows w w' : scan_relocations w = Ok w' -> Forall2 follows (w_sections w) (w_sections w').
Proof.
  intros H. destruct (scan_relocations_scanned _ _ H) as [_ HF]. eapply Forall2_impl; [exact HF|]. intros s s' [E HC]. split; [by rewrite E|]. split; [intros Hc Hn; rewrite Hn in HC; by apply Forall2_nil_inv_r in HC|].
  intros c' x' Hc' Hx'. apply elem_of_list_lookup in Hc' as (i & Hc'). destruct (Forall2_lookup_r _ _ _ _ _ HC Hc') as (c & Hc & _ & HR). apply elem_of_list_lookup in Hx' as (j & Hx'). destruct (Forall2_lookup_r _ _ _ _ _ HR Hx') as (x & Hx & HS).
  exists c, x. split; [by eapply elem_of_list_lookup_2|]. split; [by eapply elem_of_list_lookup_2|]. by eapply scanned_came.
Qed.

(** * Sizes *)
Lemma index_there (k : list symbol) m s : s ∈ k -> st_name (s_sym s) = m -> is_Some (dyn_sym_indices k !! m).
Proof.
  intros Hs Hm. unfold dyn_sym_indices. destruct (list_to_map _ !! m) eqn:E; [eauto|]. exfalso. apply not_elem_of_list_to_map_2 in E. apply E. apply elem_of_list_lookup in Hs as (i & Hi).
  apply elem_of_list_fmap. exists (m, i). split; [reflexivity|]. apply elem_of_reverse. apply elem_of_lookup_imap. exists i, s. by rewrite Hm.
Qed.
Lemma fine_hash sorted w : sorted <> [] -> 12 * N.of_nat (length sorted) < 2 ^ 32 -> Forall (fun s => s_gnu_hash s < 2 ^ 32) sorted -> fine (fill_hash_tables sorted w).
Proof.
  intros Hn Hl HG. unfold fill_hash_tables. apply fine_bind.
  - destruct (w_hash w); [|discriminate]. destruct (ht_build (s_hash <$> sorted)) as (b & c & E & _); [rewrite fmap_length; lia|]. rewrite E. discriminate.
  - intros w1 _. destruct (w_gnu_hash w1); [|discriminate]. destruct sorted as [|n syms]; [contradiction|]. rewrite fmap_cons.
    destruct (gt_build (s_gnu_hash n) (s_gnu_hash <$> syms)) as (t & E & _); [rewrite fmap_length; cbn [length] in Hl; lia| |rewrite E; discriminate].
    apply Forall_fmap. apply Forall_cons in HG as [_ HG]. exact HG.
Qed.
Record dyn_fit (t d : symtab) (indices : gmap N nat) : Prop := {
  df_link : forall n s r, syt_symbols t !! n = Some s -> s_dynamic s = Some r -> exists m, r = RNamed m /\ is_Some (syt_symbols d !! m);
  df_index : forall m, is_Some (syt_symbols d !! m) -> is_Some (indices !! m) }.
Lemma Ok_inj {A} (a b : A) : Ok a = Ok b -> a = b.
Proof. congruence. Qed.
Lemma dynrel_one t d indices st n : dyn_fit t d indices ->
  (forall k s, dr_symbols st !! k = Some s -> exists s0, syt_symbols t !! k = Some s0 /\ s_dynamic s = s_dynamic s0) -> keep d (dr_dynsym st) ->
  fine (dynrel_step indices st n) /\ forall st', dynrel_step indices st n = Ok st' ->
    (forall k s, dr_symbols st' !! k = Some s -> exists s0, syt_symbols t !! k = Some s0 /\ s_dynamic s = s_dynamic s0) /\ keep d (dr_dynsym st') /\ (forall k, is_Some (dr_symbols st !! k) -> is_Some (dr_symbols st' !! k)).
Proof.
  intros DF H1 H2. unfold dynrel_step. destruct (dr_symbols st !! n) as [sym|] eqn:En; [|split; [discriminate|]; intros st' [= <-]; done].
  destruct (s_dynamic sym) as [r|] eqn:Er; [|split; [discriminate|]; intros st' [= <-]; done].
  destruct (H1 _ _ En) as (s0 & Hs0 & E0). rewrite Er in E0. symmetry in E0. destruct (df_link _ _ _ DF _ _ _ Hs0 E0) as (m & -> & Hm). destruct (df_index _ _ _ DF _ Hm) as [i Hi].
  cbn [ref_st_name]. rewrite Hi. cbn [unwrap mbind res_bind]. cbv zeta. assert (H3 : is_Some (syt_get (dr_dynsym st) (RNamed m))) by (apply H2; exact Hm). destruct H3 as [ds Hds].
  set (st1 := match s_in_got sym with Some offset => _ | None => st end). assert (E1 : dr_symbols st1 = dr_symbols st /\ dr_dynsym st1 = dr_dynsym st) by (unfold st1; by destruct (s_in_got sym)). clearbody st1. destruct E1 as [E1 E2].
  rewrite E2, Hds. cbn [unwrap mbind res_bind]. split.
  - destruct (is_object ds); [destruct (cr_insert _ _ _)|]; discriminate.
  - intros st' H. apply Ok_inj in H. subst st'.
    set (st2 := if is_object ds then _ else st1). assert (E3 : dr_symbols st2 = dr_symbols st /\ keep d (dr_dynsym st2)).
    { unfold st2. destruct (is_object ds); [|by rewrite E1, E2]. split; [exact E1|]. eapply keep_trans; [exact H2|]. rewrite <- E2. apply keep_modify. }
    clearbody st2. destruct E3 as [E3 E4]. destruct (s_in_got_plt sym); [|by rewrite E3].
    cbn [dr_symbols dr_dynsym set]. rewrite E3. split; [|split; [exact E4|]].
    + intros k s Hk. destruct (decide (n = k)) as [->|Hne].
      * rewrite lookup_alter, En in Hk. cbn in Hk. injection Hk as <-. cbn [s_dynamic set]. by apply H1.
      * rewrite lookup_alter_ne in Hk by done. by apply H1.
    + intros k Hk. by apply lookup_alter_is_Some.
Qed.
Lemma fine_dynrels o sorted w : dyn_fit (w_symtab w) (w_dynsym w) (dyn_sym_indices sorted) ->
  fine (build_dynrels o sorted w) /\ forall w', build_dynrels o sorted w = Ok w' -> keep (w_symtab w) (w_symtab w').
Proof.
  intros DF. unfold build_dynrels. cbv zeta.
  set (J := fun st => (forall k s, dr_symbols st !! k = Some s -> exists s0, syt_symbols (w_symtab w) !! k = Some s0 /\ s_dynamic s = s_dynamic s0) /\ keep (w_dynsym w) (dr_dynsym st) /\ (forall k, is_Some (syt_symbols (w_symtab w) !! k) -> is_Some (dr_symbols st !! k))).
  assert (J0 : J (mkDynrel (syt_symbols (w_symtab w)) (w_dynsym w) (w_copyrel w) (w_dyn_rels w) (w_plt_rels w))) by (split; [eauto|]; split; [apply keep_refl|done]).
  assert (JS : forall st n, J st -> fine (dynrel_step (dyn_sym_indices sorted) st n) /\ forall st', dynrel_step (dyn_sym_indices sorted) st n = Ok st' -> J st').
  { intros st n (J1 & J2 & J3). destruct (dynrel_one _ _ _ st n DF J1 J2) as [A B]. split; [exact A|]. intros st' E. destruct (B _ E) as (B1 & B2 & B3). split; [exact B1|]. split; [exact B2|]. intros k Hk. by apply B3, J3. }
  split.
  - apply fine_bind; [|discriminate]. apply (fine_foldM J); [exact J0|]. intros st n _ HJ. by apply JS.
  - intros w' E. apply bind_Ok in E as (st & E & [= <-]). assert (HJ : J st) by (eapply foldM_inv; [|exact J0|exact E]; intros s a s' _ Hs Ha; exact (proj2 (JS s a Hs) _ Ha)).
    destruct HJ as (_ & _ & J3). intros [k|a b]; cbn [syt_get w_symtab set syt_symbols syt_section_syms]; [apply J3|done].
Qed.
Lemma fine_dyn_entries w0 s : ok_section w0 s -> fine (dyn_entries (w_shstrtab w0) (sc_sh s)) /\ fine (section_dyn_entries (w_shstrtab w0) (sc_sh s)).
Proof. intros [(n & Hn & _) _]. unfold dyn_entries, section_dyn_entries. rewrite Hn. cbn [unwrap mbind res_bind]. split; discriminate. Qed.
Lemma fine_size_dynamic w0 w : w_shstrtab w = w_shstrtab w0 -> all_ok w0 (w_sections w) -> fine (size_dynamic w) /\ forall w', size_dynamic w = Ok w' -> all_ok w0 (w_sections w') /\ (w_shstrtab w', w_eh w') = (w_shstrtab w, w_eh w) /\ w_symtab w' = w_symtab w /\ w_strtab w' = w_strtab w.
Proof.
  intros E H. unfold size_dynamic. rewrite E. split.
  - apply fine_bind; [|discriminate]. apply (fine_foldM (fun _ => True)); [exact I|]. intros n s Hs _. split; [|done]. apply fine_bind; [|discriminate]. by apply fine_dyn_entries, H.
  - intros w' E1. apply bind_Ok in E1 as (x & _ & [= <-]). split; [|cbn [w_shstrtab w_eh w_symtab w_strtab set]; rewrite E; done]. cbn [w_sections set]. apply all_ok_upd; [intros s; apply follows_size|exact H].
Qed.

(** * The dynamic symbols after reading *)
Definition hashes_ok (w : writer) : Prop := is_Some (syt_symbols (w_dynsym w) !! 0) /\ forall n s, syt_symbols (w_dynsym w) !! n = Some s -> s_gnu_hash s < 2 ^ 32.
Lemma hashes_same w w' : w_dynsym w' = w_dynsym w -> hashes_ok w -> hashes_ok w'.
Proof. unfold hashes_ok. by intros ->. Qed.
Lemma needed_same w so : w_dynsym (add_needed w so) = w_dynsym w.
Proof. unfold add_needed. destruct (st_get_or_create _ _) as [t e]. by destruct (en_new e). Qed.
Lemma resolve_hashes wd l lo fuel w : resolve wd lo l fuel = Ok w -> hashes_ok w.
Proof.
  apply (resolve_inv wd l hashes_ok).
  - intros w1 e name sh data w' r H1 _ _ H. apply (hashes_same w1); [|exact H1]. unfold add_section in H. destruct (st_get_or_create _ _) as [nm en]. cbv zeta in H.
    destruct (en_new en); [injection H as <- <-; reflexivity|]. apply bind_Ok in H as (s & _ & H). destruct data; [injection H as <- <-; reflexivity|]. destruct (sc_chunks _); [discriminate H|injection H as <- <-; reflexivity].
  - intros w1 e sym sr name ref w' r H1 _ _ _ H. apply (hashes_same w1); [|exact H1]. unfold add_symbol in H. apply bind_Ok in H as ([[[nm sy] secs] r0] & Hi & [= <- <-]). reflexivity.
  - intros w1 rel r sr w' H1 H. apply (hashes_same w1); [|exact H1]. unfold add_relocation in H. cbv zeta in H. destruct (_ || _); [done|]. apply bind_Ok in H as (s & _ & [= <-]). reflexivity.
  - intros w1 path e sym name so w' r [A B] _ _ _ _ _ H. apply (hashes_same w'); [apply needed_same|]. unfold add_dyn_symbol in H. cbv zeta in H. apply bind_Ok in H as ([[[nm sy] secs] r0] & Hi & H).
    assert (E : w_dynsym w' = sy).
    { destruct (st_get _ _) as [en|]; [|injection H as <- <-; reflexivity]. apply bind_Ok in H as (s & _ & [= <- <-]). reflexivity. }
    unfold hashes_ok. rewrite E. clear H E. split.
    + destruct A as [s0 Hs0]. destruct (inner_mono _ _ _ _ _ _ _ _ _ _ _ _ _ Hi Hs0) as (s' & Hs' & _). eauto.
    + apply inner_table in Hi as (en & _ & Ha). intros n s Hs. apply add_sym_cases in Ha as [(_ & E & _)|(_ & _ & _ & s1 & E & Hc)]; rewrite E in Hs; [exact (B _ _ Hs)|].
      apply lookup_insert_Some in Hs as [[_ <-]|[_ Hs]]; [|exact (B _ _ Hs)]. destruct Hc as [[_ ->]|(old & Ho & Hm)].
      * cbn [s_gnu_hash symbol_new]. rewrite elf_gnu_hash_spec. apply gnu_hash_lt.
      * apply merge_keeps in Hm as (_ & _ & -> & _). exact (B _ _ Ho).
  - intros w0 Hw0. destruct (writer_new_ref _ _ Hw0) as (_ & _ & _ & _ & _ & _ & E). unfold hashes_ok. rewrite E. split; [vm_compute; eauto|]. intros n s Hs.
    change (syt_symbols (syt_new true)) with ({[0 := symbol_new sym0 0 0 ""]} : gmap N symbol) in Hs. apply lookup_singleton_Some in Hs as [_ <-]. reflexivity.
Qed.

(** * The sections after reading *)
Lemma ref_names_plain st : Forall (fun s => forall n, st_name_at (ref_names st) (sh_name (sc_sh s)) = Some n -> n ∉ arrays) (ref_sections st).
Proof.
  assert (H : forallb (fun s => match st_name_at (ref_names st) (sh_name (sc_sh s)) with Some n => bool_decide (n ∉ arrays) | None => true end) (ref_sections st) = true) by (destruct st; vm_compute; reflexivity).
  rewrite forallb_forall in H. apply List.Forall_forall. intros s Hs n Hn. specialize (H s Hs). cbv beta in H. rewrite Hn in H. by apply bool_decide_eq_true_1 in H.
Qed.
Lemma read_ok wd lo l fuel U w0 w : sound_inputs wd l -> names_within wd l U -> room U <= 2 ^ 32 -> writer_new (lk_options l) = Ok w0 -> resolve wd lo l fuel = Ok w -> stt_total_len (w_shstrtab w) < 2 ^ 32 ->
  all_ok w (w_sections w) /\ w_sections w <> [].
Proof.
  intros HS HU HR Hw0 H Ht. pose proof (resolve_sane wd l U w0 HS HU HR Hw0 lo fuel w H) as S. pose proof (sa_inv _ _ _ S) as HI. pose proof (wi_n0 _ _ _ HI) as Hn0.
  destruct (writer_new_ref _ _ Hw0) as (Hsig & _ & Hnm & _). split.
  - intros s Hs. split; [|intros c x Hc Hx; exists x; split; [exists s, c; split; [exact Hs|]; split; [exact Hc|exact Hx]|apply came_refl]]. apply elem_of_list_lookup in Hs as (i & Hi). destruct (decide (i < length (w_sections w0))%nat) as [Hlt|Hge].
    + destruct (lookup_lt_is_Some_2 _ _ Hlt) as [s0 Hs0]. destruct (wi_fixed _ _ _ HI _ _ Hs0) as (s' & Hs' & (Hg & _ & _)). rewrite Hi in Hs'. injection Hs' as <-.
      assert (E : exists r, ref_sections (opt_hash_style (lk_options l)) !! i = Some r /\ sec_sig s0 = sec_sig r).
      { assert (K : (sec_sig <$> w_sections w0) !! i = Some (sec_sig s0)) by (rewrite list_lookup_fmap, Hs0; reflexivity). rewrite Hsig, list_lookup_fmap in K.
        destruct (ref_sections (opt_hash_style (lk_options l)) !! i) as [r|]; [|discriminate K]. exists r. split; [reflexivity|]. cbn in K. injection K as K. symmetry. unfold sec_sig in *. exact K || congruence. }
      destruct E as (r & Hr & Er). assert (En : sh_name (sc_sh s) = sh_name (sc_sh r)) by (rewrite <- Hg in Er; unfold sec_sig in Er; injection Er; intros; congruence).
      pose proof (Forall_lookup_1 _ _ _ _ (ref_names_known _) Hr) as [n Hn]. pose proof (Forall_lookup_1 _ _ _ _ (ref_names_plain _) Hr _ Hn) as Hp.
      exists n. split; [|intros; contradiction]. rewrite En. destruct (wi_prefix _ _ _ HI) as [tl Htl]. rewrite Hnm in Htl. unfold st_name_at in *. rewrite Htl, name_in_app, Hn. reflexivity.
    + destruct (wi_names _ _ _ HI i s ltac:(lia) Hi) as (n & o & Hno & En). exists n. rewrite En. split; [by eapply entry_name; [apply (wi_st _ _ _ HI)|exact Ht|exact Hno]|]. intros _. apply (sa_chunks _ _ _ S i s); [lia|exact Hi].
  - intros E. assert (Hl : w_sections w0 <> []).
    { intros E0. rewrite E0 in Hsig. cbn in Hsig. symmetry in Hsig. apply fmap_nil_inv in Hsig. revert Hsig. generalize (opt_hash_style (lk_options l)). clear. intros st Hs. assert (Q : length (ref_sections st) = 0%nat) by (rewrite Hs; reflexivity). destruct st; vm_compute in Q; discriminate Q. }
    destruct (w_sections w0) as [|s0 k] eqn:Ew; [by apply Hl|]. destruct (wi_fixed _ _ _ HI 0%nat s0) as (s & Hs & _); [by rewrite Ew|]. rewrite E in Hs. discriminate Hs.
Qed.

(** * Assigning sizes *)
Record good (w0 w : writer) : Prop := {
  go_secs : all_ok w0 (w_sections w);
  go_some : w_sections w <> [];
  go_shstr : w_shstrtab w = w_shstrtab w0;
  go_str : w_strtab w = w_strtab w0;
  go_keep : keep (w_symtab w0) (w_symtab w);
  go_eh : w_eh w = w_eh w0 }.
Lemma good_secs w0 w w' : (w_shstrtab w', w_eh w') = (w_shstrtab w, w_eh w) -> w_strtab w' = w_strtab w -> keep (w_symtab w) (w_symtab w') -> all_ok w0 (w_sections w') -> w_sections w' <> [] -> good w0 w -> good w0 w'.
Proof. intros E1 E2 HK H1 H2 [A B C D E F]. split; [exact H1|exact H2|congruence|congruence|by eapply keep_trans|congruence]. Qed.
Lemma upd_some id f (k : list section) : k <> [] -> upd_section id f k <> [].
Proof. by destruct k. Qed.
Section sizing.
  Context (wd0 : world) (l0 : linker) (w : writer) (o : oracle) (V : valid_oracle o) (T : tied wd0 l0 w) (TI : tinv w) (HH : hashes_ok w) (G0 : good w w).
  Context (Fit : 12 * stt_total_len (w_dynstr w) < 2 ^ 32).
  Collection szg := wd0 l0 w o V T TI HH G0 Fit.
  Lemma dyn_count : N.of_nat (length (syt_sorted (o_dyn o) (w_dynsym w))) <= stt_total_len (w_dynstr w).
  Proof using szg.
    rewrite (sorted_length _ _ (vo_dyn _ V)). apply keys_bound. intros n s Hs. destruct (ti_dyn _ TI _ _ Hs) as (_ & name & i & o' & Hin & -> & _).
    pose proof (entry_off_lt _ _ _ _ (st_reach_ok _ (proj2 (ti_reach _ TI))) Hin) as Hlt. unfold u32, wrap. pose proof (N.mod_le o' (2 ^ 32) ltac:(lia)). lia.
  Qed.
  Lemma sizes_fine : fine (assign_sizes o w) /\ forall w1, assign_sizes o w = Ok w1 -> good w w1.
  Proof using szg.
    unfold assign_sizes. pose proof (scan_fine w (fun s c x H1 H2 H3 => proj1 (td_refs _ _ _ T s c x H1 H2 H3))) as F1. destruct (scan_relocations w) as [ws|e|p] eqn:Es; [|split; [discriminate|intros ? Q; discriminate Q]|exfalso; exact (F1 p eq_refl)].
    cbn [mbind res_bind]. clear F1. pose proof (scan_keep _ _ Es) as Ks. pose proof (scan_follows _ _ Es) as Fs. destruct (scan_relocations_scanned _ _ Es) as [Ds _]. destruct (scan_flat _ _ Es) as (sst & _ & Ew).
    assert (E1 : (w_shstrtab ws, w_eh ws) = (w_shstrtab w, w_eh w) /\ w_strtab ws = w_strtab w /\ w_dynsym ws = w_dynsym w) by (rewrite Ew; done). clear Ew. destruct E1 as (E1 & E2 & E3).
    assert (G1 : good w ws).
    { apply (good_secs w w); [exact E1|exact E2|exact Ks|exact (all_ok_F2 _ _ _ Fs (go_secs _ _ G0))| |exact G0]. intros E. rewrite E in Fs. apply Forall2_nil_inv_r in Fs. by apply (go_some _ _ G0). }
    set (wa := resize_got_section ws). set (wb := resize_got_plt_section wa). cbv zeta.
    set (wc := wb <| w_sections := upd_section id_dynsym (sec_expand o wb) (w_sections wb) |>).
    assert (Gc : good w wc).
    { apply (good_secs w wb); [reflexivity|reflexivity|apply keep_refl| | |].
      all: assert (Gb : good w wb) by (apply (good_secs w wa); [reflexivity|reflexivity|apply keep_refl| | |]; [apply all_ok_upd; [intros s; by apply (follows_app _ _ (zeros (8 * (blen (w_got_plt wa) + 3))))|]|apply upd_some|];
        (assert (Ga : good w wa) by (apply (good_secs w ws); [reflexivity|reflexivity|apply keep_refl| | |exact G1]; [apply all_ok_upd; [intros s; by eapply follows_app; reflexivity|exact (go_secs _ _ G1)]|apply upd_some; exact (go_some _ _ G1)])); [exact (go_secs _ _ Ga)|exact (go_some _ _ Ga)|exact Ga]).
      - apply all_ok_upd; [intros s; apply follows_expand|exact (go_secs _ _ Gb)].
      - apply upd_some. exact (go_some _ _ Gb).
      - exact Gb. }
    assert (Ec : w_dynsym wc = w_dynsym w) by exact E3. assert (Et : w_symtab wc = w_symtab ws) by reflexivity. clearbody wc. clear wa wb. rewrite Ec.
    set (sorted := syt_sorted (o_dyn o) (w_dynsym w)). pose proof dyn_count as Hn. fold sorted in Hn.
    destruct HH as [[s0 Hs0] Hg]. assert (I0 : forall s, s ∈ sorted <-> exists n, syt_symbols (w_dynsym w) !! n = Some s) by (intros s; exact (elem_of_sorted _ _ _ (vo_dyn _ V))).
    assert (F2 : fine (fill_hash_tables sorted wc)).
    { apply fine_hash.
      - intros E. assert (Q : s0 ∈ sorted) by (apply I0; eauto). rewrite E in Q. by apply elem_of_nil in Q.
      - lia.
      - apply Forall_forall. intros s Hs. apply I0 in Hs as [n Hs]. exact (Hg _ _ Hs). }
    destruct (fill_hash_tables sorted wc) as [wd|e|p] eqn:Eh; [|split; [discriminate|intros ? Q; discriminate Q]|exfalso; exact (F2 p eq_refl)]. cbn [mbind res_bind]. clear F2.
    destruct (fill_hash_frame _ _ _ Eh) as (Ew & _). assert (Ed : w_sections wd = w_sections wc /\ (w_shstrtab wd, w_eh wd) = (w_shstrtab wc, w_eh wc) /\ w_strtab wd = w_strtab wc /\ w_symtab wd = w_symtab wc /\ w_dynsym wd = w_dynsym wc) by (rewrite Ew; done).
    clear Ew Eh. destruct Ed as (Ed1 & Ed2 & Ed3 & Ed4 & Ed5).
    set (we := wd <| w_sections := (fun s => if sh_type (sc_sh s) =? SHT_DYNSYM then s else sec_expand o wd s) <$> w_sections wd |>).
    assert (Ge : good w we).
    { apply (good_secs w wc); [exact Ed2|exact Ed3|change (w_symtab we) with (w_symtab wd); rewrite Ed4; apply keep_refl| | |exact Gc].
      - refine (all_ok_map _ (fun s => if sh_type (sc_sh s) =? SHT_DYNSYM then s else sec_expand o wd s) _ _ _); [intros s; destruct (_ =? _); [apply follows_refl|apply follows_expand]|]. rewrite Ed1. exact (go_secs _ _ Gc).
      - change (w_sections we) with ((fun s => if sh_type (sc_sh s) =? SHT_DYNSYM then s else sec_expand o wd s) <$> w_sections wd). rewrite Ed1. pose proof (go_some _ _ Gc). by destruct (w_sections wc). }
    assert (DF : dyn_fit (w_symtab we) (w_dynsym we) (dyn_sym_indices sorted)).
    { change (w_symtab we) with (w_symtab wd). change (w_dynsym we) with (w_dynsym wd). rewrite Ed4, Ed5, Ec, Et. split.
      - intros n s r Hs Hr. specialize (Ds (RNamed n)). cbn [syt_get] in Ds. rewrite Hs in Ds. destruct (syt_symbols (w_symtab w) !! n) as [s1|] eqn:E; [|discriminate Ds]. cbn in Ds. injection Ds as Ds.
        rewrite Hr in Ds. symmetry in Ds || idtac. destruct (ti_link _ TI _ _ r E) as (m & d & -> & Hm & _); [congruence|]. eauto.
      - intros m [d Hd]. apply (index_there _ _ d); [apply I0; eauto|]. exact (proj1 (ti_dyn _ TI _ _ Hd)). }
    clearbody we. destruct (fine_dynrels o sorted we DF) as [F3 K3]. destruct (build_dynrels o sorted we) as [wf|e|p] eqn:Eb; [|split; [discriminate|intros ? Q; discriminate Q]|exfalso; exact (F3 p eq_refl)]. cbn [mbind res_bind]. clear F3.
    specialize (K3 _ eq_refl). assert (Ef : w_sections wf = w_sections we /\ (w_shstrtab wf, w_eh wf) = (w_shstrtab we, w_eh we) /\ w_strtab wf = w_strtab we) by (unfold build_dynrels in Eb; apply bind_Ok in Eb as (x & _ & [= <-]); done). clear Eb DF. destruct Ef as (Ef1 & Ef2 & Ef3).
    set (wg := wf <| w_sections := _ |>). assert (Gg : good w wg).
    { apply (good_secs w we); [exact Ef2|exact Ef3|exact K3| | |exact Ge].
      - apply all_ok_upd; [intros s; apply follows_size|]. apply all_ok_upd; [intros s; apply follows_size|]. rewrite Ef1. exact (go_secs _ _ Ge).
      - apply upd_some, upd_some. rewrite Ef1. exact (go_some _ _ Ge). }
    clearbody wg. destruct (fine_size_dynamic w wg (go_shstr _ _ Gg) (go_secs _ _ Gg)) as [F4 K4]. split; [exact F4|]. intros w1 H1. destruct (K4 _ H1) as (Q1 & Q2 & Q3 & Q4).
    apply (good_secs w wg); [exact Q2|exact Q4|rewrite Q3; apply keep_refl|exact Q1| |exact Gg].
    unfold size_dynamic in H1. apply bind_Ok in H1 as (x & _ & [= <-]). cbn [w_sections set]. apply upd_some. exact (go_some _ _ Gg).
  Qed.
End sizing.

(** * Layout *)
Lemma sort_fine w0 w o : valid_oracle o -> good w0 w -> w_sections w <> [] ->
  (exists secs, sort_sections o (w_sections w) = Ok secs /\ good w0 (w <| w_sections := secs |>)).
Proof.
  intros V G Hn. destruct (w_sections w) as [|n rest] eqn:E; [contradiction|]. eexists. split; [reflexivity|]. pose proof (go_secs _ _ G) as HG. rewrite E in HG. destruct G as [_ _ C D K L]. split; [|by unfold set_indices|exact C|exact D|exact K|exact L].
  cbn [w_sections set]. unfold set_indices. intros s Hs. apply elem_of_lookup_imap in Hs as (i & x & -> & Hx). apply elem_of_list_lookup_2 in Hx.
  eapply ok_follows; [|apply HG]; [|apply elem_of_cons in Hx as [-> |Hx]; [left|right]; [rewrite <- (proj1 (vo_sort _ V rest)); exact Hx] || exact Hx]. by apply follows_same.
Qed.
Lemma layout_step_fine w0 st s : ok_section w0 s -> fine (layout_step (w_shstrtab w0) st s) /\ forall st' s', layout_step (w_shstrtab w0) st s = Ok (st', s') -> follows s s'.
Proof.
  intros H. pose proof (follows_place st s) as F. unfold layout_step. destruct (layout_place st s) as [st1 s1]. cbn [snd] in F. pose proof (ok_follows _ _ _ F H) as [(n & Hn & _) _].
  assert (E : exists ty, p_type_of (w_shstrtab w0) (sc_sh s1) = Ok ty) by (unfold p_type_of; rewrite Hn; cbn [unwrap mbind res_bind]; destruct (_ =? _); eauto).
  destruct E as [ty ->]. cbn [mbind res_bind]. split; destruct ty; try discriminate; intros st' s' E; injection E as _ <-; exact F.
Qed.
Lemma headers_fine w0 w : good w0 w -> fine (generate_program_headers w) /\ forall w', generate_program_headers w = Ok w' -> good w0 w' /\ w_program_headers w' <> [].
Proof.
  intros G. pose proof (go_secs _ _ G) as HG. unfold generate_program_headers. destruct (w_sections w) as [|n rest] eqn:E; [destruct (go_some _ _ G E)|].
  assert (HL : forall st s, s ∈ rest -> fine (layout_step (w_shstrtab w) st s) /\ forall st' s', layout_step (w_shstrtab w) st s = Ok (st', s') -> follows s s') by (intros st s Hs; rewrite (go_shstr _ _ G); apply layout_step_fine, HG; by right).
  split.
  - apply fine_bind; [|intros [? ?] _; discriminate]. apply (fine_mapM_st (fun _ => True)); [exact I|]. intros st s Hs _. split; [apply (HL st s Hs)|done].
  - intros w' H. apply bind_Ok in H as ([st rest'] & H & [= <-]). split; [|by cbn]. apply (mapM_st_inv (fun _ => True) follows) in H as [_ HF]; [| |exact I].
    + apply (good_secs w0 w); [reflexivity|reflexivity|apply keep_refl| |by cbn|exact G]. cbn [w_sections set]. apply (all_ok_F2 _ (n :: rest)); [constructor; [apply follows_refl|exact HF]|exact HG].
    + intros st0 s st1 s1 Hs _ H0. split; [exact I|]. exact (proj2 (HL st0 s Hs) _ _ H0).
Qed.
Lemma entries_fine w0 w : good w0 w -> fine (add_dyn_entries w) /\ forall w', add_dyn_entries w = Ok w' -> good w0 w' /\ w_program_headers w' = w_program_headers w.
Proof.
  intros G. unfold add_dyn_entries. rewrite (go_shstr _ _ G). split.
  - apply fine_bind; [|discriminate]. apply (fine_foldM (fun _ => True)); [exact I|]. intros n s Hs _. split; [|done]. apply fine_bind; [|discriminate]. by apply fine_dyn_entries, (go_secs _ _ G).
  - intros w' H. apply bind_Ok in H as (x & _ & [= <-]). split; [|reflexivity]. by apply (good_secs w0 w); [reflexivity|reflexivity|apply keep_refl|apply (go_secs _ _ G)|apply (go_some _ _ G)|].
Qed.
Lemma alter_relocs f i (cs : list chunk) : (forall c, c_relocations (f c) = c_relocations c) -> c_relocations <$> alter f i cs = c_relocations <$> cs.
Proof.
  intros Hf. apply list_eq. intros j. rewrite !list_lookup_fmap. destruct (decide (i = j)) as [->|Hne]; [rewrite list_lookup_alter|by rewrite list_lookup_alter_ne]. destruct (cs !! j) as [c|]; [|done]. cbn. by rewrite Hf.
Qed.
Lemma symbol_relocs r c : c_relocations (chunk_add_symbol r c) = c_relocations c.
Proof. unfold chunk_add_symbol. by destruct (decide _). Qed.
Lemma follows_data i d s : follows s (set_chunk_data i d s).
Proof. apply follows_same; [reflexivity|]. by apply alter_relocs. Qed.
Lemma patch_good w0 w w' : good w0 w -> patch_plt_and_got_plt w = Ok w' -> good w0 w' /\ w_program_headers w' = w_program_headers w.
Proof.
  intros G H. unfold patch_plt_and_got_plt, patch_plt_and_got_plt_in in H. apply bind_Ok in H as (s1 & _ & H). apply bind_Ok in H as (s2 & _ & H). cbv zeta in H. apply bind_Ok in H as (c1 & _ & H). apply bind_Ok in H as (d1 & _ & H).
  destruct (w_got_plt w) as [|x k].
  - injection H as <-. split; [|reflexivity]. apply (good_secs w0 w); [reflexivity|reflexivity|apply keep_refl| | |exact G]; cbn [w_sections set]; [apply all_ok_upd; [intros s; apply follows_data|apply (go_secs _ _ G)]|apply upd_some, (go_some _ _ G)].
  - apply bind_Ok in H as (c2 & _ & H). apply bind_Ok in H as ([d2 d3] & _ & [= <-]). split; [|reflexivity]. apply (good_secs w0 w); [reflexivity|reflexivity|apply keep_refl| | |exact G]; cbn [w_sections set].
    + do 2 (apply all_ok_upd; [intros s; apply follows_data|]). apply (go_secs _ _ G).
    + apply upd_some, upd_some, (go_some _ _ G).
Qed.

(** * Linker-defined symbols, relocations and the header *)
Lemma get_entry t name e : st_get t name = Some e -> exists i, (name, (i, en_offset e)) ∈ stt_names t.
Proof. unfold st_get. destruct (ModelTables.assoc name (stt_names t)) as [[i o]|] eqn:E; [|discriminate]. intros [= <-]. exists i. by apply assoc_Some_elem. Qed.
Lemma sh_name_at t name n : st_reach t -> stt_total_len t < 2 ^ 32 -> st_sh_name t name = Some n -> st_name_at t n = Some name.
Proof.
  intros HR Ht. unfold st_sh_name. destruct (ModelTables.assoc name (stt_names t)) as [[i o]|] eqn:E; [|discriminate]. intros [= <-]. apply assoc_Some_elem, elem_of_list_lookup in E as [j Hj]. by eapply entry_name.
Qed.
Section special.
  Context (wd0 : world) (l0 : linker) (w0 : writer) (T : tied wd0 l0 w0) (R : st_reach (w_shstrtab w0)) (Ht : stt_total_len (w_shstrtab w0) < 2 ^ 32).
  Collection spc := wd0 l0 w0 T R Ht.
  Lemma named_there name e t : keep (w_symtab w0) t -> name <> "" -> st_get (w_strtab w0) name = Some e -> is_Some (syt_get t (RNamed (u32 (en_offset e)))).
  Proof using spc. intros HK Hne H. apply get_entry in H as [i Hi]. apply HK. exact (td_names _ _ _ T _ _ _ Hi Hne). Qed.
  Lemma bound_fine a b t s : keep (w_symtab w0) t -> b <> "" -> sc_chunks s <> [] ->
    fine (bound_symbols (w_strtab w0) a b t s) /\ forall t' s', bound_symbols (w_strtab w0) a b t s = Ok (t', s') -> keep (w_symtab w0) t' /\ follows s s'.
  Proof using spc.
    intros HK Hb Hc. unfold bound_symbols. destruct (sc_chunks s) as [|c cs] eqn:Ec; [contradiction|].
    set (m := match st_get (w_strtab w0) a with Some e => _ | None => Ok s end).
    assert (M : exists s1, m = Ok s1 /\ sc_chunks s1 <> [] /\ follows s s1).
    { unfold m. destruct (st_get (w_strtab w0) a) as [e|]; [|exists s; rewrite Ec; split; [done|]; split; [done|apply follows_refl]]. cbn [index lookup list_lookup mbind res_bind]. eexists. split; [reflexivity|]. split; [cbn [sc_chunks set]; done|]. apply follows_same; [reflexivity|]. cbn [sc_chunks set]. rewrite Ec. exact (alter_relocs (chunk_add_symbol _) 0%nat (c :: cs) (symbol_relocs _)). }
    destruct M as (s1 & -> & Hc1 & Hn1). cbn [mbind res_bind]. destruct (st_get (w_strtab w0) b) as [e|] eqn:Eb.
    - destruct (named_there b e t HK Hb Eb) as [y Hy]. cbv zeta. rewrite Hy. cbn [unwrap mbind res_bind]. destruct (sc_chunks s1) as [|c1 cs1] eqn:Ec1; [contradiction|]. split; [discriminate|].
      intros t' s' [= <- <-]. split; [refine (keep_trans _ t _ HK (keep_modify t (RNamed (u32 (en_offset e))) _))|]. eapply follows_trans; [exact Hn1|]. apply follows_same; [reflexivity|]. cbn [sc_chunks set]. rewrite Ec1. apply alter_relocs, symbol_relocs.
    - split; [discriminate|]. intros t' s' [= <- <-]. done.
  Qed.
  Lemma special_fine w : good w0 w -> fine (handle_special_symbols w) /\ forall w', handle_special_symbols w = Ok w' -> good w0 w' /\ w_program_headers w' = w_program_headers w.
  Proof using spc.
    intros G. unfold handle_special_symbols.
    assert (G1 : good w0 (set_got_symbol w) /\ w_program_headers (set_got_symbol w) = w_program_headers w).
    { unfold set_got_symbol. destruct (st_get _ _); [|done]. split; [|reflexivity]. apply (good_secs w0 w); [reflexivity|reflexivity|apply keep_modify|apply (go_secs _ _ G)|apply (go_some _ _ G)|exact G]. }
    destruct G1 as [G1 Eph]. set (w1 := set_got_symbol w) in *. clearbody w1. cbv zeta. rewrite (go_str _ _ G1), (go_shstr _ _ G1). set (skip := [_; _]).
    assert (ST : forall t s, s ∈ w_sections w1 -> keep (w_symtab w0) t -> fine (special_step (w_strtab w0) (w_shstrtab w0) skip t s) /\ forall t' s', special_step (w_strtab w0) (w_shstrtab w0) skip t s = Ok (t', s') -> keep (w_symtab w0) t' /\ follows s s').
    { intros t s Hs HK. destruct (go_secs _ _ G1 s Hs) as [(n & Hn & Hc) _]. unfold special_step.
      destruct (bool_decide (_ ∈ skip)); [split; [discriminate|]; intros t' s' [= <- <-]; split; [exact HK|apply follows_refl]|].
      assert (C : forall x a b, x ∈ arrays -> b <> "" -> st_sh_name (w_shstrtab w0) x = Some (sh_name (sc_sh s)) -> fine (bound_symbols (w_strtab w0) a b t s) /\ forall t' s', bound_symbols (w_strtab w0) a b t s = Ok (t', s') -> keep (w_symtab w0) t' /\ follows s s').
      { intros x a b Hx Hb Ex. apply (sh_name_at _ _ _ R Ht) in Ex. rewrite Hn in Ex. injection Ex as ->. destruct (bound_fine a b t s HK Hb (Hc Hx)) as [B1 B2]. split; [exact B1|].
        intros t' s' E. exact (B2 _ _ E). }
      destruct (bool_decide_reflect (st_sh_name (w_shstrtab w0) ".init_array" = Some (sh_name (sc_sh s)))) as [Ei|_]; [apply (C ".init_array"); [by left|discriminate|exact Ei]|].
      destruct (bool_decide_reflect (st_sh_name (w_shstrtab w0) ".fini_array" = Some (sh_name (sc_sh s)))) as [Ei|_]; [apply (C ".fini_array"); [by right; left|discriminate|exact Ei]|].
      split; [discriminate|]. intros t' s' [= <- <-]. split; [exact HK|apply follows_refl]. }
    split.
    - apply fine_bind; [|intros [? ?] _; discriminate]. apply (fine_mapM_st (keep (w_symtab w0))); [exact (go_keep _ _ G1)|]. intros t s Hs HK. destruct (ST t s Hs HK) as [S1 S2]. split; [exact S1|]. intros t' s' E. by apply (S2 _ _ E).
    - intros w' H. apply bind_Ok in H as ([t secs] & H & [= <-]). split; [|exact Eph].
      apply (mapM_st_inv (keep (w_symtab w0)) follows) in H as [HK HF]; [| |exact (go_keep _ _ G1)].
      + split; cbn [w_sections w_shstrtab w_strtab w_symtab set]; [exact (all_ok_F2 _ _ _ HF (go_secs _ _ G1))| |exact (go_shstr _ _ G1)|exact (go_str _ _ G1)|exact HK|exact (go_eh _ _ G1)].
        intros E. rewrite E in HF. apply Forall2_nil_inv_r in HF. exact (go_some _ _ G1 HF).
      + intros t1 s t2 s' Hs HK1 E. exact (proj2 (ST t1 s Hs HK1) _ _ E).
  Qed.
  Lemma header_place w p : good w0 w -> w_program_headers w <> [] -> finish_header w = Panic p -> p = POverflow /\ 2 ^ 16 <= u16 (blen (w_program_headers w)) * e_phentsize (w_eh w).
  Proof using spc.
    intros G Hph. unfold finish_header. rewrite (go_str _ _ G). set (m := match st_get _ _ with Some e => _ | None => _ end).
    assert (M : exists v, m = Ok v).
    { unfold m. destruct (st_get (w_strtab w0) "_start") as [e|] eqn:E; [|eauto]. destruct (named_there "_start" e (w_symtab w) (go_keep _ _ G) ltac:(discriminate) E) as [y ->]. cbn [unwrap mbind res_bind]. eauto. }
    destruct M as [v ->]. cbn [mbind res_bind]. destruct (w_program_headers w) as [|ph phs]; [contradiction|]. cbv zeta. cbn [e_phnum e_phentsize set].
    destruct (2 ^ 16 <=? _) eqn:E; [|discriminate]. intros [= <-]. apply N.leb_le in E. done.
  Qed.
End special.
Lemma foldM_state {S A} (I : S -> Prop) (f : S -> A -> res S) k s p : I s -> (forall s a s', I s -> f s a = Ok s' -> I s') -> foldM f k s = Panic p -> exists s' a, a ∈ k /\ I s' /\ f s' a = Panic p.
Proof.
  intros H0 HI. revert s H0. induction k as [|a k IH]; intros s H0; cbn [foldM]; [discriminate|]. destruct (f s a) as [s1|e|q] eqn:E; cbn [mbind res_bind]; [|discriminate|intros [= ->]; exists s, a; split; [left|split; [exact H0|exact E]]].
  intros H. destruct (IH s1 (HI _ _ _ H0 E) H) as (s' & x & Hx & Ix & Ex). exists s', x. split; [by right|split; [exact Ix|exact Ex]].
Qed.
Lemma foldM_place {S A} (f : S -> A -> res S) k s p : foldM f k s = Panic p -> exists s' a, a ∈ k /\ f s' a = Panic p.
Proof.
  revert s. induction k as [|a k IH]; intros s; cbn [foldM]; [discriminate|]. destruct (f s a) as [s1|e|q] eqn:E; cbn [mbind res_bind]; [|discriminate|intros [= ->]; exists s, a; split; [left|exact E]].
  intros H. destruct (IH _ H) as (s' & x & Hx & Ex). exists s', x. split; [by right|exact Ex].
Qed.
Lemma mapM_res_place {A B} (f : A -> res B) k p : mapM_res f k = Panic p -> exists a, a ∈ k /\ f a = Panic p.
Proof.
  induction k as [|a k IH]; cbn [mapM_res]; [discriminate|]. destruct (f a) as [b|e|q] eqn:E; cbn [mbind res_bind]; [|discriminate|intros [= ->]; exists a; split; [left|exact E]].
  destruct (mapM_res f k) as [bs|e|q] eqn:Ek; cbn [mbind res_bind]; [discriminate|discriminate|]. intros [= ->]. destruct (IH eq_refl) as (x & Hx & Ex). exists x. split; [by right|exact Ex].
Qed.
(** Every symbol of [t'] is one of [t] but for its section and value. *)
Definition alikes (t t' : symtab) : Prop := forall r s', syt_get t' r = Some s' -> exists s, syt_get t r = Some s /\ alike s s'.
Lemma alikes_refl t : alikes t t.
Proof. intros r s H. exists s. split; [exact H|]. repeat split. Qed.
Lemma alikes_trans a b c : alikes a b -> alikes b c -> alikes a c.
Proof. intros H1 H2 r s H. destruct (H2 r s H) as (s1 & K1 & A1 & A2 & A3 & A4 & A5). destruct (H1 r s1 K1) as (s0 & K0 & B1 & B2 & B3 & B4 & B5). exists s0. split; [exact K0|]. unfold alike. split; [congruence|]. split; [congruence|]. split; [congruence|]. split; congruence. Qed.
Lemma alikes_fold {A} (f : symtab -> A -> symtab) (k : list A) t : (forall t a, alikes t (f t a)) -> alikes t (fold_left f k t).
Proof. intros Hf. revert t. induction k as [|a k IH]; intros t; cbn [fold_left]; [apply alikes_refl|]. eapply alikes_trans; [apply Hf|apply IH]. Qed.
Lemma alikes_patch s t : alikes t (patch_symbol_values s t).
Proof.
  unfold patch_symbol_values. generalize (sh_addr (sc_sh s)). revert t. induction (sc_chunks s) as [|c cs IH]; intros t base; cbn [patch_chunks]; [apply alikes_refl|].
  eapply alikes_trans; [|apply IH]. apply alikes_fold. intros t' r r' s' H. rewrite syt_get_modify in H. destruct (decide (r' = r)) as [->|]; [|exists s'; split; [exact H|repeat split]].
  destruct (syt_get t' r) as [s0|]; [|discriminate H]. injection H as <-. exists s0. split; [reflexivity|]. repeat split.
Qed.
Lemma relocs_place w p : handle_relocations w = Panic p ->
  exists s c t, s ∈ drop 1 (w_sections w) /\ c ∈ sc_chunks s /\ keep (w_symtab w) t /\ alikes (w_symtab w) t /\
    chunk_apply_relocations (sh_addr (hdr_of id_got (w_sections w))) (sh_addr (hdr_of id_plt (w_sections w))) t (w_dynsym w) c = Panic p.
Proof.
  unfold handle_relocations. cbv zeta. set (t := fold_left _ _ _). assert (HK : keep (w_symtab w) t) by (apply keep_fold; intros t1 s; destruct (relocatable w s); [apply keep_patch|apply keep_refl]).
  assert (HA : alikes (w_symtab w) t) by (apply alikes_fold; intros t1 s; destruct (relocatable w s); [apply alikes_patch|apply alikes_refl]).
  clearbody t. intros H. destruct (mapM_res _ _) as [secs|e|q] eqn:E in H; cbn [mbind res_bind] in H; [discriminate H|discriminate H|]. injection H as ->. apply mapM_res_place in E as (s & Hs & E).
  destruct (relocatable _ s); [|discriminate E]. destruct (mapM_res _ (sc_chunks s)) as [cs|e|q] eqn:E2 in E; cbn [mbind res_bind] in E; [discriminate E|discriminate E|]. injection E as ->.
  apply mapM_res_place in E2 as (c & Hc & E2). exists s, c, t. split; [exact Hs|]. split; [exact Hc|]. split; [exact HK|]. split; [exact HA|exact E2].
Qed.
Lemma mapM_res_F2 {A B} (P : A -> B -> Prop) (f : A -> res B) k k' : (forall a b, f a = Ok b -> P a b) -> mapM_res f k = Ok k' -> Forall2 P k k'.
Proof.
  intros Hf. revert k'. induction k as [|a k IH]; intros k' H; cbn [mapM_res] in H; [injection H as <-; constructor|]. apply bind_Ok in H as (b & H1 & H). apply bind_Ok in H as (bs & H2 & [= <-]). constructor; [by apply Hf|by apply IH].
Qed.
Lemma list_fmap_eq_F2 (k k' : list chunk) : Forall2 (fun c c' => c_relocations c = c_relocations c') k k' -> c_relocations <$> k = c_relocations <$> k'.
Proof. induction 1 as [|c c' k k' E _ IH]; [done|]. rewrite !fmap_cons. by rewrite E, IH. Qed.
Lemma relocs_good w0 w w' : good w0 w -> handle_relocations w = Ok w' -> good w0 (compute_tables w') /\ w_program_headers (compute_tables w') = w_program_headers w.
Proof.
  intros G H. assert (G1 : good w0 w' /\ w_program_headers w' = w_program_headers w).
  { unfold handle_relocations in H. cbv zeta in H. apply bind_Ok in H as (secs & H & [= <-]). split; [|reflexivity].
    assert (HF : Forall2 follows (drop 1 (w_sections w)) secs).
    { refine (mapM_res_F2 _ _ _ _ _ H). intros s s' H1. destruct (relocatable _ s); [|injection H1 as <-; apply follows_refl].
      apply bind_Ok in H1 as (cs & H1 & [= <-]). apply follows_same; [reflexivity|]. cbn [sc_chunks set]. apply (mapM_res_F2 (fun c c' => c_relocations c = c_relocations c')) in H1; [symmetry; by apply list_fmap_eq_F2|].
      intros c c' E. unfold chunk_apply_relocations in E. by apply bind_Ok in E as (d & _ & [= <-]). }
    apply (good_secs w0 w); [reflexivity|reflexivity| | | |exact G].
    - cbn [w_symtab set]. apply keep_fold. intros t1 s. destruct (relocatable w s); [apply keep_patch|apply keep_refl].
    - cbn [w_sections set]. apply (all_ok_F2 _ (w_sections w)); [|exact (go_secs _ _ G)]. rewrite <- (take_drop 1 (w_sections w)) at 1. apply Forall2_app; [|exact HF]. apply Forall2_same_length_lookup_2; [reflexivity|]. intros i a b Ha Hb. rewrite Ha in Hb. injection Hb as ->. apply follows_refl.
    - cbn [w_sections set]. pose proof (go_some _ _ G). by destruct (w_sections w). }
  destruct G1 as [G1 <-]. split; [|reflexivity]. unfold compute_tables. apply (good_secs w0 w'); [reflexivity|reflexivity|apply keep_refl| | |exact G1]; cbn [w_sections set].
  - do 6 (apply all_ok_upd; [intros s; apply follows_chunk|]). exact (go_secs _ _ G1).
  - do 6 apply upd_some. exact (go_some _ _ G1).
Qed.

(** * Where a crash is *)
Lemma compute_place wd lo l U fuel wr p : valid_oracle (lo_writer lo) -> sound_inputs wd l -> names_within wd l U -> room U <= 2 ^ 32 -> plain_libs wd l ->
  (forall e sym name, is_input wd l e -> sym ∈ eo_syms e -> typ sym = 3 -> eo_strtab e (st_name sym) = Some name -> name = "") ->
  resolve wd lo l fuel = Ok wr -> stt_total_len (w_shstrtab wr) < 2 ^ 32 -> 12 * stt_total_len (w_dynstr wr) < 2 ^ 32 -> compute_sections (lo_writer lo) wr = Panic p ->
  exists w1 secs w3 w4, assign_sizes (lo_writer lo) wr = Ok w1 /\ sort_sections (lo_writer lo) (w_sections w1) = Ok secs /\ generate_program_headers (w1 <| w_sections := secs |>) = Ok w3 /\ add_dyn_entries w3 = Ok w4 /\
    (patch_plt_and_got_plt w4 = Panic p \/ exists w5 w6, patch_plt_and_got_plt w4 = Ok w5 /\ handle_special_symbols w5 = Ok w6 /\
      ((exists s c rel r rel0, s ∈ w_sections w6 /\ c ∈ sc_chunks s /\ (rel, r) ∈ c_relocations c /\ read_from wd l rel0 /\ came (rel0, r) (rel, r) /\
          (c_address c = None /\ p = PUnwrap \/
           exists a data sym0 sym, c_address c = Some a /\ length data = length (c_data c) /\ syt_get (w_symtab w6) r = Some sym0 /\ alike sym0 sym /\ apply_relocation a data rel sym (w_dynsym w6) (sh_addr (hdr_of id_got (w_sections w6))) (sh_addr (hdr_of id_plt (w_sections w6))) = Panic p)) \/
       p = POverflow /\ 2 ^ 16 <= u16 (blen (w_program_headers w4)) * 56)).
Proof.
  intros V HS HU HR PL HN Er F1 F2 H. destruct (resolve_winv _ _ _ _ _ Er) as (w0 & Hw0 & HI).
  pose proof (resolve_tied wd l HN lo fuel wr Er) as T. pose proof (resolve_tables wd l PL lo fuel wr Er) as TI. pose proof (resolve_hashes _ _ _ _ _ Er) as HH.
  destruct (read_ok _ _ _ _ _ _ _ HS HU HR Hw0 Er F1) as [A1 A2]. assert (G0 : good wr wr) by (split; [exact A1|exact A2|reflexivity|reflexivity|apply keep_refl|reflexivity]).
  destruct (winv_const _ _ _ _ Hw0 HI) as (Eeh & _). unfold compute_sections, assign_section_addresses in H.
  destruct (sizes_fine wd l wr (lo_writer lo) V T TI HH G0 F2) as [S1 S2]. destruct (assign_sizes (lo_writer lo) wr) as [w1|e|q]; [|discriminate H|destruct (S1 q eq_refl)]. specialize (S2 _ eq_refl). cbn [mbind res_bind] in H. unfold assign_layout in H.
  destruct (sort_fine _ _ (lo_writer lo) V S2 (go_some _ _ S2)) as (secs & Es & G2). rewrite Es in H. cbn [mbind res_bind] in H.
  destruct (headers_fine _ _ G2) as [H3 G3]. destruct (generate_program_headers (w1 <| w_sections := secs |>)) as [w3|e|q] eqn:E3; [|discriminate H|destruct (H3 q eq_refl)]. destruct (G3 _ eq_refl) as [G3' P3]. cbn [mbind res_bind] in H. clear H3 G3.
  destruct (entries_fine _ _ G3') as [H4 G4]. destruct (add_dyn_entries w3) as [w4|e|q] eqn:E4; [|discriminate H|destruct (H4 q eq_refl)]. destruct (G4 _ eq_refl) as [G4' P4]. cbn [mbind res_bind] in H. clear H4 G4.
  exists w1, secs, w3, w4. split; [reflexivity|]. split; [exact Es|]. split; [exact E3|]. split; [exact E4|].
  destruct (patch_plt_and_got_plt w4) as [w5|e|q] eqn:E5; [|discriminate H|left; cbn [mbind res_bind] in H; injection H as ->; reflexivity]. right. cbn [mbind res_bind] in H. destruct (patch_good _ _ _ G4' E5) as [G5 P5].
  destruct (special_fine wd l wr T (wi_st _ _ _ HI) F1 w5 G5) as [H6 G6]. destruct (handle_special_symbols w5) as [w6|e|q] eqn:E6; [|discriminate H|destruct (H6 q eq_refl)]. destruct (G6 _ eq_refl) as [G6' P6]. cbn [mbind res_bind] in H. clear H6 G6.
  exists w5, w6. split; [reflexivity|]. split; [exact E6|]. destruct (handle_relocations w6) as [w7|e|q] eqn:E7; [|discriminate H|].
  - right. cbn [mbind res_bind] in H. destruct (relocs_good _ _ _ G6' E7) as [G7 P7]. destruct (header_place wd l wr T (wi_st _ _ _ HI) F1 _ p G7) as [-> Hp]; [rewrite P7, P6, P5, P4; exact P3|exact H|].
    split; [reflexivity|]. rewrite P7, P6, P5, (go_eh _ _ G7), Eeh in Hp. exact Hp.
  - left. cbn [mbind res_bind] in H. injection H as ->. apply relocs_place in E7 as (s & c & t & Hs & Hc & HK & HA & Ha). assert (Hs' : s ∈ w_sections w6) by (rewrite <- (take_drop 1 (w_sections w6)); apply elem_of_app; by right).
    unfold chunk_apply_relocations in Ha. destruct (foldM _ _ _) as [d|e|q] eqn:Ef in Ha; [discriminate Ha|discriminate Ha|]. cbn [mbind res_bind] in Ha. injection Ha as ->.
    apply (foldM_state (fun d => length d = length (c_data c))) in Ef as (data & [rel r] & Hx & Hd & Ef); [|reflexivity|intros d [rel r] d' Hd Ed; apply bind_Ok in Ed as (a & _ & Ed); apply bind_Ok in Ed as (sym & _ & Ed); rewrite <- Hd; exact (eq_sym (proj1 (frame_one _ _ _ _ _ _ _ _ Ed)))]. destruct (proj2 (go_secs _ _ G6' s Hs') c (rel, r) Hc Hx) as ([rel0 r0] & (s0 & c0 & Hs0 & Hc0 & Hx0) & C). assert (r0 = r) as -> by (symmetry; exact (proj1 C)).
    destruct (td_refs _ _ _ T _ _ _ Hs0 Hc0 Hx0) as [Q1 Q2]. exists s, c, rel, r, rel0. split; [exact Hs'|]. split; [exact Hc|]. split; [exact Hx|]. split; [exact Q2|]. split; [exact C|].
    destruct (c_address c) as [a|]; cbn [unwrap mbind res_bind] in Ef; [|left; injection Ef as <-; done]. right. assert (Hr : is_Some (syt_get t r)) by (apply HK, (go_keep _ _ G6'); exact Q1).
    destruct Hr as [sym Hsym]. rewrite Hsym in Ef. cbn [unwrap mbind res_bind] in Ef. destruct (HA _ _ Hsym) as (sym0 & K0 & K1). exists a, data, sym0, sym. split; [reflexivity|]. split; [exact Hd|]. split; [exact K0|]. split; [exact K1|exact Ef].
Qed.
