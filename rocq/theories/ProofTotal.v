(** Reading sound inputs never crashes. *)
From Verif Require Export SpecTotal ProofComplete.
From Verif Require Import ProofResolve ProofWriter ProofInput ProofErrors ProofTables ProofBase.

Definition fine {A} (m : res A) : Prop := forall p, m <> Panic p.
Lemma fine_bind {A B} (m : res A) (g : A -> res B) : fine m -> (forall a, m = Ok a -> fine (g a)) -> fine (m ≫= g).
Proof. intros H1 H2. destruct m as [a|e|p]; cbn [mbind res_bind]; [by apply H2|discriminate|exfalso; by apply (H1 p)]. Qed.
Lemma fine_foldM {S A} (I : S -> Prop) (g : S -> A -> res S) k s : I s -> (forall s a, a ∈ k -> I s -> fine (g s a) /\ forall s', g s a = Ok s' -> I s') -> fine (foldM g k s).
Proof.
  revert s. induction k as [|a k IH]; intros s Hs H; cbn [foldM]; [discriminate|]. destruct (H s a) as [H1 H2]; [left|exact Hs|].
  apply fine_bind; [exact H1|]. intros s' E. apply IH; [by apply H2|]. intros s0 b Hb. apply H. by right.
Qed.
Lemma fine_some {A} (o : option A) : is_Some o -> fine (unwrap o).
Proof. intros [x ->]. discriminate. Qed.

(** * Offsets of names *)
Lemma emit_size (k : list (string * (N * N))) : blen (emit k) = foldr (fun n k => N.of_nat (String.length n) + 1 + k) 0 k.*1.
Proof.
  induction k as [|[n x] k IH]; [reflexivity|]. change (emit ((n, x) :: k)) with (ser_name n ++ emit k). rewrite blen_app, IH. cbn [fmap list_fmap foldr fst].
  unfold blen. rewrite ser_name_length. lia.
Qed.
Lemma room_mono (a b : list string) : a ⊆+ b -> foldr (fun n k => N.of_nat (String.length n) + 1 + k) 0 a <= foldr (fun n k => N.of_nat (String.length n) + 1 + k) 0 b.
Proof. induction 1; cbn [foldr]; lia. Qed.
Lemma names_room U w : up_ok U w -> room U <= 2 ^ 32 -> stt_total_len (w_strtab w) <= 2 ^ 32.
Proof.
  intros [H1 H2 _] HU. rewrite (ok_total _ H1), emit_size. etrans; [apply (room_mono _ ("" :: U))|exact HU].
  apply NoDup_submseteq; [exact (ok_nodup _ H1)|]. intros n Hn. apply H2. apply elem_of_list_fmap in Hn as ([n' [i o]] & -> & Hn). cbn [fst].
  unfold st_get. rewrite (assoc_elem_Some _ _ _ (ok_nodup _ H1) Hn). eauto.
Qed.
Lemma name_there t n i o : (n, (i, o)) ∈ stt_names t -> is_Some (st_name_at t o).
Proof. intros H. unfold st_name_at. destruct (st_name_in (stt_names t) o) as [k|] eqn:E; [eauto|]. exfalso. exact (name_in_None _ _ _ _ E H). Qed.
Lemma name_stays t t' n tl : stt_names t' = stt_names t ++ tl -> is_Some (st_name_at t n) -> st_name_at t' n = st_name_at t n.
Proof.
  intros E [x Hx]. unfold st_name_at in *. rewrite E, Hx. clear E. induction (stt_names t) as [|[k [i o]] k' IH]; [discriminate Hx|]. cbn [st_name_in app] in *. destruct (o =? n); [exact Hx|by apply IH].
Qed.

Section total.
  Context (wd : world) (l : linker) (U : list string) (w0 : writer).
  Context (HS : sound_inputs wd l) (HU : names_within wd l U) (Hroom : room U <= 2 ^ 32) (Hw0 : writer_new (lk_options l) = Ok w0).
  Collection tot := wd l U w0 HS HU Hroom Hw0.
  Notation n0 := (length (w_sections w0)).
  Record sane (w : writer) : Prop := {
    sa_inv : winv n0 w0 w;
    sa_up : up_ok U w;
    sa_chunks : forall i s, (n0 <= i)%nat -> w_sections w !! i = Some s -> sc_chunks s <> [];
    sa_keys : forall n, is_Some (syt_symbols (w_symtab w) !! n) -> is_Some (st_name_at (w_strtab w) n) }.
  Record grows (w w' : writer) : Prop := {
    gr_secs : forall i s, w_sections w !! i = Some s -> exists s', w_sections w' !! i = Some s' /\ (length (sc_chunks s) <= length (sc_chunks s'))%nat;
    gr_names : exists tl, stt_names (w_strtab w') = stt_names (w_strtab w) ++ tl;
    gr_keys : forall n, is_Some (syt_symbols (w_symtab w) !! n) -> is_Some (syt_symbols (w_symtab w') !! n) }.
  Definition valid (e : elf_obj) (i : nat) (w : writer) (sr : section_ref) : Prop :=
    exists s, w_sections w !! sr_section sr = Some s /\ (sr_chunk sr < length (sc_chunks s))%nat.
  Definition any (e : elf_obj) (sym : Sym) (w : writer) (r : symref) : Prop := True.
  Definition known (w : writer) (r : symref) : Prop :=
    exists n, r = RNamed n /\ is_Some (syt_symbols (w_symtab w) !! n).

  Lemma grows_refl w : grows w w.
  Proof using tot. constructor; [eauto|exists []; by rewrite app_nil_r|done]. Qed.
  Lemma grows_trans a b c : grows a b -> grows b c -> grows a c.
  Proof using tot.
    intros [A1 [ta A2] A3] [B1 [tb B2] B3]. constructor; [|exists (ta ++ tb); by rewrite B2, A2, app_assoc|auto].
    intros i s H. destruct (A1 i s H) as (s1 & H1 & L1). destruct (B1 _ _ H1) as (s2 & H2 & L2). exists s2. split; [exact H2|lia].
  Qed.
  Lemma valid_mono e i w w' sr : sane w -> sane w' -> grows w w' -> valid e i w sr -> valid e i w' sr.
  Proof using tot. intros _ _ G (s & H1 & H2). destruct (gr_secs _ _ G _ _ H1) as (s' & H3 & H4). exists s'. split; [exact H3|lia]. Qed.
  Lemma any_mono e sym w w' r : sane w -> sane w' -> grows w w' -> any e sym w r -> any e sym w' r.
  Proof using tot. done. Qed.
  Lemma known_mono w w' r : grows w w' -> known w r -> known w' r.
  Proof using tot. intros G (n & -> & H). exists n. split; [reflexivity|]. by apply (gr_keys _ _ G). Qed.

  (** Sections that only grow in place. *)
  Lemma grown_len s s' : grown s s' -> (length (sc_chunks s) <= length (sc_chunks s'))%nat.
  Proof using tot.
    intros (_ & _ & H). destruct (decide (length (sc_chunks s) <= length (sc_chunks s'))%nat) as [|Hlt]; [done|]. exfalso.
    destruct (lookup_lt_is_Some_2 (sc_chunks s) (length (sc_chunks s'))) as [c Hc]; [lia|]. destruct (H _ _ Hc) as (c' & Hc' & _). apply lookup_lt_Some in Hc'. lia.
  Qed.
  Lemma grown_secs k k' : Forall2 grown k k' -> forall i s, k !! i = Some s -> exists s', k' !! i = Some s' /\ (length (sc_chunks s) <= length (sc_chunks s'))%nat.
  Proof using tot. intros H i s Hi. destruct (Forall2_lookup_l _ _ _ _ _ H Hi) as (s' & H1 & H2). exists s'. split; [exact H1|by apply grown_len]. Qed.
  Lemma grown_full k k' : Forall2 grown k k' -> (forall i s, (n0 <= i)%nat -> k !! i = Some s -> sc_chunks s <> []) -> forall i s, (n0 <= i)%nat -> k' !! i = Some s -> sc_chunks s <> [].
  Proof using tot.
    intros H Hk i s Hi Hs. destruct (Forall2_lookup_r _ _ _ _ _ H Hs) as (s' & H1 & H2). apply grown_len in H2. specialize (Hk _ _ Hi H1).
    intros E. rewrite E in H2. destruct (sc_chunks s'); [done|cbn [length] in H2; lia].
  Qed.
  Lemma sane_up w w' : sane w -> winv n0 w0 w' -> w_strtab w' = w_strtab w -> w_symtab w' = w_symtab w -> Forall2 grown (w_sections w) (w_sections w') -> sane w' /\ grows w w'.
  Proof using tot.
    intros [S1 S2 S3 S4] H1 H2 H3 H4. split.
    - constructor; [exact H1|by destruct (up_same U w w' H2 H3 S2)|by eapply grown_full|by rewrite H2, H3].
    - constructor; [by apply grown_secs|exists []; by rewrite H2, app_nil_r|by rewrite H3].
  Qed.

  Lemma t_rel w e idx (rels : list greloc) rel sym sym' r sr w' : sane w -> is_input wd l e -> (idx, rels) ∈ eo_relocs e -> rel ∈ rels ->
    gr_sym rel <> 0 -> eo_syms e !! N.to_nat (gr_sym rel) = Some sym -> idx <> 0 -> valid e (N.to_nat (idx - 1)) w sr ->
    sym' ∈ eo_syms e -> sym_key sym' = sym_key sym -> any e sym' w r ->
    add_relocation w (mkRela (gr_offset rel) (u64 (gr_sym rel * 2^32) + gr_type rel) (default 0%Z (gr_addend rel))) r sr = Ok w' -> sane w' /\ grows w w'.
  Proof using tot.
    intros S _ _ _ _ _ _ _ _ _ _ H. pose proof (winv_reloc _ _ _ _ _ _ _ (sa_inv _ S) H) as HI. unfold add_relocation in H. destruct (_ || _); [discriminate H|].
    apply bind_Ok in H as (secs & Hm & [= <-]). apply mod_chunk_Ok in Hm as (s & c & _ & _ & ->). apply sane_up; [exact S|exact HI|reflexivity|reflexivity|].
    cbn [w_sections set]. apply upd_grown. intros s'. apply alter_grown. done.
  Qed.
  Lemma t_dyn w path e sym name so w' r : sane w -> is_lib wd l path e -> sym ∈ eo_dynsyms e ->
    eo_dynstr e (st_name sym) = Some name -> file_name path = Some so -> is_Some (st_get (w_strtab w) name) ->
    add_dyn_symbol w sym None name path = Ok (w', r) -> sane (add_needed w' so) /\ grows w (add_needed w' so).
  Proof using tot.
    intros S _ _ _ _ Hk H. pose proof (winv_needed _ _ _ so (winv_dyn _ _ _ _ _ _ _ _ _ (sa_inv _ S) H)) as HI.
    destruct (add_dyn_up U w sym name path so w' r (sa_up _ S) Hk H) as (HP & _). pose proof (add_dyn_symbol_strtab _ _ _ _ _ _ _ H) as Est.
    assert (Esec : w_sections (add_needed w' so) = w_sections w').
    { unfold add_needed. destruct (st_get_or_create (w_dynstr w') so) as [t' e']. by destruct (en_new e'). }
    assert (Esym : w_symtab (add_needed w' so) = w_symtab w').
    { unfold add_needed. destruct (st_get_or_create (w_dynstr w') so) as [t' e']. by destruct (en_new e'). }
    assert (G : w_sections w' = w_sections w /\ forall n, is_Some (syt_symbols (w_symtab w') !! n) <-> is_Some (syt_symbols (w_symtab w) !! n)).
    { unfold add_dyn_symbol in H. apply bind_Ok in H as ([[[names t] secs] r1] & Hi & H).
      assert (secs = w_sections w) as ->. { unfold add_symbol_inner in Hi. destruct (st_get_or_create _ _) as [a b]. cbv zeta in Hi. destruct (syt_add_symbol _ _ _ _ _) as [[t1 r2]|]; [|discriminate Hi]. by injection Hi as _ _ -> _. }
      cbn [w_strtab w_symtab set] in H. destruct (st_get (w_strtab w) name) as [en|]; [|by injection H as <- <-]. apply bind_Ok in H as (s & _ & [= <- <-]). split; [reflexivity|].
      intros n. cbn [w_symtab set syt_modify syt_symbols]. rewrite lookup_alter_is_Some. reflexivity. }
    destruct G as [G1 G2]. split.
    - constructor; [exact HI|exact HP|rewrite Esec, G1; apply S|]. intros n. rewrite Esym, add_needed_strtab, Est, G2. apply S.
    - constructor; [rewrite Esec, G1; eauto|exists []; by rewrite add_needed_strtab, Est, app_nil_r|intros n; by rewrite Esym, G2].
  Qed.
  Lemma t_sec w e (i : nat) name sh data w' sr : sane w -> input_section wd l e name sh -> eo_shdrs e !! i = Some sh ->
    section_data (eo_data e) sh = Ok data -> add_section w name sh data = Ok (w', sr) -> sane w' /\ grows w w' /\ valid e i w' sr.
  Proof using tot.
    intros S (_ & _ & Hty & _) _ _ H. pose proof (winv_section _ _ _ _ _ _ _ _ (sa_inv _ S) Hty H) as HI. destruct (add_section_up U _ _ _ _ _ _ (sa_up _ S) H) as [HP _].
    unfold add_section in H. destruct (st_get_or_create (w_shstrtab w) name) as [names en] eqn:E.
    apply goc_cases in E as [(En & -> & Ea)|(En & Ei & Enames & Eidx & Eoff)]; rewrite En in H; cbv zeta in H.
    - apply bind_Ok in H as (s & Hs & H). apply index_Ok in Hs. cbn [w_sections set] in Hs, H. pose proof (wi_ids _ _ _ (sa_inv _ S) _ _ Hs) as Hid.
      set (j := N.to_nat (en_index en)) in *. pose proof (lookup_lt_Some _ _ _ Hs) as Hj.
      assert (K : forall s1 w1 c, sc_chunks s1 <> [] -> (length (sc_chunks s) <= length (sc_chunks s1))%nat -> (c < length (sc_chunks s1))%nat -> w_sections w1 = <[j := s1]> (w_sections w) -> w_strtab w1 = w_strtab w -> w_symtab w1 = w_symtab w ->
        winv n0 w0 w1 -> up_ok U w1 -> sane w1 /\ grows w w1 /\ valid e i w1 (mkSref (sc_id s) c)).
      { intros s1 w1 c C1 C2 C3 W1 W2 W3 I1 P1. split; [|split].
        - constructor; [exact I1|exact P1| |rewrite W2, W3; apply S]. intros q x Hq Hx. rewrite W1 in Hx. apply list_lookup_insert_Some in Hx as [(-> & -> & _)|(_ & Hx)]; [exact C1|]. exact (sa_chunks _ S _ _ Hq Hx).
        - constructor; [|exists []; by rewrite W2, app_nil_r|by rewrite W3]. intros q x Hx. rewrite W1. destruct (decide (j = q)) as [->|Hne].
          + rewrite list_lookup_insert by exact Hj. exists s1. split; [reflexivity|]. rewrite Hs in Hx. injection Hx as <-. exact C2.
          + rewrite list_lookup_insert_ne by exact Hne. eauto.
        - exists s1. cbn [sr_section sr_chunk]. rewrite Hid, W1, list_lookup_insert by exact Hj. split; [reflexivity|exact C3]. }
      destruct data as [d|].
      + injection H as <- <-. refine (K _ _ _ _ _ _ _ _ _ HI HP); [| | |reflexivity|reflexivity|reflexivity]; unfold sec_add_chunk; cbn [sc_chunks set]; [by destruct (sc_chunks s)|rewrite app_length; lia|rewrite app_length; cbn [length]; lia].
      + cbn [sc_chunks set] in H. destruct (sc_chunks s) as [|c0 cs] eqn:Ec; [discriminate H|]. injection H as <- <-.
        refine (K _ _ _ _ _ _ _ _ _ HI HP); [| | |reflexivity|reflexivity|reflexivity]; cbn [sc_chunks set]; rewrite Ec; cbn [length]; [discriminate|lia|lia].
    - injection H as <- <-. cbn [w_sections set] in *. set (s1 := section_new _ _ <| sc_chunks := _ |>) in *. split; [|split].
      + constructor; [exact HI|exact HP| |apply S]. intros q x Hq Hx. cbn [w_sections set] in Hx. apply lookup_app_Some in Hx as [Hx|[_ Hx]]; [exact (sa_chunks _ S _ _ Hq Hx)|].
        apply list_lookup_singleton_Some in Hx as [_ <-]. discriminate.
      + constructor; [|exists []; by rewrite app_nil_r|done]. intros q x Hx. cbn [w_sections set]. exists x. split; [by apply lookup_app_l_Some|lia].
      + exists s1. cbn [w_sections set sr_section sr_chunk]. split; [by apply list_lookup_middle|]. subst s1. cbn. lia.
  Qed.
  Lemma t_sym w e sym o name path w' r : sane w -> is_input wd l e -> sym ∈ eo_syms e ->
    eo_strtab e (st_name sym) = Some name -> sec_ref_of valid e w (N.to_nat (st_shndx sym)) o ->
    add_symbol w sym o name path = Ok (w', r) -> sane w' /\ grows w w' /\ any e sym w' r.
  Proof using tot.
    intros S He Hin Hn _ H. pose proof (winv_symbol _ _ _ _ _ _ _ _ _ (sa_inv _ S) H) as HI.
    destruct (add_symbol_up U w sym o name path w' r (HU _ _ _ He Hin Hn) (sa_up _ S) H) as (HP & [HN _] & _).
    pose proof (names_room U w' HP Hroom) as Hlen. unfold add_symbol in H. apply bind_Ok in H as ([[[names t] secs] r1] & H & [= <- <-]).
    pose proof (add_symbol_inner_grown _ _ _ _ _ _ _ _ _ _ _ H) as HG. unfold add_symbol_inner in H.
    destruct (st_get_or_create (w_strtab w) name) as [names' en] eqn:En. set (sym' := sym <| st_name := u32 (en_offset en) |>) in *.
    destruct (syt_add_symbol (w_symtab w) sym' _ _ path) as [[t1 r2]|] eqn:Ea; [|discriminate H].
    assert (names = names' /\ t = t1) as [-> ->].
    { destruct o as [sr|]; [|by injection H as <- <- <- <-]. destruct (_ =? SHN_ABS); [by injection H as <- <- <- <-|]. by apply bind_Ok in H as (secs' & _ & [= <- <- <- <-]). }
    clear H. destruct (syt_add_climbs _ _ _ _ _ _ _ Ea) as (_ & A2 & _). cbn [w_strtab w_symtab w_sections set] in *. destruct HN as [tl HN].
    assert (Ent : exists i, (name, (i, en_offset en)) ∈ stt_names names').
    { pose proof (goc_assoc _ _ _ _ En) as Q. exists (en_index en). by apply assoc_Some_elem. }
    split; [|split; [|exact I]].
    - constructor; cbn [w_strtab w_symtab w_sections set]; [exact HI|exact HP|by eapply grown_full; [|apply S]|].
      intros n [s Hs]. destruct (A2 _ _ Hs) as [Hs'| ->].
      + pose proof (sa_keys _ S _ Hs') as Q. by rewrite (name_stays (w_strtab w) names' n tl HN Q).
      + destruct Ent as [i Hi]. subst sym'. cbn [st_name set]. pose proof (entry_off_lt _ _ _ _ (uo_st _ _ HP) Hi) as Hlt. cbn [w_strtab set] in Hlt.
        assert (u32 (en_offset en) = en_offset en) as -> by (unfold u32; apply N.mod_small; lia). by eapply name_there.
    - constructor; cbn [w_strtab w_symtab w_sections set]; [by apply grown_secs|by exists tl|]. intros n [s Hs]. clearbody sym'. unfold syt_add_symbol in Ea.
      destruct (_ =? STT_SECTION); [injection Ea as <- <-; cbn [syt_symbols set]; eauto|]. destruct (syt_symbols (w_symtab w) !! st_name sym') as [old|] eqn:Eo.
      + destruct (merge_symbol old _); [|discriminate Ea]. injection Ea as <- <-. set (k := st_name sym') in *. cbn [syt_symbols set]. destruct (decide (k = n)) as [->|]; [rewrite lookup_insert; eauto|rewrite lookup_insert_ne by done; eauto].
      + injection Ea as <- <-. set (k := st_name sym') in *. destruct (is_local _); cbn [syt_symbols set]; (destruct (decide (k = n)) as [->|]; [rewrite lookup_insert; eauto|rewrite lookup_insert_ne by done; eauto]).
  Qed.
  (** * No step crashes *)
  Lemma f_mod w e i sr f : sane w -> valid e i w sr -> fine (mod_chunk (sr_section sr) (sr_chunk sr) f (w_sections w)).
  Proof using tot.
    intros S (s & H1 & H2). unfold mod_chunk. rewrite get_section_ids by (exact (wi_ids _ _ _ (sa_inv _ S))). rewrite H1. cbn [unwrap mbind res_bind].
    destruct (lookup_lt_is_Some_2 _ _ H2) as [c Hc]. unfold index. rewrite Hc. discriminate.
  Qed.
  Lemma f_data e name sh : input_section wd l e name sh -> fine (section_data (eo_data e) sh).
  Proof using tot.
    intros (He & Hin & Hty & _). unfold section_data. destruct (N.eqb_spec (sh_type sh) SHT_NOBITS) as [E|E]; [discriminate|].
    apply fine_bind; [|discriminate]. unfold slice. pose proof (so_range _ (sd_objects _ _ HS e He) sh Hin) as Q.
    assert (R : sh_offset sh + sh_size sh <= N.of_nat (length (eo_data e))). { apply Q. change SHT_NOBITS with 8 in E. rewrite !elem_of_cons, elem_of_nil in *. tauto. }
    unfold blen. apply N.leb_le in R. rewrite R. discriminate.
  Qed.
  Lemma f_section w e name sh data : sane w -> input_section wd l e name sh -> section_data (eo_data e) sh = Ok data -> fine (add_section w name sh data).
  Proof using tot.
    intros S (He & Hin & Hty & Hn) Hd. pose proof (section_data_of _ _ _ Hd) as Hdo. unfold add_section. destruct (st_get_or_create (w_shstrtab w) name) as [names en] eqn:E.
    apply goc_cases in E as [(En & -> & Ea)|(En & Ei & Enames & Eidx & Eoff)]; rewrite En; cbv zeta; [|discriminate].
    apply assoc_Some_elem in Ea. apply elem_of_list_lookup in Ea as [j Hj]. pose proof (st_reach_ok _ (wi_st _ _ _ (sa_inv _ S))) as Hok.
    destruct (ok_entry _ Hok _ _ _ _ Hj) as [Ej _]. rewrite Ej, Nat2N.id. pose proof (lookup_lt_Some _ _ _ Hj) as Hlt. rewrite (wi_len _ _ _ (sa_inv _ S)) in Hlt.
    destruct (lookup_lt_is_Some_2 _ _ Hlt) as [s Hs]. unfold index. cbn [w_sections set]. rewrite Hs. cbn [mbind res_bind]. destruct data as [d|]; [discriminate|].
    cbn [sc_chunks set]. cbn [data_of] in Hdo. destruct (so_fill _ (sd_objects _ _ HS e He) sh name Hin Hdo Hn) as [F1 F2].
    destruct (sc_chunks s) as [|c cs] eqn:Ec; [|discriminate]. exfalso. destruct (decide (j < n0)%nat) as [Hl|Hl].
    - destruct (prefix_names l n0 w0 Hw0 eq_refl w j name _ (sa_inv _ S) Hj Hl); contradiction.
    - exact (sa_chunks _ S j s (not_lt _ _ Hl) Hs Ec).
  Qed.
  Lemma f_symbol w e sym o name path : sane w -> sec_ref_of valid e w (N.to_nat (st_shndx sym)) o -> fine (add_symbol w sym o name path).
  Proof using tot.
    intros S Ho. unfold add_symbol. apply fine_bind; [|intros [[[? ?] ?] ?] _; discriminate]. unfold add_symbol_inner. destruct (st_get_or_create _ _) as [names en]. cbv zeta.
    destruct (syt_add_symbol _ _ _ _ _) as [[t r]|]; [|discriminate]. destruct o as [sr|]; [|discriminate]. destruct (_ =? SHN_ABS); [discriminate|].
    apply fine_bind; [exact (f_mod w e (N.to_nat (st_shndx sym)) sr _ S Ho)|discriminate].
  Qed.
  Lemma f_reloc w e i rel r sr : sane w -> valid e i w sr -> fine (add_relocation w rel r sr).
  Proof using tot.
    intros S Hv. unfold add_relocation. cbv zeta. destruct (_ || _); [discriminate|]. apply fine_bind; [exact (f_mod w e i sr _ S Hv)|discriminate].
  Qed.
  Lemma f_name w r : sane w -> known w r -> exists n name, r = RNamed n /\ st_name_at (w_strtab w) n = Some name /\ is_Some (syt_symbols (w_symtab w) !! n) /\ symbol_name w r = Ok (Some name).
  Proof using tot.
    intros S (n & -> & Hk). destruct (sa_keys _ S _ Hk) as [name Hn]. exists n, name. split; [reflexivity|]. split; [exact Hn|]. split; [exact Hk|]. unfold symbol_name. rewrite Hn. reflexivity.
  Qed.
  Definition listed (w : writer) (name : string) : Prop := exists n, st_name_at (w_strtab w) n = Some name /\ is_Some (syt_symbols (w_symtab w) !! n).
  Lemma listed_mono w w' name : grows w w' -> listed w name -> listed w' name.
  Proof using tot.
    intros G (n & H1 & H2). exists n. destruct (gr_names _ _ G) as [tl Htl]. split; [|by apply (gr_keys _ _ G)]. rewrite (name_stays _ _ n tl Htl); [exact H1|eauto].
  Qed.
  Lemma f_dyn w sym name path : sane w -> listed w name -> fine (add_dyn_symbol w sym None name path).
  Proof using tot.
    intros S (n & Hn & Hk). unfold add_dyn_symbol. cbv zeta. apply fine_bind.
    { unfold add_symbol_inner. destruct (st_get_or_create _ _) as [names en]. cbv zeta. destruct (syt_add_symbol _ _ _ _ _) as [[t r]|]; discriminate. }
    intros [[[names t] secs] r] _. cbn [w_strtab w_symtab set]. destruct (st_get (w_strtab w) name) as [en|] eqn:Eg; [|discriminate].
    apply fine_bind; [|discriminate]. apply fine_some. cbn [syt_get]. unfold st_name_at in Hn. apply name_in_Some_elem in Hn as [i Hi].
    unfold st_get in Eg. rewrite (assoc_elem_Some _ _ _ (ok_nodup _ (uo_st _ _ (sa_up _ S))) Hi) in Eg. injection Eg as <-. cbn [en_offset].
    destruct Hk as [s Hs]. pose proof (uo_keys _ _ (sa_up _ S) _ _ Hs) as Hlt. assert (u32 n = n) as -> by (unfold u32; apply N.mod_small; lia). eauto.
  Qed.

  (** * Objects *)
  Notation secs_ok := (secs_ok valid).
  Notation sections_refs := (process_sections_refs wd l sane grows valid any grows_refl grows_trans valid_mono any_mono t_sec t_sym t_rel t_dyn).
  Notation symbols_refs := (process_symbols_refs wd l sane grows valid any grows_refl grows_trans valid_mono any_mono t_sec t_sym t_rel t_dyn).
  Lemma secs_later e w w' m : sane w -> sane w' -> grows w w' -> secs_ok e w m -> secs_ok e w' m.
  Proof using tot. intros S S' G [H1 H2]. split; [|exact H2]. intros i sr Hi. exact (valid_mono e i w w' sr S S' G (H1 i sr Hi)). Qed.
  Lemma f_sections e w : is_input wd l e -> sane w -> fine (process_sections e w).
  Proof using tot.
    intros He S. unfold process_sections. apply fine_bind; [|intros [? ?] _; discriminate].
    apply (fine_foldM (fun st => sane st.1)); [exact S|]. intros [w1 m] [i sh] Hin S1. cbn [fst] in S1. apply elem_of_lookup_imap in Hin as (k & y & [= -> ->] & Hk). unfold process_section.
    destruct (bool_decide_reflect (sh_type y ∈ SKIPPED_SECTIONS)) as [Hsk|Hsk]; [split; [discriminate|intros [w2 m2] [= <- <-]; exact S1]|].
    destruct (eo_shstr e (sh_name y)) as [name|] eqn:En; [|split; discriminate].
    assert (Hi : input_section wd l e name y) by (split; [exact He|]; split; [by eapply elem_of_list_lookup_2|]; split; [exact Hsk|exact En]).
    split.
    - apply fine_bind; [by eapply f_data|]. intros data Hd. apply fine_bind; [by eapply f_section|]. intros [w2 r] _. discriminate.
    - intros [w2 m2] H. apply bind_Ok in H as (data & Hd & H). apply bind_Ok in H as ([w3 r] & H3 & [= <- <-]). exact (proj1 (t_sec _ _ _ _ _ _ _ _ S1 Hi Hk Hd H3)).
  Qed.
  Lemma sec_given e w m sym : secs_ok e w m -> sec_ref_of valid e w (N.to_nat (st_shndx sym)) (m !! N.to_nat (st_shndx sym)).
  Proof using tot.
    intros [H1 H2]. unfold sec_ref_of. destruct (m !! _) as [sr|] eqn:Es; [by apply H1|]. intros sh Hsh.
    destruct (decide (sh_type sh ∈ SKIPPED_SECTIONS)) as [Hin|Hin]; [exact Hin|]. destruct (H2 _ _ Hsh Hin) as [x Hx]. congruence.
  Qed.
  Lemma f_symbols e path w es : is_input wd l e -> sane w -> secs_ok e w (es_sections es) -> fine (process_symbols e path w es).
  Proof using tot.
    intros He S Hs. unfold process_symbols. apply (fine_foldM (fun st => sane st.1 /\ secs_ok e st.1 (es_sections st.2))); [by split|].
    intros [w1 es1] sym Hin [S1 Hs1]. cbn [fst snd] in *. unfold process_symbol. destruct (eo_strtab e (st_name sym)) as [name|] eqn:En; [|split; discriminate]. cbv zeta.
    pose proof (sec_given e w1 _ sym Hs1) as Hg. split.
    - apply fine_bind; [exact (f_symbol _ _ _ _ _ _ S1 Hg)|]. intros [w2 r] _. discriminate.
    - intros [w2 es2] H. apply bind_Ok in H as ([w3 r] & H3 & [= <- <-]). destruct (t_sym _ _ _ _ _ _ _ _ S1 He Hin En Hg H3) as (S3 & G3 & _). split; [exact S3|].
      cbn [fst snd es_sections]. exact (secs_later _ _ _ _ S1 S3 G3 Hs1).
  Qed.
  Lemma f_relocations e es w : is_input wd l e -> sane w -> secs_ok e w (es_sections es) ->
    (forall k r, kassoc k (es_symbols es) = Some r -> exists sym, sym ∈ eo_syms e /\ sym_key sym = k) -> fine (process_relocations e es w).
  Proof using tot.
    intros He S Hs Hk. unfold process_relocations. pose proof (sd_objects _ _ HS e He) as So. set (I := fun w => sane w /\ secs_ok e w (es_sections es)).
    assert (Step : forall w1 idx rels rel, (idx, rels) ∈ eo_relocs e -> rel ∈ rels -> I w1 -> fine (process_relocation e es idx w1 rel) /\ forall w2, process_relocation e es idx w1 rel = Ok w2 -> I w2).
    { intros w1 idx rels rel Hi Hr [S1 Hs1]. unfold process_relocation. destruct (N.eqb_spec (gr_sym rel) 0) as [E0|E0]; [split; [discriminate|intros w2 [= <-]; by split]|].
      destruct (so_rels _ So idx rels rel Hi Hr E0) as [R1 R2]. destruct (lookup_lt_is_Some_2 (eo_syms e) (N.to_nat (gr_sym rel))) as [sym Hsym]; [lia|]. rewrite Hsym. cbn [unwrap mbind res_bind].
      unfold usub. destruct (N.leb_spec 1 idx) as [_|Hle]; [|lia]. cbn [mbind res_bind].
      destruct (es_sections es !! _) as [sr|] eqn:Er; [|split; [discriminate|intros w2 [= <-]; by split]]. destruct (kassoc _ _) as [r|] eqn:Ek; [|split; [discriminate|intros w2 [= <-]; by split]].
      pose proof (proj1 Hs1 _ _ Er) as Hv. split; [exact (f_reloc _ _ _ _ _ _ S1 Hv)|]. intros w2 H2. destruct (Hk _ _ Ek) as (sym' & K1 & K2).
      destruct (t_rel w1 e idx rels rel sym sym' r sr w2 S1 He Hi Hr E0 Hsym ltac:(lia) Hv K1 K2 Logic.I H2) as [S2 G2]. split; [exact S2|]. exact (secs_later _ _ _ _ S1 S2 G2 Hs1). }
    apply (fine_foldM I); [by split|]. intros w1 [idx rels] Hi H1. split.
    - apply (fine_foldM I); [exact H1|]. intros w2 rel Hr H2. by eapply Step.
    - intros w2 H. revert H. apply (foldM_trace (fun _ st => I st)); [exact H1|]. intros pre rel post w3 w4 -> H3 H. refine (proj2 (Step _ _ _ _ Hi _ H3) _ H). apply elem_of_app. right. left.
  Qed.
  Lemma f_object e path w es : is_input wd l e -> sane w -> secs_ok e w (es_sections es) -> es_symbols es = [] ->
    fine ('(w, es) ← process_symbols e path w es; process_relocations e es w).
  Proof using tot.
    intros He S Hs H0. apply fine_bind; [by apply f_symbols|]. intros [w1 es1] H1.
    destruct (symbols_refs e path w es w1 es1 He S Hs) as (S1 & G1 & E1 & Y1 & _); [intros k r Hk; by rewrite H0 in Hk|exact H1|].
    apply f_relocations; [exact He|exact S1|rewrite E1; exact (secs_later _ _ _ _ S S1 G1 Hs)|]. intros k r Hk. destruct (Y1 _ _ Hk) as (sym & A & B & _). eauto.
  Qed.
  Lemma f_member ar path w m name : path ∈ lk_archives l -> wd_archive wd path = Some (Some ar) -> ar_member_of_symbol ar name = Some m -> sane w -> fine (load_member ar path w m).
  Proof using tot.
    intros Hp Ha Hm S. destruct (sd_archives _ _ HS path ar name m Hp Ha Hm) as (o & Ho & Hob). unfold load_member. rewrite Ho. cbn [unwrap mbind res_bind].
    destruct o as [e|]; [|discriminate]. rewrite (Hob e eq_refl). assert (He : is_input wd l e) by (right; exists path, ar, m; by split_and!).
    apply fine_bind; [by apply f_sections|]. intros [w1 es1] H1. destruct (sections_refs e w w1 es1 He S H1) as (S1 & G1 & K1 & E1). by apply f_object.
  Qed.
  Lemma f_objects w : sane w -> fine (load_objects wd l w).
  Proof using tot.
    intros S. unfold load_objects. apply fine_bind.
    { induction (lk_objects l) as [|p ps IH]; cbn [mapM_res]; [discriminate|]. apply fine_bind; [unfold read_object; destruct (wd_elf wd p); discriminate|]. intros x _. apply fine_bind; [exact IH|discriminate]. }
    intros inputs Hi. set (G1 := fun (elfs : list (string * elf_obj * elf_state)) (w : writer) => forall p e es, (p, e, es) ∈ elfs -> is_input wd l e /\ secs_ok e w (es_sections es) /\ es_symbols es = []).
    assert (Step : forall st x, x ∈ inputs -> sane st.1 /\ G1 st.2 st.1 -> fine (add_object_sections st x) /\ forall st', add_object_sections st x = Ok st' -> sane st'.1 /\ G1 st'.2 st'.1).
    { intros [w1 elfs] [p x] Hx [S1 H1]. cbn [fst snd] in *. unfold add_object_sections. cbn [fst snd]. destruct x as [e|]; [|split; discriminate]. destruct (eo_is_object e); [|split; [discriminate|intros st' [= <-]; by split]].
      assert (He : is_input wd l e) by (left; exists p; by eapply read_objects_in). split.
      - apply fine_bind; [by apply f_sections|]. intros [? ?] _. discriminate.
      - intros [w2 elfs2] H. apply bind_Ok in H as ([w3 es3] & H3 & [= <- <-]). destruct (sections_refs e w1 w3 es3 He S1 H3) as (S3 & G3 & K3 & E3). split; [exact S3|]. cbn [fst snd].
        intros p' e' es' [Hin|Hin]%elem_of_app; [|apply elem_of_list_singleton in Hin; injection Hin as -> -> ->; by split_and!].
        destruct (H1 _ _ _ Hin) as (X1 & X2 & X3). split; [exact X1|]. split; [|exact X3]. exact (secs_later _ _ _ _ S1 S3 G3 X2). }
    apply fine_bind.
    { apply (fine_foldM (fun st => sane st.1 /\ G1 st.2 st.1)); [|intros st x Hx Hst; by apply Step]. split; [exact S|]. intros p e es Hx. by apply elem_of_nil in Hx. }
    intros [w1 elfs] H1.
    assert (HA : sane w1 /\ G1 elfs w1).
    { change (sane (w1, elfs).1 /\ G1 (w1, elfs).2 (w1, elfs).1). revert H1. apply (foldM_trace (fun _ st => sane st.1 /\ G1 st.2 st.1)); [split; [exact S|]; intros p e es Hx; by apply elem_of_nil in Hx|].
      intros pre x post st st' E Hst H. refine (proj2 (Step _ _ _ Hst) _ H). rewrite E. apply elem_of_app. right. left. }
    destruct HA as [S1 K1]. apply (fine_foldM (fun w => sane w /\ grows w1 w)); [split; [exact S1|apply grows_refl]|].
    intros w2 [[p e] es] Hin [S2 G2]. destruct (K1 _ _ _ Hin) as (X1 & X2 & X3). pose proof (secs_later _ _ _ _ S1 S2 G2 X2) as X2'. unfold add_object_symbols. split; [by apply f_object|].
    intros w3 H. apply bind_Ok in H as ([w4 es4] & H4 & H). destruct (symbols_refs e p w2 es w4 es4 X1 S2 X2') as (S4 & G4 & E4 & Y4 & _); [intros k r Hk; by rewrite X3 in Hk|exact H4|].
    destruct (process_relocations_refs wd l sane grows valid any grows_refl grows_trans valid_mono any_mono t_sec t_sym t_rel t_dyn e es4 w4 w3 X1 S4) as [S5 G5]; [rewrite E4; exact (secs_later _ _ _ _ S2 S4 G4 X2')|exact Y4|exact H|].
    split; [exact S5|]. eapply grows_trans; [exact G2|]. by eapply grows_trans.
  Qed.

  (** * Libraries *)
  Lemma f_dynsyms e path name syms found w : is_lib wd l path e -> (forall s, s ∈ syms -> s ∈ eo_dynsyms e) -> sane w -> listed w name -> fine (match_dynsyms e path name syms found w).
  Proof using tot.
    intros Hl. revert found w. induction syms as [|sym syms IH]; intros found w Hin S Hn; cbn [match_dynsyms]; [discriminate|].
    assert (Hin' : forall s, s ∈ syms -> s ∈ eo_dynsyms e) by (intros s Hs; apply Hin; by right).
    destruct (eo_dynstr e (st_name sym)) as [n|] eqn:En; [|discriminate]. destruct (decide (name = n)) as [<-|]; [|by apply IH].
    apply fine_bind; [by apply f_dyn|]. intros [w1 r] H1. destruct (sd_libs _ _ HS path (proj1 Hl)) as [_ Hf]. destruct (file_name path) as [so|] eqn:Ef; [|contradiction]. cbn [unwrap mbind res_bind].
    assert (Hg : is_Some (st_get (w_strtab w) name)) by (destruct Hn as (k & Hk & _); by eapply st_name_at_get).
    destruct (t_dyn w path e sym name so w1 r S Hl (Hin sym ltac:(left)) En Ef Hg H1) as [S1 G1]. apply IH; [exact Hin'|exact S1|by eapply listed_mono].
  Qed.
  Notation dynsyms_refs := (match_dynsyms_refs wd l sane grows valid any grows_refl grows_trans valid_mono any_mono t_sec t_sym t_rel t_dyn).
  Notation undefines_refs := (match_undefines_refs wd l sane grows valid any grows_refl grows_trans valid_mono any_mono t_sec t_sym t_rel t_dyn).
  Lemma f_undefines e path us w : is_lib wd l path e -> sane w -> Forall (known w) us -> fine (match_undefines e path us w) /\ forall w' us', match_undefines e path us w = Ok (w', us') -> us' ⊆ us.
  Proof using tot.
    intros Hl. revert w. induction us as [|u us IH]; intros w S Hk; cbn [match_undefines]; [split; [discriminate|intros w' us' [= <- <-]; done]|].
    apply Forall_cons in Hk as [Hu Hk]. destruct (f_name w u S Hu) as (n & name & -> & N1 & N2 & N3). rewrite N3. cbn [mbind res_bind].
    assert (Hx : is_Some (st_get (w_strtab w) name)) by (by eapply st_name_at_get).
    assert (K : forall w1 found, match_dynsyms e path name (eo_dynsyms e) false w = Ok (w1, found) -> sane w1 /\ Forall (known w1) us).
    { intros w1 found H1. destruct (dynsyms_refs e path name (eo_dynsyms e) false w w1 found Hl (fun _ H => H) Hx S H1) as [S1 G1]. split; [exact S1|].
      eapply Forall_impl; [exact Hk|]. intros r. by apply known_mono. }
    split.
    - apply fine_bind; [apply f_dynsyms; [exact Hl|done|exact S|by exists n]|]. intros [w1 found] H1. destruct (K _ _ H1) as [S1 K1]. apply fine_bind; [by apply IH|]. intros [? ?] _. discriminate.
    - intros w' us' H. apply bind_Ok in H as ([w1 found] & H1 & H). destruct (K _ _ H1) as [S1 K1]. apply bind_Ok in H as ([w2 rest] & H2 & [= <- <-]). pose proof (proj2 (IH w1 S1 K1) _ _ H2). destruct found; set_solver.
  Qed.
  Definition fed (st : writer * list symref) : Prop := sane st.1 /\ Forall (known st.1) st.2.
  Lemma fed_mono w w' us us' : sane w' -> grows w w' -> us' ⊆ us -> Forall (known w) us -> Forall (known w') us'.
  Proof using tot. intros S G Hsub H. apply Forall_forall. intros r Hr. eapply known_mono; [exact G|]. rewrite Forall_forall in H. apply H, Hsub, Hr. Qed.
  Lemma f_libs us w : fed (w, us) -> fine (find_undefined_symbols_in_libs wd l us w) /\ forall st, find_undefined_symbols_in_libs wd l us w = Ok st -> fed st.
  Proof using tot.
    intros HF. unfold find_undefined_symbols_in_libs.
    assert (Step : forall st lib, lib ∈ opt_shared_libs (lk_options l) -> fed st -> fine (search_lib wd st lib) /\ forall st', search_lib wd st lib = Ok st' -> fed st').
    { intros [w1 us1] lib Hlib [S1 K1]. cbn [fst snd] in *. unfold search_lib. assert (Hp : lib.1 ∈ (opt_shared_libs (lk_options l)).*1) by (apply elem_of_list_fmap; eauto).
      destruct (sd_libs _ _ HS _ Hp) as [Hne _]. destruct (wd_elf wd lib.1) as [[e|]|] eqn:Ee; [|contradiction|split; discriminate].
      assert (Hl : is_lib wd l lib.1 e) by (by split). destruct (f_undefines e lib.1 us1 w1 Hl S1 K1) as [F1 F2]. split; [exact F1|]. intros [w2 us2] H.
      destruct (undefines_refs e lib.1 us1 w1 w2 us2 Hl S1 H) as [S2 G2]. split; [exact S2|]. cbn [fst snd]. exact (fed_mono _ _ _ _ S2 G2 (F2 _ _ H) K1). }
    split; [apply (fine_foldM fed); [exact HF|exact Step]|]. intros st H. revert H. apply (foldM_trace (fun _ st => fed st)); [exact HF|].
    intros pre x post s s' E Hs H. refine (proj2 (Step _ _ _ Hs) _ H). rewrite E. apply elem_of_app. right. left.
  Qed.

  (** * Archives *)
  Lemma f_wanted w ar us : sane w -> Forall (known w) us -> fine (wanted_members w ar us) /\ forall ms un, wanted_members w ar us = Ok (ms, un) -> un ⊆ us.
  Proof using tot.
    intros S. induction us as [|u us IH]; intros Hk; cbn [wanted_members]; [split; [discriminate|intros ms un [= <- <-]; done]|].
    apply Forall_cons in Hk as [Hu Hk]. destruct (f_name w u S Hu) as (n & name & -> & N1 & N2 & N3). rewrite N3. cbn [mbind res_bind]. destruct (IH Hk) as [F1 F2]. split.
    - apply fine_bind; [exact F1|]. intros [? ?] _. discriminate.
    - intros ms un H. apply bind_Ok in H as ([ms1 un1] & H1 & H). specialize (F2 _ _ H1). cbn [mbind option_bind] in H. destruct (ar_member_of_symbol ar name); injection H as <- <-; set_solver.
  Qed.
  Lemma f_archives lo round us w : (forall r p k, lo_members lo r p k ≡ₚ k) -> fed (w, us) ->
    fine (process_archives_containing wd lo round l us w) /\ forall st, process_archives_containing wd lo round l us w = Ok st -> fed st.
  Proof using tot.
    intros Hlo HF. unfold process_archives_containing.
    assert (Step : forall st p, p ∈ lk_archives l -> fed st -> fine (search_archive wd lo round st p) /\ forall st', search_archive wd lo round st p = Ok st' -> fed st').
    { intros [w1 us1] p Hp [S1 K1]. cbn [fst snd] in *. unfold search_archive. destruct (wd_archive wd p) as [[ar|]|] eqn:Ea; [|split; discriminate|split; discriminate].
      destruct (f_wanted w1 ar us1 S1 K1) as [F1 F2].
      assert (L : forall ms un w2 m, wanted_members w1 ar us1 = Ok (ms, un) -> m ∈ lo_members lo round p (remove_dups ms) -> sane w2 -> fine (load_member ar p w2 m) /\ forall w3, load_member ar p w2 m = Ok w3 -> sane w3 /\ grows w2 w3).
      { intros ms un w2 m Hw Hm S2. split.
        - rewrite Hlo, elem_of_remove_dups in Hm. destruct (wanted_indexed _ _ _ _ _ _ Hw Hm) as [nm Hnm]. by eapply f_member.
        - intros w3 H3. exact (load_member_refs wd l sane grows valid any grows_refl grows_trans valid_mono any_mono t_sec t_sym t_rel t_dyn ar p w2 m w3 Hp Ea S2 H3). }
      split.
      - apply fine_bind; [exact F1|]. intros [ms un] Hw. apply fine_bind; [|discriminate]. apply (fine_foldM sane); [exact S1|]. intros w2 m Hm S2. destruct (L _ _ w2 m Hw Hm S2) as [L1 L2]. split; [exact L1|]. intros w3 H3. by apply L2.
      - intros [w' us'] H. apply bind_Ok in H as ([ms un] & Hw & H). apply bind_Ok in H as (w2 & H2 & [= <- <-]).
        assert (G : sane w2 /\ grows w1 w2).
        { revert H2. apply (foldM_trace (fun _ st => sane st /\ grows w1 st)); [split; [exact S1|apply grows_refl]|]. intros pre m post w3 w4 E [S3 G3] H. destruct (L _ _ w3 m Hw) as [_ L2]; [rewrite E; apply elem_of_app; right; left|exact S3|].
          destruct (L2 _ H) as [S4 G4]. split; [exact S4|by eapply grows_trans]. }
        destruct G as [S2 G2]. split; [exact S2|]. cbn [fst snd]. exact (fed_mono _ _ _ _ S2 G2 (F2 _ _ Hw) K1). }
    split; [apply (fine_foldM fed); [exact HF|exact Step]|]. intros st H. revert H. apply (foldM_trace (fun _ st => fed st)); [exact HF|].
    intros pre x post s s' E Hs H. refine (proj2 (Step _ _ _ Hs) _ H). rewrite E. apply elem_of_app. right. left.
  Qed.

  (** * The loop *)
  Lemma undefined_known o w : Forall (known w) (undefined_symbols o w).
  Proof using tot.
    apply Forall_forall. intros r Hr. unfold undefined_symbols in Hr. apply elem_of_list_fmap in Hr as (n & -> & Hn). apply elem_of_list_filter in Hn as [Hn _]. exists n. split; [reflexivity|].
    destruct (syt_symbols (w_symtab w) !! n); [eauto|discriminate Hn].
  Qed.
  Lemma perm_known w us us' : us' ≡ₚ us -> Forall (known w) us -> Forall (known w) us'.
  Proof using tot. intros E H. by rewrite E. Qed.
  Lemma f_loop lo fuel round us w p : (forall i k, lo_undef lo i k ≡ₚ k) -> (forall r p k, lo_members lo r p k ≡ₚ k) -> fed (w, us) -> resolve_loop wd lo l fuel round us w = Panic p -> p = PFuel.
  Proof using tot.
    intros Hu Hm. revert round us w. induction fuel as [|fuel IH]; intros round us w [S K] H; cbn [resolve_loop] in H; [by injection H as <-|]. cbn [fst snd] in *.
    destruct (f_libs (lo_undef lo (2 * round) us) w) as [A1 A2]; [split; [exact S|exact (perm_known _ _ _ (Hu _ _) K)]|].
    destruct (find_undefined_symbols_in_libs wd l (lo_undef lo (2 * round) us) w) as [[w1 us1]|e|q] eqn:E1; cbn [mbind res_bind] in H; [|discriminate H|exfalso; by apply (A1 q)].
    destruct (A2 _ eq_refl) as [S1 K1]. cbn [fst snd] in *. destruct (f_archives lo round (lo_undef lo (2 * round + 1) us1) w1 Hm) as [B1 B2]; [split; [exact S1|exact (perm_known _ _ _ (Hu _ _) K1)]|].
    destruct (process_archives_containing wd lo round l (lo_undef lo (2 * round + 1) us1) w1) as [[w2 us2]|e|q] eqn:E2; cbn [mbind res_bind] in H; [|discriminate H|exfalso; by apply (B1 q)].
    destruct (B2 _ eq_refl) as [S2 K2]. destruct (_ =? _)%nat; [discriminate H|]. refine (IH _ _ _ _ H). split; [exact S2|apply undefined_known].
  Qed.
  Lemma sane_0 : sane w0.
  Proof using tot.
    constructor; [by eapply winv_0|by eapply new_up| |].
    - intros i s Hi Hs. apply lookup_lt_Some in Hs. lia.
    - destruct (new_tables _ _ Hw0) as [E1 E2]. rewrite E1, E2. intros n [s Hs]. unfold syt_new in Hs. cbn [syt_symbols] in Hs. apply lookup_singleton_Some in Hs as [<- _]. vm_compute. eauto.
  Qed.
  Lemma resolve_sane lo fuel w : resolve wd lo l fuel = Ok w -> sane w.
  Proof using tot.
    intros H. refine (proj1 (resolve_refs wd l sane grows valid any grows_refl grows_trans valid_mono any_mono t_sec t_sym t_rel t_dyn lo fuel w _ H)). intros w1 H1. rewrite Hw0 in H1. injection H1 as <-. exact sane_0.
  Qed.
End total.
Local Transparent writer_new.
Lemma f_new opts : file_name (opt_dynamic_linker opts) <> None -> exists w, writer_new opts = Ok w.
Proof.
  intros H. destruct (file_name (opt_dynamic_linker opts)) as [n|] eqn:E; [|contradiction]. unfold writer_new. rewrite E. cbv zeta. cbn [unwrap mbind res_bind].
  repeat match goal with |- exists w, (let '(_, _) := ?x in _) = Ok w => destruct x end. eexists. reflexivity.
Qed.
Local Opaque writer_new.
Lemma resolve_total wd lo l U fuel p : valid_orders lo -> sound_inputs wd l -> names_within wd l U -> room U <= 2 ^ 32 -> resolve wd lo l fuel = Panic p -> p = PFuel.
Proof.
  intros (_ & Hu & Hm) HS HU HR H. destruct (f_new _ (sd_loader _ _ HS)) as [w0 Hw0]. unfold resolve in H. rewrite Hw0 in H. cbn [mbind res_bind] in H.
  pose proof (sane_0 wd l U w0 HS HU HR Hw0) as S0. pose proof (f_objects wd l U w0 HS HU HR Hw0 w0 S0) as F.
  destruct (load_objects wd l w0) as [w1|e|q] eqn:E1; cbn [mbind res_bind] in H; [|discriminate H|exfalso; by apply (F q)].
  destruct (load_objects_refs wd l (sane U w0) grows valid any (grows_refl wd l U w0 HS HU HR Hw0) (grows_trans wd l U w0 HS HU HR Hw0) (valid_mono wd l U w0 HS HU HR Hw0) (any_mono wd l U w0 HS HU HR Hw0)
    (t_sec wd l U w0 HS HU HR Hw0) (t_sym wd l U w0 HS HU HR Hw0) (t_rel wd l U w0 HS HU HR Hw0) (t_dyn wd l U w0 HS HU HR Hw0) w0 w1 S0 E1) as (S1 & _ & _).
  exact (f_loop wd l U w0 HS HU HR Hw0 lo fuel 0 _ w1 p Hu Hm (conj S1 (undefined_known wd l U w0 HS HU HR Hw0 _ _)) H).
Qed.

(** * After reading *)

(** Once the output is computed, its bytes can always be written. *)
Lemma computed_written wd lo l fuel wr w : valid_oracle (lo_writer lo) -> resolve wd lo l fuel = Ok wr -> compute_sections (lo_writer lo) wr = Ok w ->
  exists secs d, mapM_res (sec_finalize (lo_writer lo) w) (w_sections w) = Ok secs /\ write_to_disk (lo_writer lo) w = Ok d.
Proof.
  intros V Er Ec. destruct (resolve_winv _ _ _ _ _ Er) as (w0 & Hw0 & HI). destruct (compute_run _ _ _ Ec) as (ws & w1 & extra & null & rest & rest' & st & w3 & w4 & w5 & w6 & w7 & RR).
  destruct (finalize_all RR V Hw0 HI) as [secs Fin]. exists secs. unfold write_to_disk. rewrite Fin. cbn [mbind res_bind]. destruct (write_sections _ _ _) as [out k]. eauto.
Qed.
(** The names of the undefined symbols can always be listed. *)
Lemma names_listed w us : (forall n, RNamed n ∈ us -> is_Some (st_name_at (w_strtab w) n)) -> Forall (fun r => exists n, r = RNamed n) us -> exists ns, symbol_names_of w us = Ok ns.
Proof.
  intros H HF. induction HF as [|r us [n ->] HF IH]; cbn [symbol_names_of]; [eauto|]. destruct (H n) as [x Hx]; [left|].
  unfold symbol_name. rewrite Hx. cbn [unwrap mbind res_bind]. destruct IH as [ns Hns]; [intros m Hm; apply H; by right|]. rewrite Hns. cbn [mbind res_bind]. eauto.
Qed.
Lemma check_total wd lo l U fuel wr w : valid_orders lo -> sound_inputs wd l -> names_within wd l U -> room U <= 2 ^ 32 -> resolve wd lo l fuel = Ok wr -> compute_sections (lo_writer lo) wr = Ok w ->
  fine (check_undefined (lo_writer lo) w).
Proof.
  intros (V & _) HS HU HR Er Ec. destruct (computed_written _ _ _ _ _ _ V Er Ec) as (secs & d & Fin & _).
  destruct (made_outcome _ _ _ _ _ _ _ Er Ec Fin) as (w0 & ws & w1 & extra & null & rest & rest' & st & w3 & w4 & w5 & w6 & w7 & null' & out & O).
  pose proof (resolve_sane wd l U w0 HS HU HR (oc_new O) lo fuel wr Er) as S. destruct (run_fields (oc_run O)) as (_ & F2 & _).
  assert (K : forall n, is_Some (syt_symbols (w_symtab w) !! n) -> is_Some (st_name_at (w_strtab w) n)).
  { intros n Hn. rewrite F2. apply (sa_keys _ _ _ S). apply elem_of_dom in Hn. rewrite (proj1 (sym_names O)) in Hn. apply elem_of_dom in Hn.
    destruct (scan_relocations_scanned _ _ (sz_scan _ _ _ _ _ (rn_sizing (oc_run O)))) as [Hd _]. specialize (Hd (RNamed n)). cbn [syt_get] in Hd.
    destruct Hn as [s Hs]. rewrite Hs in Hd. cbn [fmap option_fmap option_map] in Hd. destruct (syt_symbols (w_symtab wr) !! n); [eauto|discriminate Hd]. }
  unfold check_undefined. destruct (names_listed w (undefined_symbols (lo_writer lo) w)) as [ns Hns].
  - intros n Hn. unfold undefined_symbols in Hn. apply elem_of_list_fmap in Hn as (m & [= <-] & Hm). apply elem_of_list_filter in Hm as [Hm _]. apply K. destruct (syt_symbols (w_symtab w) !! n); [eauto|discriminate Hm].
  - apply Forall_forall. intros r Hr. unfold undefined_symbols in Hr. apply elem_of_list_fmap in Hr as (m & -> & _). eauto.
  - destruct (undefined_symbols _ _); [discriminate|]. rewrite Hns. discriminate.
Qed.
(** A crash other than running out of rounds is in the computation of the output. *)
Lemma crash_place wd lo l U fuel p : valid_orders lo -> sound_inputs wd l -> names_within wd l U -> room U <= 2 ^ 32 -> (link wd lo l fuel).2 = Panic p ->
  resolve wd lo l fuel = Panic PFuel \/ exists w, resolve wd lo l fuel = Ok w /\ compute_sections (lo_writer lo) w = Panic p.
Proof.
  intros HO HS HU HR H. unfold link in H. destruct (wd_can_create wd); [|discriminate H]. unfold link_bytes, link_writer in H.
  destruct (resolve wd lo l fuel) as [wr|e|q] eqn:Er; cbn [mbind res_bind] in H; [|discriminate H|injection H as ->; left; by rewrite (resolve_total _ _ _ _ _ _ HO HS HU HR Er)].
  destruct (compute_sections (lo_writer lo) wr) as [w|e|q] eqn:Ec; cbn [mbind res_bind] in H; [|discriminate H|injection H as ->; right; eauto].
  pose proof (check_total _ _ _ _ _ _ _ HO HS HU HR Er Ec) as F. destruct (check_undefined (lo_writer lo) w) as [?|e|q]; cbn [mbind res_bind] in H; [|discriminate H|exfalso; by apply (F q)].
  destruct (computed_written _ _ _ _ _ _ (proj1 HO) Er Ec) as (secs & d & _ & Hd). rewrite Hd in H. discriminate H.
Qed.
