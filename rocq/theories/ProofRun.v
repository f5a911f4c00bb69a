(** Induction over a run of the linker: whatever holds for the new writer and
    is preserved by the operations adding input holds when the output is laid
    out. *)
From Verif Require Export SpecLink ProofScan ProofStr.

(** The contents handed over with a section: none for zero-fill, else as many
    bytes as its size. *)
Definition data_of (sh : Shdr) (data : option bytes) : Prop :=
  match data with
  | None => sh_type sh = 8
  | Some d => sh_type sh <> 8 /\ blen d = sh_size sh
  end.
Lemma section_data_of d sh o : section_data d sh = Ok o -> data_of sh o.
Proof.
  unfold section_data. change SHT_NOBITS with 8. destruct (N.eqb_spec (sh_type sh) 8) as [E|E]; [by intros [= <-]|].
  intros H. apply bind_Ok in H as (b & Hb & [= <-]). split; [done|]. unfold slice in Hb.
  destruct (N.leb_spec (sh_offset sh + sh_size sh) (blen d)); [|done]. injection Hb as <-.
  unfold blen in *. rewrite take_length, drop_length. lia.
Qed.

(** A name found in the table can be looked up. *)
Lemma st_name_at_get t n k : st_name_at t n = Some k -> is_Some (st_get t k).
Proof.
  unfold st_name_at, st_get. destruct (assoc k (stt_names t)) as [[i o]|] eqn:E; [by eauto|].
  apply assoc_None_iff in E. intros H. exfalso. apply E. revert H. clear E.
  induction (stt_names t) as [|[k' [i o]] l IH]; [done|]. simpl. destruct (o =? n); [intros [= <-]; set_solver|].
  intros H. specialize (IH H). set_solver.
Qed.
Lemma add_dyn_symbol_strtab w sym sr name ref w' r : add_dyn_symbol w sym sr name ref = Ok (w', r) -> w_strtab w' = w_strtab w.
Proof.
  unfold add_dyn_symbol. intros H. apply bind_Ok in H as ([[[names t] secs] r1] & _ & H). simpl in H.
  destruct (st_get (w_strtab w) name) as [e|].
  - by apply bind_Ok in H as (s & _ & [= <- <-]).
  - by injection H as <- <-.
Qed.
Lemma add_needed_strtab w so : w_strtab (add_needed w so) = w_strtab w.
Proof. unfold add_needed. destruct (st_get_or_create (w_dynstr w) so) as [t e]. by destruct (en_new e). Qed.

Lemma read_objects_in wd paths inputs : mapM_res (read_object wd) paths = Ok inputs ->
  forall p e, (p, Some e) ∈ inputs -> p ∈ paths /\ wd_elf wd p = Some (Some e).
Proof.
  revert inputs; induction paths as [|q paths IH]; intros inputs H; simpl in H; [injection H as <-; set_solver|].
  apply bind_Ok in H as ([q' x] & Hx & H). apply bind_Ok in H as (xs & Hxs & [= <-]). intros p e Hin.
  apply elem_of_cons in Hin as [[= -> ->]|Hin].
  - unfold read_object in Hx. destruct (wd_elf wd q) eqn:Eq; [|done]. injection Hx as <- <-. split; [set_solver|done].
  - destruct (IH xs Hxs p e Hin). split; [set_solver|done].
Qed.

(** Invariant rule for [foldM] that sees the elements processed so far. *)
Lemma foldM_trace {S A} (P : list A -> S -> Prop) (f : S -> A -> res S) l s s' : P [] s ->
  (forall pre a post s s', l = pre ++ a :: post -> P pre s -> f s a = Ok s' -> P (pre ++ [a]) s') ->
  foldM f l s = Ok s' -> P l s'.
Proof.
  intros H0 Hstep.
  assert (G : forall post pre s, l = pre ++ post -> P pre s -> foldM f post s = Ok s' -> P l s').
  { induction post as [|a post IH]; intros pre s0 E HP H; simpl in H.
    - injection H as <-. subst l. by rewrite !app_nil_r.
    - apply bind_Ok in H as (s1 & H1 & H). apply (IH (pre ++ [a]) s1); [|by eapply Hstep|done]. subst l. by rewrite <- app_assoc. }
  intros H. exact (G l [] s eq_refl H0 H).
Qed.

(** The general principle. [E w w'] relates a writer to a later one, [R e i w sr]
    says that [sr] stands for section [i] of object [e], [Q e sym w r] that [r]
    stands for its symbol [sym]. *)
Section refs.
  Context (wd : world) (l : linker) (P : writer -> Prop) (E : writer -> writer -> Prop).
  Context (R : elf_obj -> nat -> writer -> section_ref -> Prop) (Q : elf_obj -> Sym -> writer -> symref -> Prop).
  Context (Erefl : forall w, E w w) (Etrans : forall a b c, E a b -> E b c -> E a c).
  Context (ER : forall e i w w' sr, P w -> P w' -> E w w' -> R e i w sr -> R e i w' sr).
  Context (EQ : forall e sym w w' r, P w -> P w' -> E w w' -> Q e sym w r -> Q e sym w' r).
  Context (Hsec : forall w e i name sh data w' sr, P w -> input_section wd l e name sh -> eo_shdrs e !! i = Some sh ->
    section_data (eo_data e) sh = Ok data -> add_section w name sh data = Ok (w', sr) -> P w' /\ E w w' /\ R e i w' sr).
  (** What is known of the section reference handed over with a symbol. *)
  Definition sec_ref_of (e : elf_obj) (w : writer) (i : nat) (o : option section_ref) : Prop :=
    match o with
    | Some sr => R e i w sr
    | None => forall sh, eo_shdrs e !! i = Some sh -> sh_type sh ∈ SKIPPED_SECTIONS
    end.
  Context (Hsym : forall w e sym o name path w' r, P w -> is_input wd l e -> sym ∈ eo_syms e ->
    eo_strtab e (st_name sym) = Some name -> sec_ref_of e w (N.to_nat (st_shndx sym)) o ->
    add_symbol w sym o name path = Ok (w', r) -> P w' /\ E w w' /\ Q e sym w' r).
  Context (Hrel : forall w e idx rels rel sym sym' r sr w', P w -> is_input wd l e -> (idx, rels) ∈ eo_relocs e -> rel ∈ rels ->
    gr_sym rel <> 0 -> eo_syms e !! N.to_nat (gr_sym rel) = Some sym -> idx <> 0 -> R e (N.to_nat (idx - 1)) w sr ->
    sym' ∈ eo_syms e -> sym_key sym' = sym_key sym -> Q e sym' w r ->
    add_relocation w (mkRela (gr_offset rel) (u64 (gr_sym rel * 2^32) + gr_type rel) (default 0%Z (gr_addend rel))) r sr = Ok w' ->
    P w' /\ E w w').
  Context (Hdyn : forall w path e sym name so w' r, P w -> is_lib wd l path e -> sym ∈ eo_dynsyms e ->
    eo_dynstr e (st_name sym) = Some name -> file_name path = Some so -> is_Some (st_get (w_strtab w) name) ->
    add_dyn_symbol w sym None name path = Ok (w', r) -> P (add_needed w' so) /\ E w (add_needed w' so)).
  Collection all := wd l P E R Q Erefl Etrans ER EQ Hsec Hsym Hrel Hdyn.

  (** The references kept for object [e] are right, and all there. *)
  Definition secs_ok (e : elf_obj) (w : writer) (m : gmap nat section_ref) : Prop :=
    (forall i sr, m !! i = Some sr -> R e i w sr) /\
    (forall i sh, eo_shdrs e !! i = Some sh -> sh_type sh ∉ SKIPPED_SECTIONS -> is_Some (m !! i)).
  Definition syms_ok (e : elf_obj) (w : writer) (es : elf_state) : Prop :=
    forall k r, kassoc k (es_symbols es) = Some r -> exists sym, sym ∈ eo_syms e /\ sym_key sym = k /\ Q e sym w r.
  Definition loaded (e : elf_obj) (w : writer) : Prop :=
    (forall i sh, eo_shdrs e !! i = Some sh -> sh_type sh ∉ SKIPPED_SECTIONS -> exists sr, R e i w sr) /\
    (forall sym, sym ∈ eo_syms e -> exists r, Q e sym w r).

  Lemma secs_ok_mono e w w' m : P w -> P w' -> E w w' -> secs_ok e w m -> secs_ok e w' m.
  Proof using all. intros HP HP' HE [H1 H2]. split; [|done]. intros i sr Hi. eapply (ER e i w w'); [done|done|done|]. by apply H1. Qed.
  Lemma loaded_mono e w w' : P w -> P w' -> E w w' -> loaded e w -> loaded e w'.
  Proof using all.
    intros HP HP' HE [H1 H2]. split.
    - intros i sh Hi Ht. destruct (H1 i sh Hi Ht) as [sr Hsr]. exists sr. by eapply (ER e i w w').
    - intros sym Hin. destruct (H2 sym Hin) as [r Hr]. exists r. by eapply (EQ e sym w w').
  Qed.

  Lemma process_sections_refs e w w' es : is_input wd l e -> P w -> process_sections e w = Ok (w', es) ->
    P w' /\ E w w' /\ secs_ok e w' (es_sections es) /\ es_symbols es = [].
  Proof using all.
    intros He HP H. unfold process_sections in H. apply bind_Ok in H as ([w1 m] & H & [= <- <-]). simpl.
    assert (G : P w1 /\ E w w1 /\ (forall i sr, m !! i = Some sr -> R e i w1 sr) /\
      forall i sh, (i, sh) ∈ imap pair (eo_shdrs e) -> sh_type sh ∉ SKIPPED_SECTIONS -> is_Some (m !! i)).
    { revert H. apply (foldM_trace (fun pre st => P st.1 /\ E w st.1 /\ (forall i sr, st.2 !! i = Some sr -> R e i st.1 sr) /\
        forall i sh, (i, sh) ∈ pre -> sh_type sh ∉ SKIPPED_SECTIONS -> is_Some (st.2 !! i))); simpl.
      - split; [done|]. split; [apply Erefl|]. split; [|by intros i sh Hx%elem_of_nil]. intros i sr Hx. by rewrite lookup_empty in Hx.
      - intros pre [i sh] post [w0 m0] [w2 m2] Hl (HP0 & HE0 & HR0 & HC0) Hst. simpl in *. unfold process_section in Hst.
        destruct (bool_decide_reflect (sh_type sh ∈ SKIPPED_SECTIONS)) as [Hsk|Hsk].
        { injection Hst as <- <-. split; [done|]. split; [done|]. split; [done|]. intros j sh' [Hj|Hj]%elem_of_app Ht; [by apply HC0 with sh'|].
          apply elem_of_list_singleton in Hj. injection Hj as -> ->. done. }
        destruct (eo_shstr e (sh_name sh)) as [name|] eqn:En; [|done].
        apply bind_Ok in Hst as (data & Hd & Hst). apply bind_Ok in Hst as ([w3 r] & H3 & [= <- <-]).
        assert (Hi : eo_shdrs e !! i = Some sh).
        { assert (Hin : (i, sh) ∈ imap pair (eo_shdrs e)) by (rewrite Hl; apply elem_of_app; right; apply elem_of_list_here).
          apply elem_of_lookup_imap in Hin as (k & y & [= -> ->] & Hk). done. }
        destruct (Hsec w0 e i name sh data w3 r) as (HP3 & HE3 & HR3); [done| |done|done|done|].
        { split; [done|]. split; [by eapply elem_of_list_lookup_2|]. by split. }
        split; [done|]. split; [by eapply Etrans|]. split.
        + intros j sr [[<- <-]|[_ Hj]]%lookup_insert_Some; [done|]. eapply (ER e j w0 w3); [done|done|done|]. by apply HR0.
        + intros j sh' [Hj|Hj]%elem_of_app Ht.
          * apply lookup_insert_is_Some. destruct (decide (i = j)); [by left|right]. split; [done|]. by apply HC0 with sh'.
          * apply elem_of_list_singleton in Hj. injection Hj as -> ->. rewrite lookup_insert. done. }
    destruct G as (G1 & G2 & G3 & G4). split; [done|]. split; [done|]. split; [|done]. split; [done|].
    intros i sh Hi. apply G4. apply elem_of_lookup_imap. eauto.
  Qed.

  Lemma process_symbols_refs e path w es w' es' : is_input wd l e -> P w -> secs_ok e w (es_sections es) -> syms_ok e w es ->
    process_symbols e path w es = Ok (w', es') ->
    P w' /\ E w w' /\ es_sections es' = es_sections es /\ syms_ok e w' es' /\ (forall sym, sym ∈ eo_syms e -> exists r, Q e sym w' r).
  Proof using all.
    intros He HP Hse Hsy H. unfold process_symbols in H.
    assert (G : P w' /\ E w w' /\ es_sections es' = es_sections es /\ syms_ok e w' es' /\ (forall sym, sym ∈ eo_syms e -> exists r, Q e sym w' r)); [|done].
    revert H. apply (foldM_trace (fun pre st => P st.1 /\ E w st.1 /\ es_sections st.2 = es_sections es /\ syms_ok e st.1 st.2 /\
      (forall sym, sym ∈ pre -> exists r, Q e sym st.1 r))); simpl.
    - split; [done|]. split; [apply Erefl|]. split; [done|]. split; [done|]. by intros sym Hx%elem_of_nil.
    - intros pre sym post [w0 es0] [w2 es2] Hl (HP0 & HE0 & HS0 & HQ0 & HC0) Hst. simpl in *. unfold process_symbol in Hst.
      destruct (eo_strtab e (st_name sym)) as [name|] eqn:En; [|done].
      apply bind_Ok in Hst as ([w3 r] & H3 & [= <- <-]). simpl.
      destruct (Hsym w0 e sym (es_sections es0 !! N.to_nat (st_shndx sym)) name path w3 r) as (HP3 & HE3 & HQ3); [done|done| |done| |done|].
      { rewrite Hl. apply elem_of_app; right; apply elem_of_list_here. }
      { rewrite HS0. pose proof (secs_ok_mono e w w0 _ HP HP0 HE0 Hse) as [S1 S2]. unfold sec_ref_of.
        destruct (es_sections es !! _) as [sr|] eqn:Es; [by apply S1|]. intros sh Hsh.
        destruct (decide (sh_type sh ∈ SKIPPED_SECTIONS)) as [Hin|Hin]; [done|]. destruct (S2 _ _ Hsh Hin) as [x Hx]. congruence. }
      split; [done|]. split; [by eapply Etrans|]. split; [done|]. split.
      + intros k r'. simpl. destruct (decide (k = sym_key sym)) as [->|Hne].
        * intros [= <-]. exists sym. split; [|done]. rewrite Hl. apply elem_of_app; right; apply elem_of_list_here.
        * intros Hk. destruct (HQ0 k r' Hk) as (s & Hs1 & Hs2 & Hs3). exists s. split; [done|]. split; [done|]. by eapply (EQ e s w0 w3).
      + intros s [Hs|Hs]%elem_of_app.
        * destruct (HC0 s Hs) as [r' Hr']. exists r'. by eapply (EQ e s w0 w3).
        * apply elem_of_list_singleton in Hs as ->. by exists r.
  Qed.

  Lemma process_relocations_refs e es w w' : is_input wd l e -> P w -> secs_ok e w (es_sections es) -> syms_ok e w es ->
    process_relocations e es w = Ok w' -> P w' /\ E w w'.
  Proof using all.
    intros He HP Hse Hsy H. unfold process_relocations in H. revert H.
    apply (foldM_trace (fun _ st => P st /\ E w st)); [by split|].
    intros pre [idx rels] post w1 w2 Hl (HP1 & HE1) H1. revert H1.
    apply (foldM_trace (fun _ st => P st /\ E w st)); [by split|].
    intros pre' rel post' w3 w4 Hl' (HP3 & HE3) H3. unfold process_relocation in H3.
    destruct (N.eqb_spec (gr_sym rel) 0) as [E0|E0]; [by injection H3 as <-|].
    apply bind_Ok in H3 as (sym & Hs & H3). apply unwrap_Ok in Hs. apply bind_Ok in H3 as (tgt & Ht & H3).
    unfold usub in Ht. destruct (N.leb_spec 1 idx) as [Hle|Hle]; [|done]. injection Ht as <-.
    destruct (es_sections es !! _) as [sref|] eqn:Esr; [|by injection H3 as <-].
    destruct (kassoc _ _) as [r|] eqn:Ek; [|by injection H3 as <-].
    destruct (Hsy _ _ Ek) as (sym' & S1 & S2 & S3).
    destruct (Hrel w3 e idx rels rel sym sym' r sref w4) as [HP4 HE4]; try done.
    - rewrite Hl. apply elem_of_app; right; apply elem_of_list_here.
    - rewrite Hl'. apply elem_of_app; right; apply elem_of_list_here.
    - lia.
    - eapply (ER e _ w w3); [done|done|done|]. by apply Hse.
    - by eapply (EQ e sym' w w3).
    - split; [done|]. by eapply Etrans.
  Qed.

  Lemma load_objects_refs w w' : P w -> load_objects wd l w = Ok w' -> P w' /\ E w w' /\
    forall p e, p ∈ lk_objects l -> wd_elf wd p = Some (Some e) -> eo_is_object e = true -> loaded e w'.
  Proof using all.
    intros HP H. unfold load_objects in H. apply bind_Ok in H as (inputs & Hi & H).
    apply bind_Ok in H as ([w1 elfs] & H1 & H2).
    set (G1 := fun (elfs : list (string * elf_obj * elf_state)) (w : writer) => forall p e es, (p, e, es) ∈ elfs ->
      is_input wd l e /\ secs_ok e w (es_sections es) /\ es_symbols es = []).
    assert (HA : (P w1 /\ E w w1 /\ G1 elfs w1) /\ forall p e, (p, Some e) ∈ inputs -> eo_is_object e = true -> exists es, (p, e, es) ∈ elfs).
    { revert H1. apply (foldM_trace (fun pre st => (P st.1 /\ E w st.1 /\ G1 st.2 st.1) /\
        forall p e, (p, Some e) ∈ pre -> eo_is_object e = true -> exists es, (p, e, es) ∈ st.2)); simpl.
      { split; [split; [done|]; split; [apply Erefl|]|]; [intros p e es Hx; by apply elem_of_nil in Hx|intros p e Hx; by apply elem_of_nil in Hx]. }
      intros pre [path x] post [w0 es0] [w3 es3] Hl [(HP0 & HE0 & He0) HC0] Hst. unfold add_object_sections in Hst. simpl in *.
      destruct x as [e|]; [|done]. destruct (eo_is_object e) eqn:Eo.
      - assert (is_input wd l e) as He.
        { left; exists path; eapply read_objects_in; [exact Hi|]. rewrite Hl. apply elem_of_app; right; apply elem_of_list_here. }
        apply bind_Ok in Hst as ([w4 es4] & H4 & [= <- <-]). simpl in *.
        destruct (process_sections_refs e w0 w4 es4 He HP0 H4) as (Q1 & Q2 & Q3 & Q4).
        split; [split; [done|]; split; [by eapply Etrans|]|].
        + intros p' e' es' [Hx|Hx]%elem_of_app.
          * destruct (He0 _ _ _ Hx) as (X1 & X2 & X3). split; [done|]. split; [|done]. by eapply (secs_ok_mono e' w0 w4).
          * apply elem_of_list_singleton in Hx. injection Hx as -> -> ->. done.
        + intros p' e' [Hx|Hx]%elem_of_app Hob.
          * destruct (HC0 p' e' Hx Hob) as [es Hes]. exists es. apply elem_of_app. by left.
          * apply elem_of_list_singleton in Hx. injection Hx as -> ->. exists es4. apply elem_of_app. right. apply elem_of_list_here.
      - injection Hst as <- <-. split; [done|]. intros p' e' [Hx|Hx]%elem_of_app Hob; [by apply HC0|].
        apply elem_of_list_singleton in Hx. injection Hx as -> ->. congruence. }
    destruct HA as [(HP1 & HE1 & HG1) HC1].
    assert (HB : P w' /\ E w1 w' /\ forall p e es, (p, e, es) ∈ elfs -> loaded e w').
    { revert H2. apply (foldM_trace (fun pre st => P st /\ E w1 st /\ forall p e es, (p, e, es) ∈ pre -> loaded e st)).
      { split; [done|]. split; [apply Erefl|]. intros p e es Hx. by apply elem_of_nil in Hx. }
      intros pre [[path e] es] post w3 w4 Hl (HP3 & HE3 & HL3) H3. unfold add_object_symbols in H3.
      apply bind_Ok in H3 as ([w5 es5] & H5 & H6).
      destruct (HG1 path e es) as (He & Hse & Hsy0); [rewrite Hl; apply elem_of_app; right; apply elem_of_list_here|].
      pose proof (secs_ok_mono e w1 w3 _ HP1 HP3 HE3 Hse) as Hse3.
      destruct (process_symbols_refs e path w3 es w5 es5 He HP3 Hse3) as (S1 & S2 & S3 & S4 & S5); [|done|].
      { intros k r Hk. by rewrite Hsy0 in Hk. }
      pose proof (secs_ok_mono e w3 w5 _ HP3 S1 S2 Hse3) as Hse5.
      destruct (process_relocations_refs e es5 w5 w4 He S1) as (T1 & T2); [by rewrite S3|done|done|].
      split; [done|]. split; [eapply Etrans; [exact HE3|]; by eapply Etrans|].
      intros p' e' es' [Hx|Hx]%elem_of_app.
      - eapply (loaded_mono e' w3 w4); [done|done|by eapply Etrans|]. by eapply HL3.
      - apply elem_of_list_singleton in Hx. injection Hx as -> -> ->. eapply (loaded_mono e w5 w4); [done|done|done|].
        split; [|done]. intros i sh Hish Ht. destruct Hse5 as [V1 V2]. destruct (V2 i sh Hish Ht) as [sr Hsr]. exists sr. by apply V1. }
    destruct HB as (HP' & HE' & HL'). split; [done|]. split; [by eapply Etrans|].
    intros p e Hp He Ho. destruct (HC1 p e) as [es Hes]; [|done|by eapply HL'].
    clear -Hi Hp He. revert inputs Hi. induction (lk_objects l) as [|q paths IH]; intros inputs Hi; simpl in Hi; [by apply elem_of_nil in Hp|].
    apply bind_Ok in Hi as ([q' x] & Hx & Hi). apply bind_Ok in Hi as (xs & Hxs & [= <-]).
    apply elem_of_cons in Hp as [->|Hp]; [|apply elem_of_cons; right; by apply (IH Hp xs Hxs)].
    unfold read_object in Hx. rewrite He in Hx. injection Hx as <- <-. apply elem_of_list_here.
  Qed.

  Lemma match_dynsyms_refs e path name syms found w w' found' : is_lib wd l path e ->
    (forall s, s ∈ syms -> s ∈ eo_dynsyms e) -> is_Some (st_get (w_strtab w) name) -> P w ->
    match_dynsyms e path name syms found w = Ok (w', found') -> P w' /\ E w w'.
  Proof using all.
    intros Hl. revert found w; induction syms as [|sym syms IH]; intros found w Hin Hn HP H; simpl in H; [injection H as <- <-; by split|].
    assert (Hin' : forall s, s ∈ syms -> s ∈ eo_dynsyms e) by (intros s Hs; apply Hin; by apply elem_of_list_further).
    destruct (eo_dynstr e (st_name sym)) as [n|] eqn:En; [|done].
    destruct (decide (name = n)) as [->|]; [|by eapply IH].
    apply bind_Ok in H as ([w1 r] & H1 & H). apply bind_Ok in H as (so & Hso & H). apply unwrap_Ok in Hso.
    destruct (Hdyn w path e sym n so w1 r) as [HP1 HE1]; try done; [apply Hin, elem_of_list_here|].
    destruct (IH true (add_needed w1 so)) as [HP2 HE2]; try done.
    - rewrite add_needed_strtab. by rewrite (add_dyn_symbol_strtab _ _ _ _ _ _ _ H1).
    - split; [done|]. by eapply Etrans.
  Qed.
  Lemma match_undefines_refs e path us w w' us' : is_lib wd l path e -> P w -> match_undefines e path us w = Ok (w', us') -> P w' /\ E w w'.
  Proof using all.
    intros Hl. revert w us'; induction us as [|u us IH]; intros w us' HP H; simpl in H; [injection H as <- <-; by split|].
    apply bind_Ok in H as (name & Hn & H). apply bind_Ok in H as ([w1 found] & H1 & H).
    apply bind_Ok in H as ([w2 rest] & H2 & [= <- <-]).
    assert (P w1 /\ E w w1) as [HP1 HE1].
    { destruct name as [name|]; [|injection H1 as <- <-; by split].
      eapply match_dynsyms_refs; [done|done| |done|exact H1].
      unfold symbol_name in Hn. destruct u as [n|]; [|done]. apply bind_Ok in Hn as (s & Hs & [= <-]). apply unwrap_Ok in Hs.
      by eapply st_name_at_get. }
    destruct (IH w1 rest HP1 H2) as [HP2 HE2]. split; [done|]. by eapply Etrans.
  Qed.
  Lemma libs_refs us w w' us' : P w -> find_undefined_symbols_in_libs wd l us w = Ok (w', us') -> P w' /\ E w w'.
  Proof using all.
    intros HP H. assert (G : P (w', us').1 /\ E w (w', us').1); [|exact G].
    revert H. apply (foldM_trace (fun _ st => P st.1 /\ E w st.1)); [by split|].
    intros pre lib post [w1 us1] [w2 us2] Hl [HP1 HE1] H1. unfold search_lib in H1.
    destruct (wd_elf wd lib.1) as [[e|]|] eqn:Ee; [|done|done]. simpl in *.
    destruct (match_undefines_refs e lib.1 us1 w1 w2 us2) as [HP2 HE2]; try done; [|split; [done|by eapply Etrans]].
    split; [|done]. apply elem_of_list_fmap. exists lib. split; [done|]. rewrite Hl. apply elem_of_app; right; apply elem_of_list_here.
  Qed.
  Lemma load_member_refs ar path w m w' : path ∈ lk_archives l -> wd_archive wd path = Some (Some ar) ->
    P w -> load_member ar path w m = Ok w' -> P w' /\ E w w'.
  Proof using all.
    intros Hp Har HP H. unfold load_member in H. apply bind_Ok in H as ([e|] & He & H); [|done]. apply unwrap_Ok in He.
    assert (is_input wd l e) as Hi by (right; eauto 10).
    destruct (eo_is_object e); [|done]. apply bind_Ok in H as ([w1 es1] & H1 & H). apply bind_Ok in H as ([w2 es2] & H2 & H).
    destruct (process_sections_refs e w w1 es1 Hi HP H1) as (A1 & A2 & A3 & A4).
    destruct (process_symbols_refs e path w1 es1 w2 es2 Hi A1 A3) as (B1 & B2 & B3 & B4 & B5); [|done|].
    { intros k r Hk. by rewrite A4 in Hk. }
    destruct (process_relocations_refs e es2 w2 w' Hi B1) as (C1 & C2); [rewrite B3; by eapply (secs_ok_mono e w1 w2)|done|done|].
    split; [done|]. eapply Etrans; [exact A2|]. by eapply Etrans.
  Qed.
  Lemma archives_refs lo round us w w' us' : P w -> process_archives_containing wd lo round l us w = Ok (w', us') -> P w' /\ E w w'.
  Proof using all.
    intros HP H. assert (G : P (w', us').1 /\ E w (w', us').1); [|exact G].
    revert H. apply (foldM_trace (fun _ st => P st.1 /\ E w st.1)); [by split|].
    intros pre path post [w1 us1] [w2 us2] Hl [HP1 HE1] H1. unfold search_archive in H1.
    destruct (wd_archive wd path) as [[ar|]|] eqn:Ea; [|done|done].
    apply bind_Ok in H1 as ([ms un] & _ & H1). apply bind_Ok in H1 as (w3 & H3 & [= <- <-]). simpl in *.
    revert H3. apply (foldM_trace (fun _ st => P st /\ E w st)); [by split|].
    intros pre' m post' w4 w5 _ [HP4 HE4] H4.
    destruct (load_member_refs ar path w4 m w5) as [HP5 HE5]; try done; [|split; [done|by eapply Etrans]].
    rewrite Hl. apply elem_of_app; right; apply elem_of_list_here.
  Qed.
  Lemma resolve_loop_refs lo fuel round us w w' : P w -> resolve_loop wd lo l fuel round us w = Ok w' -> P w' /\ E w w'.
  Proof using all.
    revert round us w; induction fuel as [|fuel IH]; intros round us w HP H; simpl in H; [done|].
    apply bind_Ok in H as ([w1 n1] & H1 & H). apply bind_Ok in H as ([w2 n2] & H2 & H).
    destruct (libs_refs _ _ _ _ HP H1) as [HP1 HE1]. destruct (archives_refs _ _ _ _ _ _ HP1 H2) as [HP2 HE2].
    destruct (_ =? _)%nat; [injection H as <-; split; [done|by eapply Etrans]|].
    destruct (IH _ _ _ HP2 H) as [HP3 HE3]. split; [done|]. eapply Etrans; [|done]. by eapply Etrans.
  Qed.
  Lemma resolve_refs lo fuel w : (forall w0, writer_new (lk_options l) = Ok w0 -> P w0) ->
    resolve wd lo l fuel = Ok w -> P w /\ (exists w0, writer_new (lk_options l) = Ok w0 /\ E w0 w) /\
    forall p e, p ∈ lk_objects l -> wd_elf wd p = Some (Some e) -> eo_is_object e = true -> loaded e w.
  Proof using all.
    intros H0 H. unfold resolve in H. apply bind_Ok in H as (w0 & Hw0 & H). apply bind_Ok in H as (w1 & H1 & H).
    destruct (load_objects_refs w0 w1 (H0 _ Hw0) H1) as (HP1 & HE1 & HL1).
    destruct (resolve_loop_refs _ _ _ _ _ _ HP1 H) as [HP2 HE2].
    split; [done|]. split; [exists w0; split; [done|by eapply Etrans]|].
    intros p e Hp He Ho. eapply (loaded_mono e w1 w); [done|done|done|]. by eapply HL1.
  Qed.
End refs.

(** The special case of a plain invariant. *)
Section run.
  Context (wd : world) (l : linker) (P : writer -> Prop).
  Context (Hsec : forall w e name sh data w' r, P w -> input_section wd l e name sh ->
    section_data (eo_data e) sh = Ok data -> add_section w name sh data = Ok (w', r) -> P w').
  Context (Hsym : forall w e sym sr name ref w' r, P w -> is_input wd l e -> sym ∈ eo_syms e ->
    eo_strtab e (st_name sym) = Some name -> add_symbol w sym sr name ref = Ok (w', r) -> P w').
  Context (Hrel : forall w rel r sr w', P w -> add_relocation w rel r sr = Ok w' -> P w').
  Context (Hdyn : forall w path e sym name so w' r, P w -> is_lib wd l path e -> sym ∈ eo_dynsyms e ->
    eo_dynstr e (st_name sym) = Some name -> file_name path = Some so -> is_Some (st_get (w_strtab w) name) ->
    add_dyn_symbol w sym None name path = Ok (w', r) -> P (add_needed w' so)).

  Lemma resolve_inv lo fuel w : (forall w0, writer_new (lk_options l) = Ok w0 -> P w0) ->
    resolve wd lo l fuel = Ok w -> P w.
  Proof using Hsec Hsym Hrel Hdyn.
    intros H0 H. eapply (resolve_refs wd l P (fun _ _ => True) (fun _ _ _ _ => True) (fun _ _ _ _ => True)); try done.
    - intros w1 e i name sh data w' sr HP Hi _ Hd Ha. split; [|done]. by eapply Hsec.
    - intros w1 e sym o name path w' r HP Hi Hs Hn _ Ha. split; [|done]. by eapply Hsym.
    - intros w1 e idx rels rel sym sym' r sr w' HP _ _ _ _ _ _ _ _ _ _ Ha. split; [|done]. by eapply Hrel.
    - intros w1 path e sym name so w' r HP Hl Hs Hn Hf Hg Ha. split; [|done]. by eapply Hdyn.
  Qed.
End run.
