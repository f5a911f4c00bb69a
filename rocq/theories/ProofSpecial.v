(** What the special-symbol stage does, exactly. *)
From Verif Require Export ProofBind.

Definition name_ref (sn : strtab) (n : string) : option symref := (fun e => RNamed (u32 (en_offset e))) <$> st_get sn n.
Definition mark (o : option symref) (j : nat) (cs : list chunk) : list chunk :=
  match o with Some r => alter (chunk_add_symbol r) j cs | None => cs end.
Definition marked (sn : strtab) (a b : string) (cs : list chunk) : list chunk :=
  mark (name_ref sn b) (length cs - 1) (mark (name_ref sn a) 0 cs).
Definition set_value (v : N) (y : symbol) : symbol := y <| s_sym := s_sym y <| st_value := v |> |>.
Definition set_end (sn : strtab) (b : string) (v : N) (t : symtab) : symtab :=
  match name_ref sn b with Some r => syt_modify t r (set_value v) | None => t end.
Lemma mark_length o j cs : length (mark o j cs) = length cs.
Proof. unfold mark. destruct o; [apply alter_length|done]. Qed.
Lemma bound_exact sn a b t s t' s' : bound_symbols sn a b t s = Ok (t', s') ->
  s' = s <| sc_chunks := marked sn a b (sc_chunks s) |> /\ t' = set_end sn b (size_on_disk s) t /\
  (is_Some (name_ref sn a) \/ is_Some (name_ref sn b) -> sc_chunks s <> []) /\
  (forall r, name_ref sn b = Some r -> is_Some (syt_get t r)).
Proof.
  unfold bound_symbols, marked, set_end, name_ref. intros H. apply bind_Ok in H as (s1 & H1 & H).
  assert (E1 : s1 = s <| sc_chunks := mark ((fun e => RNamed (u32 (en_offset e))) <$> st_get sn a) 0 (sc_chunks s) |> /\ (is_Some (st_get sn a) -> sc_chunks s <> [])).
  { destruct (st_get sn a); [apply bind_Ok in H1 as (c & Hc & [= <-])|injection H1 as <-; split; [by destruct s|by intros [? ?]]].
    split; [done|]. intros _ E. rewrite E in Hc. done. }
  destruct E1 as [-> Hne]. destruct (st_get sn b) as [e|].
  - apply bind_Ok in H as (x & Hx & H). apply unwrap_Ok in Hx. cbn [sc_chunks] in H.
    change (sc_chunks (s <| sc_chunks := mark ((fun e => RNamed (u32 (en_offset e))) <$> st_get sn a) 0 (sc_chunks s) |>)) with (mark ((fun e => RNamed (u32 (en_offset e))) <$> st_get sn a) 0 (sc_chunks s)) in H.
    destruct (mark _ 0 (sc_chunks s)) as [|c0 cs0] eqn:E; [discriminate|]. injection H as <- <-.
    cbn [fmap option_fmap option_map mark]. rewrite <- (mark_length ((fun e => RNamed (u32 (en_offset e))) <$> st_get sn a) 0 (sc_chunks s)), E.
    split; [done|]. split; [done|]. split.
    + intros _ E'. rewrite E' in E. destruct (st_get sn a); done.
    + intros r Hr. injection Hr as <-. by exists x.
  - injection H as <- <-. cbn [fmap option_fmap option_map mark]. split; [done|]. split; [done|]. split; [|done].
    intros [Hs|[? Hs]]; [|done]. apply Hne. destruct (st_get sn a); [done|by destruct Hs].
Qed.
(** Which array a section is. *)
Definition array_kind (secn : strtab) (skip : list N) (s : section) : option bool :=
  if bool_decide (sh_name (sc_sh s) ∈ skip) then None
  else if bool_decide (st_sh_name secn ".init_array" = Some (sh_name (sc_sh s))) then Some true
  else if bool_decide (st_sh_name secn ".fini_array" = Some (sh_name (sc_sh s))) then Some false
  else None.
Definition start_of (k : bool) : string := if k then "__init_array_start" else "__fini_array_start".
Definition end_of (k : bool) : string := if k then "__init_array_end" else "__fini_array_end".
Definition special_fn (sn secn : strtab) (skip : list N) (s : section) : section :=
  match array_kind secn skip s with Some k => s <| sc_chunks := marked sn (start_of k) (end_of k) (sc_chunks s) |> | None => s end.
Definition special_tab (sn secn : strtab) (skip : list N) (t : symtab) (s : section) : symtab :=
  match array_kind secn skip s with Some k => set_end sn (end_of k) (size_on_disk s) t | None => t end.
Lemma step_exact sn secn skip t s t' s' : special_step sn secn skip t s = Ok (t', s') ->
  s' = special_fn sn secn skip s /\ t' = special_tab sn secn skip t s /\
  forall k, array_kind secn skip s = Some k ->
    (is_Some (name_ref sn (start_of k)) \/ is_Some (name_ref sn (end_of k)) -> sc_chunks s <> []) /\ (forall r, name_ref sn (end_of k) = Some r -> is_Some (syt_get t r)).
Proof.
  unfold special_step, special_fn, special_tab, array_kind. intros H. destruct (bool_decide _).
  { by injection H as <- <-. }
  destruct (bool_decide _).
  { apply bound_exact in H as (-> & -> & H1 & H2). split; [done|]. split; [done|]. intros k Hk. injection Hk as <-. done. }
  destruct (bool_decide _).
  { apply bound_exact in H as (-> & -> & H1 & H2). split; [done|]. split; [done|]. intros k Hk. injection Hk as <-. done. }
  by injection H as <- <-.
Qed.
Definition skip_of (w : writer) : list N := [sh_name (hdr_of id_symstr (w_sections w)); sh_name (hdr_of id_shstr (w_sections w))].
Lemma special_exact w w' : handle_special_symbols w = Ok w' ->
  w_sections w' = special_fn (w_strtab w) (w_shstrtab w) (skip_of w) <$> w_sections w /\
  w_symtab w' = fold_left (special_tab (w_strtab w) (w_shstrtab w) (skip_of w)) (w_sections w) (w_symtab (set_got_symbol w)) /\
  w_strtab w' = w_strtab w /\ w_shstrtab w' = w_shstrtab w /\
  (forall s k, s ∈ w_sections w -> array_kind (w_shstrtab w) (skip_of w) s = Some k ->
     is_Some (name_ref (w_strtab w) (start_of k)) \/ is_Some (name_ref (w_strtab w) (end_of k)) -> sc_chunks s <> []).
Proof.
  unfold handle_special_symbols. intros H. apply bind_Ok in H as ([t secs] & H & [= <-]).
  assert (Hg : w_sections (set_got_symbol w) = w_sections w /\ w_strtab (set_got_symbol w) = w_strtab w /\ w_shstrtab (set_got_symbol w) = w_shstrtab w) by (unfold set_got_symbol; destruct (st_get _ _); done).
  destruct Hg as (G1 & G2 & G3). rewrite G1, G2, G3 in H. cbn [w_sections w_symtab w_strtab w_shstrtab]. fold (skip_of w) in H.
  assert (E : secs = special_fn (w_strtab w) (w_shstrtab w) (skip_of w) <$> w_sections w /\
    t = fold_left (special_tab (w_strtab w) (w_shstrtab w) (skip_of w)) (w_sections w) (w_symtab (set_got_symbol w)) /\
    forall s k, s ∈ w_sections w -> array_kind (w_shstrtab w) (skip_of w) s = Some k ->
      is_Some (name_ref (w_strtab w) (start_of k)) \/ is_Some (name_ref (w_strtab w) (end_of k)) -> sc_chunks s <> []).
  { revert H. generalize (w_symtab (set_got_symbol w)), (skip_of w). intros t0 skip. generalize (w_sections w). intros k. revert t0 t secs.
    induction k as [|s k IH]; intros t0 t secs H; simpl in H.
    - injection H as <- <-. split; [done|]. split; [done|]. by intros s k ?%elem_of_nil.
    - apply bind_Ok in H as ([t1 s1] & H1 & H). apply bind_Ok in H as ([t2 s2] & H2 & H). injection H as <- <-.
      apply step_exact in H1 as (-> & -> & H1). apply IH in H2 as (-> & -> & H2). split; [done|]. split; [done|].
      intros x k' Hx. apply elem_of_cons in Hx as [->|Hx]; [intros Hk; by apply H1|by apply H2]. }
  destruct E as (-> & -> & E). split; [done|]. split; [done|]. split; [exact G2|]. split; [exact G3|]. exact E.
Qed.

(** Registrations only come on top. *)
Definition special_names : list string := ["__init_array_start"; "__init_array_end"; "__fini_array_start"; "__fini_array_end"].
Definition more_syms (P : symref -> Prop) (c c' : chunk) : Prop :=
  exists tl, c' = c <| c_symbols := c_symbols c ++ tl |> /\ Forall P tl /\ (NoDup (c_symbols c) -> NoDup (c_symbols c')).
Lemma more_syms_refl P c : more_syms P c c.
Proof. exists []. rewrite app_nil_r. split; [by destruct c|]. split; [constructor|done]. Qed.
Lemma more_syms_trans P a b c : more_syms P a b -> more_syms P b c -> more_syms P a c.
Proof.
  intros (t1 & -> & F1 & N1) (t2 & -> & F2 & N2). exists (t1 ++ t2). simpl. rewrite app_assoc. split; [done|]. split; [by apply Forall_app|]. simpl in *. auto.
Qed.
Lemma more_syms_add (P : symref -> Prop) r c : P r -> more_syms P c (chunk_add_symbol r c).
Proof.
  intros HP. unfold chunk_add_symbol. destruct (decide (r ∈ c_symbols c)) as [Hin|Hin]; [apply more_syms_refl|].
  exists [r]. split; [done|]. split; [by constructor|]. simpl. intros Hn. apply NoDup_app. split; [done|]. split; [|apply NoDup_singleton]. by intros x Hx ->%elem_of_list_singleton.
Qed.
Lemma F2_more_refl P cs : Forall2 (more_syms P) cs cs.
Proof. induction cs; constructor; [apply more_syms_refl|done]. Qed.
Lemma mark_more (P : symref -> Prop) o j cs : (forall r, o = Some r -> P r) -> Forall2 (more_syms P) cs (mark o j cs).
Proof.
  intros H. unfold mark. destruct o as [r|]; [|apply F2_more_refl]. specialize (H r eq_refl). revert j. induction cs as [|c cs IH]; intros j; [destruct j; constructor|].
  destruct j as [|j]; simpl.
  - constructor; [by apply more_syms_add|apply F2_more_refl].
  - constructor; [apply more_syms_refl|apply IH].
Qed.
Definition special_ref (sn : strtab) (r : symref) : Prop := exists n, n ∈ special_names /\ name_ref sn n = Some r.
Lemma special_more sn secn skip s : Forall2 (more_syms (special_ref sn)) (sc_chunks s) (sc_chunks (special_fn sn secn skip s)).
Proof.
  unfold special_fn. destruct (array_kind secn skip s) as [k|]; [|apply F2_more_refl]. simpl. unfold marked.
  assert (G : forall n, n ∈ special_names -> forall r, name_ref sn n = Some r -> special_ref sn r) by (intros n Hn r Hr; by exists n).
  assert (Hs : start_of k ∈ special_names) by (destruct k; apply (bool_decide_unpack _); vm_compute; exact I).
  assert (He : end_of k ∈ special_names) by (destruct k; apply (bool_decide_unpack _); vm_compute; exact I).
  pose proof (mark_more (special_ref sn) _ 0 (sc_chunks s) (G _ Hs)) as F1.
  pose proof (mark_more (special_ref sn) _ (length (sc_chunks s) - 1) (mark (name_ref sn (start_of k)) 0 (sc_chunks s)) (G _ He)) as F2.
  eapply Forall2_transitive; [|exact F1|exact F2]. intros x y z; apply more_syms_trans.
Qed.
