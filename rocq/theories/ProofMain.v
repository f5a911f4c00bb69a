(** From the command line to the linker that is run. *)
From Verif Require Export SpecMain ProofArgs.

(** * Sorts of files *)
Definition kind_sort (k : file_kind) : sort_of_file := match k with KArchive => SArchive | KElfObject => SObject | KElfSharedLib => SShared | KText => SScript end.
Lemma two_last (h : bytes) : length h = 18%nat -> (drop 16 h = [3; 0] <-> h !! 16%nat = Some 3 /\ h !! 17%nat = Some 0).
Proof.
  intros Hl. split.
  - intros E. split; [rewrite <- (Nat.add_0_r 16), <- lookup_drop, E; reflexivity|change 17%nat with (16 + 1)%nat; rewrite <- lookup_drop, E; reflexivity].
  - intros [E1 E2]. apply list_eq. intros i. rewrite lookup_drop. destruct i as [|[|i]]; [exact E1|exact E2|]. cbn [lookup list_lookup]. apply lookup_ge_None. lia.
Qed.
Lemma sort_kind (h : bytes) : blen h <= 18 -> file_sort h = kind_sort (file_type_of h).
Proof.
  intros Hl. unfold file_sort, file_type_of, prefixed. destruct (blen h <? 18) eqn:E; [reflexivity|]. apply N.ltb_ge in E. assert (El : length h = 18%nat) by (unfold blen in *; lia).
  change (length [0x21; 0x3c; 0x61; 0x72; 0x63; 0x68; 0x3e; 0x0a]) with 8%nat. change (length [0x7f; 0x45; 0x4c; 0x46]) with 4%nat. unfold AR_MAGIC, ELF_MAGIC.
  destruct (decide (take 8 h = _)) as [D|D]; [rewrite bool_decide_eq_true_2 by exact D; reflexivity|rewrite bool_decide_eq_false_2 by exact D].
  destruct (decide (take 4 h = _)) as [D'|D']; [rewrite bool_decide_eq_true_2 by exact D'|rewrite bool_decide_eq_false_2 by exact D'; reflexivity].
  change ET_DYN with 3. destruct (decide (drop 16 h = [3; 0])) as [D2|D2].
  - apply two_last in D2 as [-> ->]; [|exact El]. reflexivity.
  - destruct (h !! 16%nat) as [a|] eqn:Ea; [|reflexivity]. destruct (decide (a = 3)) as [->|Hn].
    + destruct (h !! 17%nat) as [b|] eqn:Eb; [|reflexivity]. destruct (decide (b = 0)) as [->|Hb]; [exfalso; apply D2; apply two_last; [exact El|split; [exact Ea|exact Eb]]|].
      destruct b; [congruence|reflexivity].
    + cbn [kind_sort]. destruct a as [|[[]|[]|]]; try reflexivity. congruence.
Qed.

(** * Where inputs are found *)
Lemma search_dirs_found fs lib kind dirs : forall found p, search_dirs fs lib kind dirs found = Some p ->
  found = Some p \/ fs_is_file fs p = true /\ exists d, d ∈ dirs /\ (p = path_join d lib \/ p = lib_file d lib kind).
Proof.
  induction dirs as [|d dirs IH]; intros found p; [by left|]. cbn [search_dirs]. destruct (fs_is_file fs (path_join d lib)) eqn:E.
  - intros [= <-]. right. split; [exact E|]. exists d. split; [left|by left].
  - intros H. apply IH in H as [H|(H1 & d' & H2 & H3)].
    + destruct (fs_is_file fs (path_join d (String.append "lib" (String.append lib (String.append "." kind))))) eqn:E'; [|by left]. injection H as <-. right. split; [exact E'|]. exists d. split; [left|right; reflexivity].
    + right. split; [exact H1|]. exists d'. split; [by right|exact H3].
Qed.
Lemma locate_stands fs (l : list token) dirs name p : (forall d, d ∈ dirs -> d ∈ omap (dir_of fs) l) -> locate fs dirs name = Some p -> stands_for fs l name p.
Proof.
  intros Hd. unfold locate. destruct (fs_is_file fs name) eqn:E; [intros [= <-]; split; [exact E|by left]|].
  intros H. assert (K : exists kind, kind ∈ ["so"; "a"] /\ search_dirs fs name kind dirs None = Some p).
  { destruct (search_dirs fs name "so" dirs None) as [q|] eqn:Es; [injection H as <-; exists "so"; split; [left|exact Es]|exists "a"; split; [right; left|exact H]]. }
  destruct K as (kind & Hk & K). apply search_dirs_found in K as [K|(K & d & Hin & Hp)]; [discriminate K|]. split; [exact K|]. right. exists d. split; [by apply Hd|].
  destruct Hp as [Hp|Hp]; [by left|right]. apply elem_of_cons in Hk as [->|Hk]; [by left|]. apply elem_of_list_singleton in Hk as ->. by right.
Qed.

(** * Filing all inputs *)
Record filed (fs : main_fs) (l : list token) (at_ : string -> string) (ins : list (string * bool)) (app app' : app_args) : Prop := {
  fi_objects : exists x, picks fs l at_ SObject (fun p _ => fs_canonicalize fs p) ins x /\ ap_objects app' = ap_objects app ++ x;
  fi_shared : exists x, picks fs l at_ SShared (fun p b => Some (p, b)) ins x /\ opt_shared_libs (ap_opts app') = opt_shared_libs (ap_opts app) ++ x;
  fi_archives : exists x, picks fs l at_ SArchive (fun p _ => fs_canonicalize fs p) ins x /\ forall a, a ∈ ap_archives app' <-> a ∈ ap_archives app \/ a ∈ x;
  fi_scripts : exists x, picks fs l at_ SScript (fun p _ => Some p) ins x /\ ap_scripts app' = ap_scripts app ++ x;
  fi_rest : ap_search_paths app' = ap_search_paths app /\ ap_help app' = ap_help app /\ opt_output (ap_opts app') = opt_output (ap_opts app) }.
Definition at_of (fs : main_fs) (dirs : list string) (n : string) : string := default "" (locate fs dirs n).
Lemma filed_all fs ord l ins : short_heads fs -> forall app app', (forall d, d ∈ ord (ap_search_paths app) -> d ∈ omap (dir_of fs) l) ->
  search_inputs fs ord ins app = Ok (app', None) -> filed fs l (at_of fs (ord (ap_search_paths app))) ins app app'.
Proof.
  intros SH. induction ins as [|[lib b] ins IH]; intros app app' Hd H; cbn [search_inputs] in H.
  { injection H as <-. split.
    - exists []. rewrite app_nil_r. split; [constructor|reflexivity].
    - exists []. rewrite app_nil_r. split; [constructor|reflexivity].
    - exists []. split; [constructor|]. intros a. rewrite elem_of_nil. tauto.
    - exists []. rewrite app_nil_r. split; [constructor|reflexivity].
    - done. }
  destruct (locate fs (ord (ap_search_paths app)) lib) as [p|] eqn:El; [|discriminate H]. apply bind_Ok in H as (app1 & H1 & H).
  unfold file_input in H1. apply bind_Ok in H1 as (h & Hh & H1). apply unwrap_Ok in Hh. pose proof (sort_kind h (SH _ _ Hh)) as Hk.
  assert (St : stands_for fs l lib (at_of fs (ord (ap_search_paths app)) lib)) by (unfold at_of; rewrite El; cbn [default id]; exact (locate_stands fs l _ _ _ Hd El)).
  assert (Ep : at_of fs (ord (ap_search_paths app)) lib = p) by (unfold at_of; by rewrite El).
  assert (Is : is_sort fs (kind_sort (file_type_of h)) (at_of fs (ord (ap_search_paths app)) lib)) by (rewrite Ep; exists h; split; [exact Hh|exact Hk]).
  assert (SP : ap_search_paths app1 = ap_search_paths app).
  { destruct (file_type_of h); [apply bind_Ok in H1 as (c & _ & [= <-])|apply bind_Ok in H1 as (c & _ & [= <-])|injection H1 as <-|injection H1 as <-]; reflexivity. }
  specialize (IH app1 app'). rewrite SP in IH. destruct (IH Hd H) as [F1 F2 F3 F4 F5]. clear IH H.
  destruct F1 as (x1 & P1 & E1), F2 as (x2 & P2 & E2), F3 as (x3 & P3 & E3), F4 as (x4 & P4 & E4), F5 as (E5 & E6 & E7). set (at_ := at_of fs (ord (ap_search_paths app))) in *.
  destruct (file_type_of h) eqn:Et; cbn [kind_sort] in Is.
  - apply bind_Ok in H1 as (c & Hc & [= <-]). apply unwrap_Ok in Hc. split.
    + exists x1. split; [eapply picks_no; [exact St|exact Is|discriminate|exact P1]|exact E1].
    + exists x2. split; [eapply picks_no; [exact St|exact Is|discriminate|exact P2]|exact E2].
    + exists (c :: x3). split; [apply picks_yes; [exact St|exact Is|rewrite Ep; exact Hc|exact P3]|]. intros a. rewrite E3. cbn [ap_archives set]. rewrite set_insert_elem, elem_of_cons. tauto.
    + exists x4. split; [eapply picks_no; [exact St|exact Is|discriminate|exact P4]|exact E4].
    + done.
  - apply bind_Ok in H1 as (c & Hc & [= <-]). apply unwrap_Ok in Hc. split.
    + exists (c :: x1). split; [apply picks_yes; [exact St|exact Is|rewrite Ep; exact Hc|exact P1]|]. rewrite E1. cbn [ap_objects set]. by rewrite <- app_assoc.
    + exists x2. split; [eapply picks_no; [exact St|exact Is|discriminate|exact P2]|exact E2].
    + exists x3. split; [eapply picks_no; [exact St|exact Is|discriminate|exact P3]|exact E3].
    + exists x4. split; [eapply picks_no; [exact St|exact Is|discriminate|exact P4]|exact E4].
    + done.
  - injection H1 as <-. split.
    + exists x1. split; [eapply picks_no; [exact St|exact Is|discriminate|exact P1]|exact E1].
    + exists ((p, b) :: x2). split; [apply picks_yes; [exact St|exact Is|rewrite Ep; reflexivity|exact P2]|]. rewrite E2. cbn [ap_opts opt_shared_libs set]. by rewrite <- app_assoc.
    + exists x3. split; [eapply picks_no; [exact St|exact Is|discriminate|exact P3]|exact E3].
    + exists x4. split; [eapply picks_no; [exact St|exact Is|discriminate|exact P4]|exact E4].
    + done.
  - injection H1 as <-. split.
    + exists x1. split; [eapply picks_no; [exact St|exact Is|discriminate|exact P1]|exact E1].
    + exists x2. split; [eapply picks_no; [exact St|exact Is|discriminate|exact P2]|exact E2].
    + exists x3. split; [eapply picks_no; [exact St|exact Is|discriminate|exact P3]|exact E3].
    + exists (p :: x4). split; [apply picks_yes; [exact St|exact Is|rewrite Ep; reflexivity|exact P4]|]. rewrite E4. cbn [ap_scripts set]. by rewrite <- app_assoc.
    + done.
Qed.

(** * Scripts only add *)
Definition added (app app' : app_args) : Prop :=
  (exists x, ap_objects app' = ap_objects app ++ x) /\ (exists x, opt_shared_libs (ap_opts app') = opt_shared_libs (ap_opts app) ++ x) /\ (forall a, a ∈ ap_archives app -> a ∈ ap_archives app').
Lemma added_refl app : added app app.
Proof. split; [exists []; by rewrite app_nil_r|]. split; [exists []; by rewrite app_nil_r|done]. Qed.
Lemma added_same app app' : ap_objects app' = ap_objects app -> ap_archives app' = ap_archives app -> opt_shared_libs (ap_opts app') = opt_shared_libs (ap_opts app) -> added app app'.
Proof. intros H1 H2 H3. unfold added. rewrite H1, H2, H3. apply added_refl. Qed.
Lemma added_trans a b c : added a b -> added b c -> added a c.
Proof.
  intros ((x & Ex) & (y & Ey) & Ha) ((x' & Ex') & (y' & Ey') & Ha'). split; [exists (x ++ x'); rewrite Ex', Ex; by rewrite app_assoc|].
  split; [exists (y ++ y'); rewrite Ey', Ey; by rewrite app_assoc|]. intros z Hz. by apply Ha', Ha.
Qed.
Lemma effect_adds fs t app app' : effect fs t app = Ok app' -> added app app'.
Proof.
  intros H. destruct t; cbn [effect] in H; try (injection H as <-; by apply added_same); apply bind_Ok in H as (x & _ & [= <-]); by apply added_same.
Qed.
Lemma run_tokens_adds fs l : forall app app', run_tokens fs l app = Ok app' -> added app app'.
Proof.
  induction l as [|t l IH]; intros app app' H; [injection H as <-; apply added_refl|]. rewrite run_cons in H. apply bind_Ok in H as (x & H1 & H). eapply added_trans; [exact (effect_adds _ _ _ _ H1)|exact (IH _ _ H)].
Qed.
Lemma handle_adds fs args app app' : handle_linker_args fs args app = Ok app' -> added app app'.
Proof.
  destruct (read_args _ args (le_n _)) as (l & tail & Hs & -> & Ht). unfold handle_linker_args.
  pose proof (spell_all_length l) as Hlen. rewrite (handle_tokens fs l tail Hs) by (rewrite app_length; lia).
  destruct (run_tokens fs l app) as [x|e|q] eqn:E; cbn [mbind res_bind]; [|discriminate|discriminate].
  destruct Ht as [->|(o & -> & Ho)].
  - intros H. assert (x = app') as -> by (destruct (_ - _)%nat; simpl in H; by injection H as ->). exact (run_tokens_adds _ _ _ _ E).
  - destruct (length (spell_all l ++ [o]) - length l)%nat eqn:E2; [rewrite app_length in E2; simpl in E2; lia|]. by rewrite missing_value.
Qed.
Lemma file_input_adds fs p b app app' : file_input fs p b app = Ok app' -> added app app'.
Proof.
  intros H. unfold file_input in H. apply bind_Ok in H as (h & _ & H). destruct (file_type_of h).
  - apply bind_Ok in H as (c & _ & [= <-]). split; [exists []; by rewrite app_nil_r|]. split; [exists []; by rewrite app_nil_r|]. intros a Ha. cbn [ap_archives set]. rewrite set_insert_elem. by right.
  - apply bind_Ok in H as (c & _ & [= <-]). split; [by exists [c]|]. split; [exists []; by rewrite app_nil_r|done].
  - injection H as <-. split; [exists []; by rewrite app_nil_r|]. split; [by exists [(p, b)]|done].
  - injection H as <-. by apply added_same.
Qed.
Lemma search_adds fs ord ins : forall app app' o, search_inputs fs ord ins app = Ok (app', o) -> added app app'.
Proof.
  induction ins as [|[lib b] ins IH]; intros app app' o H; cbn [search_inputs] in H; [injection H as <- <-; apply added_refl|].
  destruct (locate _ _ _) as [p|]; [|injection H as <- <-; apply added_refl]. apply bind_Ok in H as (x & H1 & H). eapply added_trans; [exact (file_input_adds _ _ _ _ _ H1)|exact (IH _ _ _ H)].
Qed.
Lemma scripts_add fs ord sfuel : forall fuel app app', script_loop fs ord sfuel fuel app = Ok app' -> added app app'.
Proof.
  induction fuel as [|fuel IH]; intros app app' H; cbn [script_loop] in H; (destruct (last (ap_scripts app)) as [s|]; [|injection H as <-; apply added_refl]); [discriminate H|].
  apply bind_Ok in H as (text & _ & H). set (app0 := app <| ap_scripts := _ |>) in H. assert (A0 : added app app0) by (by apply added_same). eapply added_trans; [exact A0|]. clear A0. clearbody app0.
  destruct (parse_script sfuel text) as [| |args]; [discriminate H|discriminate H|]. destruct args as [|a args]; [exact (IH _ _ H)|].
  apply bind_Ok in H as (app1 & H1 & H). apply bind_Ok in H as ([app2 o] & H2 & H). eapply added_trans; [exact (handle_adds _ _ _ _ H1)|]. eapply added_trans; [|exact (IH _ _ H)].
  unfold search_for_inputs in H2. apply search_adds in H2. eapply added_trans; [|exact H2]. by apply added_same.
Qed.

(** * Inputs that are there are found *)
Lemma search_dirs_some fs lib kind dirs : forall found, is_Some found \/ (exists d, d ∈ dirs /\ (fs_is_file fs (path_join d lib) = true \/ fs_is_file fs (lib_file d lib kind) = true)) ->
  is_Some (search_dirs fs lib kind dirs found).
Proof.
  induction dirs as [|d dirs IH]; intros found H; cbn [search_dirs].
  - destruct H as [H|(d & Hd & _)]; [exact H|by apply elem_of_nil in Hd].
  - destruct (fs_is_file fs (path_join d lib)) eqn:E; [eauto|]. apply IH. change (path_join d (String.append "lib" (String.append lib (String.append "." kind)))) with (lib_file d lib kind).
    destruct (fs_is_file fs (lib_file d lib kind)) eqn:E'; [left; eauto|]. destruct H as [H|(d' & Hd' & H)]; [by left|]. right. apply elem_of_cons in Hd' as [->|Hd']; [|exists d'; split; [exact Hd'|exact H]].
    destruct H as [H|H]; congruence.
Qed.
Lemma stands_located fs (l : list token) dirs name p : (forall d, d ∈ omap (dir_of fs) l -> d ∈ dirs) -> stands_for fs l name p -> is_Some (locate fs dirs name).
Proof.
  intros Hd (Hp & [->|(d & Hin & H)]); unfold locate; [rewrite Hp; eauto|]. destruct (fs_is_file fs name); [eauto|].
  destruct (search_dirs fs name "so" dirs None) as [q|] eqn:E; [eauto|]. destruct H as [-> | [-> | -> ]].
  - exfalso. destruct (search_dirs_some fs name "so" dirs None) as [q Hq]; [right; exists d; split; [by apply Hd|by left]|congruence].
  - exfalso. destruct (search_dirs_some fs name "so" dirs None) as [q Hq]; [right; exists d; split; [by apply Hd|by right]|congruence].
  - apply search_dirs_some. right. exists d. split; [by apply Hd|by right].
Qed.
Lemma file_input_ok fs p b app : is_Some (fs_head fs p) -> is_Some (fs_canonicalize fs p) -> exists app', file_input fs p b app = Ok app' /\ ap_search_paths app' = ap_search_paths app /\ ap_help app' = ap_help app.
Proof.
  intros [h Hh] [c Hc]. unfold file_input. rewrite Hh. cbn [unwrap mbind res_bind]. destruct (file_type_of h); rewrite ?Hc; cbn [unwrap mbind res_bind]; eexists; (split; [reflexivity|split; reflexivity]).
Qed.
Lemma search_result fs ord (l : list token) ins : readable_fs fs -> forall app, (forall d, d ∈ ord (ap_search_paths app) <-> d ∈ omap (dir_of fs) l) ->
  exists app' o, search_inputs fs ord ins app = Ok (app', o) /\ ap_help app' = ap_help app /\ (o = None <-> forall n b, (n, b) ∈ ins -> exists p, stands_for fs l n p).
Proof.
  intros RD. induction ins as [|[lib b] ins IH]; intros app Hd; cbn [search_inputs].
  - exists app, None. split; [reflexivity|]. split; [reflexivity|]. split; [intros _ n b Hn; by apply elem_of_nil in Hn|done].
  - destruct (locate fs (ord (ap_search_paths app)) lib) as [p|] eqn:El.
    + pose proof (locate_stands fs l _ _ _ (fun d => proj1 (Hd d)) El) as St. destruct (RD p (proj1 St)) as [R1 R2]. destruct (file_input_ok fs p b app R1 R2) as (app1 & H1 & SP & HH). rewrite H1. cbn [mbind res_bind].
      destruct (IH app1) as (app' & o & H & Hh & Ho); [by rewrite SP|]. exists app', o. split; [exact H|]. split; [congruence|]. rewrite Ho. split.
      * intros K n b' Hq; apply elem_of_cons in Hq as [[= -> ->]|Hn]; [by exists p|by apply (K n b')].
      * intros K n b' Hn. apply (K n b'). by right.
    + exists app, (Some lib). split; [reflexivity|]. split; [reflexivity|]. split; [discriminate|]. intros K. exfalso. destruct (K lib b) as [p Hp]; [left|].
      destruct (stands_located fs l (ord (ap_search_paths app)) lib p (fun d => proj2 (Hd d)) Hp) as [q Hq]. congruence.
Qed.

(** * The message *)
Lemma comma_cons c s : comma_free (String c s) <-> c <> ","%char /\ comma_free s.
Proof.
  split.
  - intros H. split; [intros ->; by apply (H 0%nat)|]. intros i Hi. by apply (H (S i)).
  - intros [Hc H] [|i]; [cbn [String.get]; congruence|exact (H i)].
Qed.
Lemma append_assoc (a b c : string) : String.append (String.append a b) c = String.append a (String.append b c).
Proof. induction a as [|x a IH]; [reflexivity|]. change (String x (String.append (String.append a b) c) = String x (String.append a (String.append b c))). by rewrite IH. Qed.
Lemma append_nil (a : string) : String.append a "" = a.
Proof. induction a as [|x a IH]; [reflexivity|]. change (String x (String.append a "") = String x a). by rewrite IH. Qed.
Lemma items_one s : forall acc, comma_free s -> items acc s = [String.append acc s].
Proof.
  induction s as [|c s IH]; intros acc H; [cbn [items]; by rewrite append_nil|]. apply comma_cons in H as [Hc H]. cbn [items]. destruct s as [|b s']; [reflexivity|].
  assert (E : Ascii.eqb c "," = false) by (by apply Ascii.eqb_neq). rewrite E. cbn [andb]. rewrite IH by exact H. rewrite append_assoc. reflexivity.
Qed.
Lemma items_more s r : forall acc, comma_free s -> items acc (String.append s (String.append ", " r)) = String.append acc s :: items "" r.
Proof.
  induction s as [|c s IH]; intros acc H.
  - change (String.append "" (String.append ", " r)) with (String "," (String " " r)). cbn [items]. change (Ascii.eqb "," "," && Ascii.eqb " " " ")%bool with true. by rewrite append_nil.
  - apply comma_cons in H as [Hc H]. change (String.append (String c s) (String.append ", " r)) with (String c (String.append s (String.append ", " r))). cbn [items].
    destruct (String.append s (String.append ", " r)) as [|b q] eqn:Eq; [exfalso; destruct s; discriminate Eq|]. assert (E : Ascii.eqb c "," = false) by (by apply Ascii.eqb_neq). rewrite E. cbn [andb].
    rewrite IH by exact H. rewrite append_assoc. reflexivity.
Qed.
Lemma items_join ns : ns <> [] -> Forall comma_free ns -> items "" (join_with ", " ns) = ns.
Proof.
  induction ns as [|n ns IH]; [done|]. intros _ H. apply Forall_cons_1 in H as [H1 H2]. destruct ns as [|m ns].
  - cbn [join_with]. by rewrite items_one.
  - change (join_with ", " (n :: m :: ns)) with (String.append n (String.append ", " (join_with ", " (m :: ns)))). rewrite items_more by exact H1. rewrite IH; [reflexivity|done|exact H2].
Qed.

(** * On the state after reading the command line *)
Lemma search_for_result fs ord (l : list token) app : readable_fs fs -> ap_inputs app = inputs_of false l -> (forall d, d ∈ ord (ap_search_paths app) <-> d ∈ omap (dir_of fs) l) ->
  exists app' o, search_for_inputs fs ord app = Ok (app', o) /\ ap_help app' = ap_help app /\ (o = None <-> all_found fs l).
Proof. intros RD Hi Hd. unfold search_for_inputs. rewrite Hi. set (app0 := set _ _ app). exact (search_result fs ord l (inputs_of false l) RD app0 Hd). Qed.
Lemma filed_for fs ord (l : list token) app app' : short_heads fs -> ap_inputs app = inputs_of false l -> (forall d, d ∈ ord (ap_search_paths app) <-> d ∈ omap (dir_of fs) l) ->
  search_for_inputs fs ord app = Ok (app', None) -> filed fs l (at_of fs (ord (ap_search_paths app))) (inputs_of false l) app app'.
Proof.
  intros SH Hi Hd H. unfold search_for_inputs in H. rewrite Hi in H. set (app0 := set _ _ app) in H. destruct (filed_all fs ord l (inputs_of false l) SH app0 app' (fun d => proj1 (Hd d)) H) as [F1 F2 F3 F4 F5].
  split; [exact F1|exact F2|exact F3|exact F4|exact F5].
Qed.
