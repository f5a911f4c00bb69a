From Verif Require Export ProofBase SpecArgs.

Lemma strip_prefix_spec p : forall s r, strip_prefix p s = Some r <-> s = String.append p r.
Proof.
  induction p as [|c p IH]; intros s r; [change (String.append "" r) with r; simpl; split; congruence|].
  change (String.append (String c p) r) with (String c (String.append p r)). simpl. destruct s as [|d s]; [done|].
  destruct (Ascii.eqb_spec c d) as [->|Hne]; [rewrite IH; split; [by intros ->|by intros [= ->]]|]. split; [done|]. by intros [= -> ].
Qed.
Lemma strip_prefix_None p s : strip_prefix p s = None <-> forall r, s <> String.append p r.
Proof.
  rewrite eq_None_not_Some. split; [intros H r ->; apply H; exists r; by apply strip_prefix_spec|]. intros H [r Hr]. apply strip_prefix_spec in Hr. by apply (H r).
Qed.
Lemma strip_self p r : strip_prefix p (String.append p r) = Some r.
Proof. by apply strip_prefix_spec. Qed.
Lemma starts_dash s : negb (starts_with "--" s) && negb (starts_with "-" s) = true <-> ¬ dash s.
Proof.
  unfold starts_with, dash. rewrite andb_true_iff, !negb_true_iff, !bool_decide_eq_false. split.
  - intros [_ H] [r ->]. apply H. rewrite strip_self. by eexists.
  - intros H. split; intros [r Hr]; apply strip_prefix_spec in Hr; subst s; apply H; [by exists (String "-" r)|by exists r].
Qed.
Lemma dash_dec s : dash s \/ ¬ dash s.
Proof.
  destruct s as [|c s]; [right; intros [r [=]]|]. destruct (decide (c = "-"%char)) as [->|H]; [left; by exists s|right; intros [r [= -> ]]]. done.
Qed.

(** What each token does. *)
Definition effect (fs : main_fs) (t : token) (app : app_args) : res app_args :=
  let set_bid b := app <| ap_opts := ap_opts app <| opt_build_id := Some b |> |> in
  let input v := Ok (app <| ap_inputs := ap_inputs app ++ [(v, ap_as_needed app)] |>) in
  match t with
  | TOutput v => Ok (app <| ap_opts := ap_opts app <| opt_output := v |> |>)
  | TMachine v => e ← emulation_from_str v; Ok (app <| ap_opts := ap_opts app <| opt_emulation := e |> |>)
  | TInterp v => Ok (app <| ap_opts := ap_opts app <| opt_dynamic_linker := v |> |>)
  | TDir v => Ok (app <| ap_search_paths := set_insert v (ap_search_paths app) |>)
  | TLib v | TLibJoined v | TFile v => input v
  | TKeyword _ | TGroup _ => Ok app
  | TBuildId => Ok (set_bid build_id_default)
  | TBuildIdStyle v => b ← build_id_from_str v; Ok (set_bid b)
  | TFrames => Ok (app <| ap_opts := ap_opts app <| opt_eh_frame_hdr := true |> |>)
  | THelp _ => Ok (app <| ap_help := true |>)
  | TNeeded b => Ok (app <| ap_as_needed := b |>)
  | TDirJoined v => p ← unwrap (fs_canonicalize fs v); Ok (app <| ap_search_paths := set_insert p (ap_search_paths app) |>)
  | THash v => h ← hash_style_from_str v; Ok (app <| ap_opts := ap_opts app <| opt_hash_style := h |> |>)
  end.

Ltac next_options := repeat (rewrite decide_False by done).
Lemma special_arg fs arg rest app : arg ∉ exact_options -> handle_arg fs arg rest app = (app ← handle_special_arg fs arg app; Ok (app, rest)).
Proof.
  intros H. unfold handle_arg. unfold exact_options, takes_value in H. cbn [Datatypes.app] in H. rewrite !not_elem_of_cons in H. destruct_and! H.
  repeat (rewrite decide_False by assumption). done.
Qed.
Lemma prefixed_not_exact p v : p ∈ ["-L"; "-l"; "--hash-style="] -> (p = "-L" \/ p = "-l" -> v <> "") -> String.append p v ∉ exact_options.
Proof.
  intros Hp Hv Hin. unfold exact_options, takes_value in Hin. cbn [Datatypes.app] in Hin. rewrite !elem_of_cons, elem_of_nil in Hp. rewrite !elem_of_cons, elem_of_nil in Hin.
  destruct Hp as [->|[->|[->|[]]]]; destruct_or! Hin; try done; injection Hin as ->; apply Hv; tauto.
Qed.
(** One iteration takes one token. *)
Lemma handle_token fs t rest a app : token_ok t -> (t = TBuildId -> match rest with [] => True | b :: _ => dash b end) ->
  spell t ++ rest = a.1 :: a.2 -> handle_arg fs a.1 a.2 app = (app ← effect fs t app; Ok (app, rest)).
Proof.
  destruct a as [a l]. cbn [fst snd]. intros Hok Hb. destruct t as [v|v|v|v|v|v| |v| |[]|[]|[]|v|v|v|v]; cbn [spell Datatypes.app]; intros [= <- <-];
    try (unfold handle_arg; next_options; rewrite decide_True by done; reflexivity).
  - unfold handle_arg. next_options. rewrite decide_True by done. simpl. by destruct (emulation_from_str v).
  - unfold handle_arg. rewrite decide_True by done. specialize (Hb eq_refl). destruct rest as [|b rest]; [done|].
    destruct (negb (starts_with "--" b) && negb (starts_with "-" b)) eqn:E; [|done]. by apply starts_dash in E.
  - unfold handle_arg. rewrite decide_True by done. apply starts_dash in Hok. rewrite Hok. simpl. by destruct (build_id_from_str v).
  - rewrite special_arg by (apply (prefixed_not_exact "-L"); [set_solver|done]). unfold handle_special_arg. rewrite strip_self. simpl. by destruct (fs_canonicalize fs v).
  - rewrite special_arg by (apply (prefixed_not_exact "-l"); [set_solver|done]). unfold handle_special_arg.
    assert (E : strip_prefix "-L" (String.append "-l" v) = None) by (apply strip_prefix_None; intros r; done). rewrite E, strip_self. done.
  - rewrite special_arg by (apply (prefixed_not_exact "--hash-style="); [set_solver|intros [|]; done]). unfold handle_special_arg.
    assert (E : strip_prefix "-L" (String.append "--hash-style=" v) = None) by (apply strip_prefix_None; intros r; done).
    assert (E' : strip_prefix "-l" (String.append "--hash-style=" v) = None) by (apply strip_prefix_None; intros r; done). rewrite E, E', strip_self.
    simpl. by destruct (hash_style_from_str v).
  - destruct Hok as [H1 H2]. rewrite special_arg by done. unfold handle_special_arg.
    rewrite (proj2 (strip_prefix_None "-L" v)) by apply H2. rewrite (proj2 (strip_prefix_None "-l" v)) by apply H2. rewrite (proj2 (strip_prefix_None "--hash-style=" v)) by apply H2. done.
Qed.
Lemma spell_nonempty t : exists a l, spell t = a :: l.
Proof. destruct t as [v|v|v|v|v|v| |v| |[]|[]|[]|v|v|v|v]; by eexists _, _. Qed.
Lemma spell_all_cons t l : spell_all (t :: l) = spell t ++ spell_all l.
Proof. done. Qed.
Definition run_tokens (fs : main_fs) (l : list token) (app : app_args) : res app_args := foldM (fun app t => effect fs t app) l app.
Lemma run_cons fs t l app : run_tokens fs (t :: l) app = (app ← effect fs t app; run_tokens fs l app).
Proof. done. Qed.

(** [tail]: the arguments after those of the tokens. *)
Definition separated (l : list token) (tail : list string) : Prop :=
  forall k t k', l = k ++ t :: k' -> token_ok t /\ (t = TBuildId -> match spell_all k' ++ tail with [] => True | a :: _ => dash a end).
Lemma separated_cons t l tail : separated (t :: l) tail <->
  (token_ok t /\ (t = TBuildId -> match spell_all l ++ tail with [] => True | a :: _ => dash a end)) /\ separated l tail.
Proof.
  split.
  - intros H. split; [apply (H []); done|]. intros k u k' ->. apply (H (t :: k)). done.
  - intros [H1 H2] [|x k] u k' E; [by injection E as -> ->|]. injection E as -> ->. by apply (H2 k).
Qed.
Lemma command_line_separated l : command_line l <-> separated l [].
Proof.
  induction l as [|t l IH]; [split; [|done]; intros _ [|? k] u k'; done|]. rewrite separated_cons, <- IH, app_nil_r. simpl. tauto.
Qed.
Lemma handle_tokens fs l tail : separated l tail -> forall fuel app, (length (spell_all l ++ tail) <= fuel)%nat ->
  handle_args_fuel fs fuel (spell_all l ++ tail) app =
    (app ← run_tokens fs l app; handle_args_fuel fs (fuel - length l) tail app).
Proof.
  induction l as [|t l IH]; intros Hs fuel app Hf.
  - simpl. by rewrite Nat.sub_0_r.
  - apply separated_cons in Hs as [[H1 H2] Hs]. rewrite spell_all_cons, <- app_assoc in *. destruct (spell_nonempty t) as (a & k & E).
    rewrite E in *. cbn [Datatypes.app] in *. destruct fuel as [|fuel]; [simpl in Hf; lia|]. cbn [handle_args_fuel].
    assert (Hh : handle_arg fs a (k ++ spell_all l ++ tail) app = (app ← effect fs t app; Ok (app, spell_all l ++ tail))).
    { apply (handle_token fs t (spell_all l ++ tail) (a, k ++ spell_all l ++ tail) app H1 H2). cbn [fst snd]. by rewrite E. }
    rewrite Hh.
    rewrite run_cons. destruct (effect fs t app) as [app'| |]; [|done|done]. cbn [mbind res_bind].
    assert (Hf' : (length (spell_all l ++ tail) <= fuel)%nat) by (simpl in Hf; rewrite app_length in Hf; lia).
    change (handle_args_fuel fs fuel (spell_all l ++ tail) app' = (app ← run_tokens fs l app'; handle_args_fuel fs (S fuel - length (t :: l)) tail app)).
    rewrite (IH Hs fuel app' Hf'). done.
Qed.

(** Every command line can be read. *)
Lemma read_args : forall n args, (length args <= n)%nat -> exists l tail, separated l tail /\ args = spell_all l ++ tail /\
  (tail = [] \/ exists o, tail = [o] /\ o ∈ takes_value).
Proof.
  induction n as [|n IH]; intros [|a args] Hn; try (simpl in Hn; lia); try (exists [], []; split; [intros [|? k] u k'; done|]; split; [done|]; by left).
  simpl in Hn.
  assert (Hone : forall t k, token_ok t -> (t = TBuildId -> match k with [] => True | b :: _ => dash b end) -> a :: args = spell t ++ k ->
    exists l tail, separated l tail /\ a :: args = spell_all l ++ tail /\ (tail = [] \/ exists o, tail = [o] /\ o ∈ takes_value)).
  { intros t k Hok Hb E. destruct (IH k) as (l & tail & Hs & -> & Ht).
    { apply (f_equal length) in E. destruct (spell_nonempty t) as (b & j & Eb). rewrite Eb, app_length in E. simpl in E. lia. }
    exists (t :: l), tail. split; [apply separated_cons; split; [split; done|done]|]. split; [|done]. rewrite spell_all_cons, <- app_assoc. done. }
  assert (Hval : forall f : string -> token, (forall v, token_ok (f v) /\ f v <> TBuildId /\ spell (f v) = [a; v]) -> a ∈ takes_value ->
    exists l tail, separated l tail /\ a :: args = spell_all l ++ tail /\ (tail = [] \/ exists o, tail = [o] /\ o ∈ takes_value)).
  { intros f Hf Ha. destruct args as [|v args].
    - exists [], [a]. split; [intros [|? k] u k'; done|]. split; [done|]. right. by exists a.
    - destruct (Hf v) as (H1 & H2 & H3). apply (Hone (f v) args); [done|done|]. by rewrite H3. }
  destruct (decide (a ∈ exact_options)) as [Ha|Ha].
  - unfold exact_options, takes_value in Ha. cbn [Datatypes.app] in Ha. rewrite !elem_of_cons, elem_of_nil in Ha.
    destruct Ha as [->|[->|[->|[->|[->|[->|[->|[->|[->|[->|[->|[->|[->|[->|[]]]]]]]]]]]]]]].
    + apply (Hval TOutput); [done|set_solver].
    + apply (Hval TMachine); [done|set_solver].
    + apply (Hval TInterp); [done|set_solver].
    + apply (Hval TDir); [done|set_solver].
    + apply (Hval TLib); [done|set_solver].
    + apply (Hval TKeyword); [done|set_solver].
    + destruct args as [|v args]; [by apply (Hone TBuildId [])|]. destruct (dash_dec v) as [Hd|Hd].
      * by apply (Hone TBuildId (v :: args)).
      * by apply (Hone (TBuildIdStyle v) args).
    + by apply (Hone TFrames args).
    + by apply (Hone (THelp true) args).
    + by apply (Hone (THelp false) args).
    + by apply (Hone (TNeeded true) args).
    + by apply (Hone (TNeeded false) args).
    + by apply (Hone (TGroup true) args).
    + by apply (Hone (TGroup false) args).
  - destruct (strip_prefix "-L" a) as [r|] eqn:E1.
    { apply strip_prefix_spec in E1. subst a. apply (Hone (TDirJoined r) args); [|done|done]. intros ->. apply Ha. unfold exact_options, takes_value. set_solver. }
    destruct (strip_prefix "-l" a) as [r|] eqn:E2.
    { apply strip_prefix_spec in E2. subst a. apply (Hone (TLibJoined r) args); [|done|done]. intros ->. apply Ha. unfold exact_options, takes_value. set_solver. }
    destruct (strip_prefix "--hash-style=" a) as [r|] eqn:E3.
    { apply strip_prefix_spec in E3. subst a. by apply (Hone (THash r) args). }
    apply (Hone (TFile a) args); [|done|done]. split; [done|]. rewrite strip_prefix_None in E1, E2, E3. intros r. split; [apply E1|]. split; [apply E2|apply E3].
Qed.

(** Effects of a list of tokens. *)
Lemma build_id_spec v b : build_id_from_str v = Ok b <-> build_id_value v b.
Proof.
  unfold build_id_from_str, build_id_value. destruct (decide (v = "uuid")) as [->|H1].
  { split; [intros [= <-]; tauto|]. intros [[_ ->]|[[? _]|[[? _]|(r & ? & _)]]]; done. }
  destruct (decide (v = "sha1")) as [->|H2].
  { split; [intros [= <-]; tauto|]. intros [[? _]|[[_ ->]|[[? _]|(r & ? & _)]]]; done. }
  destruct (decide (v = "md5")) as [->|H3].
  { split; [intros [= <-]; tauto|]. intros [[? _]|[[? _]|[[_ ->]|(r & ? & _)]]]; done. }
  split.
  - intros H. right; right; right. destruct v as [|c v]; [done|]. destruct (decide (c = "0"%char)) as [->|Hc].
    + destruct v as [|d v]; [done|]. destruct (decide (d = "x"%char)) as [->|Hd]; [injection H as <-; by exists v|].
      exfalso. destruct d as [[] [] [] [] [] [] [] []]; done.
    + exfalso. destruct c as [[] [] [] [] [] [] [] []]; done.
  - intros [[-> _]|[[-> _]|[[-> _]|(r & -> & ->)]]]; try done.
Qed.
Lemma hash_spec v h : hash_style_from_str v = Ok h <-> hash_value v h.
Proof.
  unfold hash_style_from_str, hash_value. destruct (decide (v = "sysv")) as [->|H1].
  { split; [intros [= <-]; tauto|]. intros [[_ ->]|[[? _]|[? _]]]; done. }
  destruct (decide (v = "gnu")) as [->|H2].
  { split; [intros [= <-]; tauto|]. intros [[? _]|[[_ ->]|[? _]]]; done. }
  destruct (decide (v = "both")) as [->|H3].
  { split; [intros [= <-]; tauto|]. intros [[? _]|[[? _]|[_ ->]]]; done. }
  split; [done|]. intros [[? _]|[[? _]|[? _]]]; done.
Qed.
Lemma effect_ok fs t app : (exists app', effect fs t app = Ok app') <-> value_ok fs t.
Proof.
  destruct t as [v|v|v|v|v|v| |v| |b|b|b|v|v|v|v]; cbn [effect value_ok]; try (split; [done|]; intros _; by eexists).
  - unfold emulation_from_str. destruct (decide (v = "elf_x86_64")); simpl; split; try done; [by eexists|by intros [? ?]].
  - destruct (build_id_from_str v) as [b| |] eqn:E; simpl.
    + split; [intros _; exists b; by apply build_id_spec|by eexists].
    + split; [by intros [? ?]|]. intros [b Hb]. apply build_id_spec in Hb. congruence.
    + split; [by intros [? ?]|]. intros [b Hb]. apply build_id_spec in Hb. congruence.
  - destruct (fs_canonicalize fs v); simpl; split; try done; [by eexists|by intros [? ?]|by intros [? ?]].
  - destruct (hash_style_from_str v) as [h| |] eqn:E; simpl.
    + split; [intros _; exists h; by apply hash_spec|by eexists].
    + split; [by intros [? ?]|]. intros [b Hb]. apply hash_spec in Hb. congruence.
    + split; [by intros [? ?]|]. intros [b Hb]. apply hash_spec in Hb. congruence.
Qed.
Lemma run_ok fs l : forall app, (exists app', run_tokens fs l app = Ok app') <-> Forall (value_ok fs) l.
Proof.
  induction l as [|t l IH]; intros app; [split; [constructor|by eexists]|]. rewrite run_cons, Forall_cons, <- (effect_ok fs t app).
  destruct (effect fs t app) as [app'| |]; cbn [mbind res_bind].
  - rewrite IH. split; [intros H; split; [by eexists|done]|by intros [_ H]].
  - split; [by intros [? ?]|by intros [[? ?] _]].
  - split; [by intros [? ?]|by intros [[? ?] _]].
Qed.
Lemma last_of_cons {A} (f : token -> option A) t l d : last_of f (t :: l) d = last_of f l (default d (f t)).
Proof.
  unfold last_of. cbn [omap list_omap]. destruct (f t) as [a|]; [|done]. simpl. destruct (omap f l) as [|x k]; [done|].
  change (last (a :: x :: k)) with (last (x :: k)). by destruct (last (x :: k)) eqn:E; [|apply last_None in E].
Qed.
(** The values of build id and hash style. *)
Definition build_of (t : token) : option build_id :=
  match t with TBuildId => Some BSha1 | TBuildIdStyle v => match build_id_from_str v with Ok b => Some b | _ => None end | _ => None end.
Definition hash_of (t : token) : option hash_style :=
  match t with THash v => match hash_style_from_str v with Ok h => Some h | _ => None end | _ => None end.
Definition frames_of (t : token) : option bool := match t with TFrames => Some true | _ => None end.
Definition help_of (t : token) : option bool := match t with THelp _ => Some true | _ => None end.
Lemma set_insert_elem x y l : y ∈ set_insert x l <-> y = x \/ y ∈ l.
Proof. unfold set_insert. destruct (decide (x ∈ l)); [split; [tauto|intros [->|]; done]|]. rewrite elem_of_app, elem_of_list_singleton. tauto. Qed.

Lemma run_fields fs l : forall app app', run_tokens fs l app = Ok app' ->
  opt_output (ap_opts app') = last_of output_of l (opt_output (ap_opts app)) /\
  opt_dynamic_linker (ap_opts app') = last_of interp_of l (opt_dynamic_linker (ap_opts app)) /\
  opt_hash_style (ap_opts app') = last_of hash_of l (opt_hash_style (ap_opts app)) /\
  opt_build_id (ap_opts app') = last_of (fun t => Some <$> build_of t) l (opt_build_id (ap_opts app)) /\
  opt_eh_frame_hdr (ap_opts app') = last_of frames_of l (opt_eh_frame_hdr (ap_opts app)) /\
  ap_help app' = last_of help_of l (ap_help app) /\
  ap_as_needed app' = last_of needed_of l (ap_as_needed app) /\
  ap_inputs app' = ap_inputs app ++ inputs_of (ap_as_needed app) l /\
  (forall d, d ∈ ap_search_paths app' <-> d ∈ ap_search_paths app \/ d ∈ omap (dir_of fs) l) /\
  ap_objects app' = ap_objects app /\ ap_archives app' = ap_archives app /\ ap_scripts app' = ap_scripts app /\
  opt_shared_libs (ap_opts app') = opt_shared_libs (ap_opts app).
Proof.
  induction l as [|t l IH]; intros app app'.
  { intros [= <-]. rewrite app_nil_r. split_and!; try done. intros d. simpl. rewrite elem_of_nil. tauto. }
  rewrite run_cons. destruct (effect fs t app) as [app1| |] eqn:E; [|done|done]. cbn [mbind res_bind]. intros H. specialize (IH _ _ H).
  destruct IH as (I1 & I2 & I3 & I4 & I5 & I6 & I7 & I8 & I9 & I10 & I11 & I12 & I13).
  rewrite !last_of_cons. rewrite I1, I2, I3, I4, I5, I6, I7, I8, I10, I11, I12, I13.
  assert (Hd : forall d, d ∈ omap (dir_of fs) (t :: l) <-> dir_of fs t = Some d \/ d ∈ omap (dir_of fs) l).
  { intros d. simpl. destruct (dir_of fs t) as [x|]; [rewrite elem_of_cons; split; [intros [->|]; tauto|intros [[= ->]|]; tauto]|]. split; [tauto|intros [|]; done]. }
  enough (forall d, d ∈ ap_search_paths app1 <-> d ∈ ap_search_paths app \/ dir_of fs t = Some d) as Hs.
  { destruct t as [v|v|v|v|v|v| |v| |b|b|b|v|v|v|v]; cbn [effect] in E;
    try (match type of E with context [build_id_from_str v] => destruct (build_id_from_str v) as [b| |] eqn:Eb | context [hash_style_from_str v] => destruct (hash_style_from_str v) as [h| |] eqn:Eh
      | context [emulation_from_str v] => destruct (emulation_from_str v) as [h| |] eqn:Eh | context [fs_canonicalize fs v] => destruct (fs_canonicalize fs v) as [h|] eqn:Eh end; cbn [mbind res_bind unwrap] in E; try done);
    injection E as <-; split_and!; try done; try (simpl; by rewrite <- app_assoc);
    try (cbn [build_of hash_of]; rewrite ?Eb, ?Eh; done); try (intros d; rewrite I9, Hd, Hs; tauto). }
  intros d. destruct t as [v|v|v|v|v|v| |v| |b|b|b|v|v|v|v]; cbn [effect] in E;
    try (match type of E with context [build_id_from_str v] => destruct (build_id_from_str v) as [b| |] eqn:Eb | context [hash_style_from_str v] => destruct (hash_style_from_str v) as [h| |] eqn:Eh
      | context [emulation_from_str v] => destruct (emulation_from_str v) as [h| |] eqn:Eh | context [fs_canonicalize fs v] => destruct (fs_canonicalize fs v) as [h|] eqn:Eh end; cbn [mbind res_bind unwrap] in E; try done);
    injection E as <-; cbn [dir_of]; try (split; [tauto|intros [|]; done]);
    simpl; rewrite set_insert_elem, ?Eh; split; (intros [H'|H']; [try tauto; subst; tauto|try tauto; injection H' as ->; tauto]).
Qed.

(** * Scripts that include scripts *)
Lemma effect_runs fs t app : effect fs t app <> Panic PFuel.
Proof.
  destruct t; cbn [effect]; try discriminate.
  - unfold emulation_from_str. destruct (decide _); discriminate.
  - unfold build_id_from_str. repeat (destruct (decide _); try discriminate).
    all: repeat match goal with |- context [match ?x with _ => _ end] => destruct x; try discriminate end.
  - destruct (fs_canonicalize fs v); discriminate.
  - unfold hash_style_from_str. repeat (destruct (decide _); try discriminate).
Qed.
Lemma run_tokens_runs fs l app : run_tokens fs l app <> Panic PFuel.
Proof.
  revert app. induction l as [|t l IH]; intros app; [discriminate|]. rewrite run_cons. pose proof (effect_runs fs t app) as He.
  destruct (effect fs t app) as [x|e|q]; cbn [mbind res_bind]; [apply IH|discriminate|]. intros [= ->]. done.
Qed.
Lemma missing_value fs o fuel app : o ∈ takes_value -> handle_args_fuel fs (S fuel) [o] app = Err (EUsage o).
Proof.
  intros Ho. unfold takes_value in Ho. rewrite !elem_of_cons, elem_of_nil in Ho.
  destruct Ho as [->|[->|[->|[->|[->|[->|[]]]]]]]; cbn [handle_args_fuel]; unfold handle_arg; next_options; rewrite decide_True by done; reflexivity.
Qed.
Lemma spell_all_length l : (length l <= length (spell_all l))%nat.
Proof.
  induction l as [|t l IH]; [done|]. rewrite spell_all_cons, app_length. destruct (spell_nonempty t) as (a & k & ->). simpl. lia.
Qed.
Lemma handle_linker_runs fs args app : handle_linker_args fs args app <> Panic PFuel.
Proof.
  destruct (read_args _ args (le_n _)) as (l & tail & Hs & -> & Ht). unfold handle_linker_args.
  pose proof (spell_all_length l) as Hlen. rewrite (handle_tokens fs l tail Hs) by (rewrite app_length; lia).
  pose proof (run_tokens_runs fs l app) as Hr. destruct (run_tokens fs l app) as [x|e|q]; cbn [mbind res_bind]; [|discriminate|intros [= ->]; done].
  destruct Ht as [->|(o & -> & Ho)]; [by destruct (_ - _)%nat|].
  destruct (length (spell_all l ++ [o]) - length l)%nat eqn:E; [rewrite app_length in E; simpl in E; lia|]. by rewrite missing_value.
Qed.
(** What the arguments of a script are read as. *)
Lemma handle_linker_inputs fs args app app' : handle_linker_args fs args app = Ok app' -> exists l, args = spell_all l /\ 
  ap_inputs app' = ap_inputs app ++ inputs_of (ap_as_needed app) l /\ ap_scripts app' = ap_scripts app.
Proof.
  destruct (read_args _ args (le_n _)) as (l & tail & Hs & -> & Ht). unfold handle_linker_args.
  pose proof (spell_all_length l) as Hlen. rewrite (handle_tokens fs l tail Hs) by (rewrite app_length; lia).
  destruct (run_tokens fs l app) as [x|e|q] eqn:E; cbn [mbind res_bind]; [|discriminate|discriminate].
  destruct Ht as [->|(o & -> & Ho)].
  - intros H. assert (x = app') as -> by (destruct (_ - _)%nat; simpl in H; by injection H as ->). exists l. rewrite app_nil_r. split; [done|].
    apply run_fields in E. naive_solver.
  - destruct (length (spell_all l ++ [o]) - length l)%nat eqn:E2; [rewrite app_length in E2; simpl in E2; lia|]. by rewrite missing_value.
Qed.
(** Filing inputs: scripts found are added at the end. *)
Lemma search_inputs_runs fs ord l : forall app, search_inputs fs ord l app <> Panic PFuel.
Proof.
  induction l as [|[lib b] l IH]; intros app; [discriminate|]. cbn [search_inputs]. destruct (locate _ _ _) as [p|]; [|discriminate].
  assert (He : file_input fs p b app <> Panic PFuel).
  { unfold file_input. destruct (fs_head fs p) as [h|]; [|discriminate]. cbn [unwrap mbind res_bind]. destruct (file_type_of h); try discriminate; destruct (fs_canonicalize fs p); discriminate. }
  destruct (file_input fs p b app) as [x|e|q]; cbn [mbind res_bind]; [apply IH|discriminate|intros [= ->]; done].
Qed.
Lemma search_inputs_scripts fs ord l : forall app app' o, search_inputs fs ord l app = Ok (app', o) -> exists new,
  ap_scripts app' = ap_scripts app ++ new /\ ap_inputs app' = ap_inputs app /\
  forall p, p ∈ new -> exists lib flag dirs head, (lib, flag) ∈ l /\ locate fs dirs lib = Some p /\ fs_head fs p = Some head /\ file_type_of head = KText.
Proof.
  induction l as [|[lib b] l IH]; intros app app' o H; cbn [search_inputs] in H.
  { injection H as <- <-. exists []. rewrite app_nil_r. split; [done|]. split; [done|]. intros p Hp. by apply elem_of_nil in Hp. }
  destruct (locate fs (ord (ap_search_paths app)) lib) as [p|] eqn:El.
  2: { injection H as <- <-. exists []. rewrite app_nil_r. split; [done|]. split; [done|]. intros p Hp. by apply elem_of_nil in Hp. }
  apply bind_Ok in H as (app1 & H1 & H). destruct (IH _ _ _ H) as (new & N1 & N2 & N3). unfold file_input in H1. apply bind_Ok in H1 as (h & Hh & H1). apply unwrap_Ok in Hh.
  assert (Hmore : forall q, q ∈ new -> exists lib0 flag dirs head, (lib0, flag) ∈ (lib, b) :: l /\ locate fs dirs lib0 = Some q /\ fs_head fs q = Some head /\ file_type_of head = KText).
  { intros q Hq. destruct (N3 q Hq) as (lib0 & flag & dirs & head & A & B). exists lib0, flag, dirs, head. split; [by right|done]. }
  destruct (file_type_of h) eqn:Et.
  - apply bind_Ok in H1 as (c & _ & [= <-]). exists new. done.
  - apply bind_Ok in H1 as (c & _ & [= <-]). exists new. done.
  - injection H1 as <-. exists new. done.
  - injection H1 as <-. exists (p :: new). split; [rewrite N1; cbn [ap_scripts set]; by rewrite <- app_assoc|]. split; [done|].
    intros q [->|Hq]%elem_of_cons; [|by apply Hmore]. exists lib, b, (ord (ap_search_paths app)), h. split; [by left|done].
Qed.

Section scripts.
  Context (fs : main_fs) (ord : list string -> list string) (sfuel : nat) (rank : string -> nat).
  Context (Hstop : forall s text, fs_text fs s = Some text -> parse_script sfuel text <> SRunning).
  Context (Hrank : forall s p, includes fs sfuel s p -> (rank p < rank s)%nat).

  (** One script is read: the loop stops, or goes on with the scripts it includes. *)
  Lemma script_step base s app : ap_scripts app = base ++ [s] -> ap_inputs app = [] ->
    (forall fuel, script_loop fs ord sfuel (S fuel) app <> Panic PFuel) \/
    exists app' new, ap_scripts app' = base ++ new /\ ap_inputs app' = [] /\ Forall (fun p => (rank p < rank s)%nat) new /\
      forall fuel, script_loop fs ord sfuel (S fuel) app = script_loop fs ord sfuel fuel app'.
  Proof using Hstop Hrank.
    intros Hs Hi. cbn [script_loop]. assert (last (ap_scripts app) = Some s) as -> by (by rewrite Hs, last_snoc).
    set (app0 := app <| ap_scripts := take (length (ap_scripts app) - 1) (ap_scripts app) |>).
    assert (E0 : ap_scripts app0 = base).
    { subst app0. cbn [ap_scripts set]. rewrite Hs, app_length. simpl. replace (length base + 1 - 1)%nat with (length base) by lia. by rewrite take_app. }
    assert (I0 : ap_inputs app0 = []) by done. clearbody app0.
    destruct (fs_text fs s) as [text|] eqn:Et; [|left; intros fuel; discriminate]. cbn [unwrap mbind res_bind].
    pose proof (Hstop s text Et) as Hns. destruct (parse_script sfuel text) as [| |args] eqn:Ep; [congruence|left; intros fuel; discriminate|].
    destruct args as [|a args]; [right; exists app0, []; rewrite app_nil_r; split; [done|]; split; [done|]; split; [constructor|done]|].
    pose proof (handle_linker_runs fs (string_of_list_ascii <$> a :: args) app0) as Hr.
    destruct (handle_linker_args fs (string_of_list_ascii <$> a :: args) app0) as [app1|e|q] eqn:Eh; cbn [mbind res_bind]; [|left; intros fuel; discriminate|left; intros fuel [= ->]; done].
    destruct (handle_linker_inputs _ _ _ _ Eh) as (l & Hl & Hin & Hsc). rewrite I0 in Hin. cbn [Datatypes.app] in Hin.
    unfold search_for_inputs. pose proof (search_inputs_runs fs ord (ap_inputs app1) (app1 <| ap_inputs := [] |>)) as Hr2.
    destruct (search_inputs fs ord (ap_inputs app1) (app1 <| ap_inputs := [] |>)) as [[app2 o]|e|q] eqn:Es; cbn [mbind res_bind]; [|left; intros fuel; discriminate|left; intros fuel [= ->]; done].
    right. destruct (search_inputs_scripts _ _ _ _ _ _ Es) as (new & N1 & N2 & N3). cbn [ap_scripts ap_inputs set] in N1, N2.
    exists app2, new. split; [by rewrite N1, Hsc, E0|]. split; [done|]. split; [|done]. apply Forall_forall. intros p Hp.
    destruct (N3 p Hp) as (lib & flag & dirs & head & A & B & C & D). apply Hrank. exists text, (a :: args), l, (ap_as_needed app0), lib, flag, dirs, head.
    rewrite <- Hin. done.
  Qed.

  Lemma scripts_done n : forall new base app, ap_scripts app = base ++ new -> ap_inputs app = [] -> Forall (fun p => (rank p < n)%nat) new ->
    (exists f0, forall fuel, (f0 <= fuel)%nat -> script_loop fs ord sfuel fuel app <> Panic PFuel) \/
    exists j app', ap_scripts app' = base /\ ap_inputs app' = [] /\ forall fuel, script_loop fs ord sfuel (j + fuel) app = script_loop fs ord sfuel fuel app'.
  Proof using Hstop Hrank.
    induction n as [|n IHn].
    { intros new base app Hs Hi Hf. destruct new as [|p new]; [|apply Forall_cons in Hf as [? _]; lia]. right. exists 0%nat, app. rewrite app_nil_r in Hs. done. }
    induction new as [|s new IH] using rev_ind; intros base app Hs Hi Hf; [right; exists 0%nat, app; rewrite app_nil_r in Hs; done|].
    apply Forall_app in Hf as [Hf Hfs]. apply Forall_cons in Hfs as [Hrs _]. rewrite app_assoc in Hs.
    destruct (script_step _ _ _ Hs Hi) as [Hstep|(app1 & added & A1 & A2 & A3 & A4)].
    { left. exists 1%nat. intros fuel Hfu. destruct fuel; [lia|]. apply Hstep. }
    destruct (IHn added (base ++ new) app1 A1 A2) as [[f0 Hf0]|(j & app2 & B1 & B2 & B3)].
    { eapply Forall_impl; [exact A3|]. simpl. intros; lia. }
    - left. exists (S f0). intros fuel Hfu. destruct fuel; [lia|]. rewrite A4. apply Hf0. lia.
    - destruct (IH base app2 B1 B2 Hf) as [[f0 Hf0]|(j' & app3 & C1 & C2 & C3)].
      + left. exists (S (j + f0)). intros fuel Hfu. destruct fuel as [|fuel]; [lia|]. rewrite A4. replace fuel with (j + (fuel - j))%nat by lia. rewrite B3. apply Hf0. lia.
      + right. exists (S (j + j')), app3. split; [done|]. split; [done|]. intros fuel. change (S (j + j') + fuel)%nat with (S (j + j' + fuel)). rewrite A4, <- Nat.add_assoc, B3. apply C3.
  Qed.
  Lemma scripts_end app : ap_inputs app = [] -> exists f0, forall fuel, (f0 <= fuel)%nat -> script_loop fs ord sfuel fuel app <> Panic PFuel.
  Proof using Hstop Hrank.
    intros Hi. assert (exists n, Forall (fun p => (rank p < n)%nat) (ap_scripts app)) as [n Hn].
    { clear Hi. induction (ap_scripts app) as [|p k [n IH]]; [by exists 0%nat|]. exists (S (rank p) + n)%nat. constructor; [lia|].
      eapply Forall_impl; [exact IH|]. simpl. intros; lia. }
    destruct (scripts_done n (ap_scripts app) [] app eq_refl Hi Hn) as [H|(j & app' & A1 & A2 & A3)]; [done|].
    exists j. intros fuel Hf. replace fuel with (j + (fuel - j))%nat by lia. rewrite A3. destruct (fuel - j)%nat; cbn [script_loop]; rewrite A1; discriminate.
  Qed.
End scripts.
