(** C47, C48, C51-C54, C65: the command line, input search, scripts, and what
    a run leaves behind. *)
From Verif Require Import ProofArgs Demo.

(** * C51 *)

(** Every argument list is a command line, or one whose last argument is an
    option without its value. *)
Theorem C51_read : forall args, (exists l, command_line l /\ args = spell_all l) \/
  (exists l o, o ∈ takes_value /\ args = spell_all l ++ [o] /\ command_line l).
Proof.
  intros args. destruct (read_args _ args (le_n _)) as (l & tail & Hs & -> & [->|(o & -> & Ho)]).
  - left. exists l. rewrite app_nil_r. split; [by apply command_line_separated|done].
  - right. exists l, o. split; [done|]. split; [done|]. apply command_line_separated. intros k t k' E. destruct (Hs _ _ _ E) as [H1 H2]. split; [done|].
    rewrite app_nil_r. intros Et. specialize (H2 Et). by destruct (spell_all k').
Qed.
Print Assumptions C51_read.

(** A value is missing: error. A value is not known: no success. *)
Theorem C51_missing_value : forall fs l o, command_line l -> Forall (value_ok fs) l -> o ∈ takes_value ->
  handle_linker_args fs (spell_all l ++ [o]) app_default = Err (EUsage o).
Proof.
  intros fs l o Hl Hv Ho.
  assert (Hd : dash o).
  { unfold takes_value in Ho. rewrite !elem_of_cons, elem_of_nil in Ho.
    destruct Ho as [->|[->|[->|[->|[->|[->|[]]]]]]]; eexists; reflexivity. }
  assert (Hs : separated l [o]).
  { apply command_line_separated in Hl. intros k t k' E. destruct (Hl _ _ _ E) as [H1 H2]. split; [done|]. intros Et. specialize (H2 Et).
    rewrite app_nil_r in H2. by destruct (spell_all k'). }
  pose proof (spell_all_length l). unfold handle_linker_args. rewrite (handle_tokens fs l [o] Hs) by (rewrite app_length; simpl; lia).
  destruct (proj2 (run_ok fs l app_default) Hv) as [app Happ]. rewrite Happ. cbn [mbind res_bind].
  destruct (length (spell_all l ++ [o]) - length l)%nat eqn:E; [rewrite app_length in E; simpl in E; lia|]. by apply missing_value.
Qed.
Print Assumptions C51_missing_value.

Theorem C51_bad_value : forall fs l app, command_line l -> ¬ Forall (value_ok fs) l -> handle_linker_args fs (spell_all l) app_default <> Ok app.
Proof.
  intros fs l app Hl Hv H. apply Hv. unfold handle_linker_args in H. apply command_line_separated in Hl.
  rewrite <- (app_nil_r (spell_all l)), (handle_tokens fs l [] Hl) in H by done. destruct (run_tokens fs l app_default) as [app1| |] eqn:E; [|done|done].
  apply (run_ok fs l app_default). by eexists.
Qed.
Print Assumptions C51_bad_value.

(** Otherwise the last value of an option wins, inputs keep their order, each
    with the as-needed state in force, and the directories are collected. *)
Lemma last_hash fs l d : Forall (value_ok fs) l ->
  match last (omap style_of l) with Some v => hash_value v (last_of hash_of l d) | None => last_of hash_of l d = d end.
Proof.
  revert d. induction l as [|t l IH]; intros d Hv; [done|]. apply Forall_cons in Hv as [Ht Hv]. rewrite last_of_cons.
  destruct (style_of t) as [v|] eqn:E.
  - destruct t; try done. injection E as ->. destruct Ht as [h Hh]. apply hash_spec in Hh. cbn [hash_of]. rewrite Hh.
    change (omap style_of (THash v :: l)) with (v :: omap style_of l). specialize (IH h Hv). destruct (omap style_of l) as [|x k].
    + simpl in *. rewrite IH. by apply hash_spec.
    + change (last (v :: x :: k)) with (last (x :: k)). by destruct (last (x :: k)) eqn:E; [|apply last_None in E].
  - assert (hash_of t = None) as -> by (by destruct t). assert (omap style_of (t :: l) = omap style_of l) as -> by (by destruct t). apply IH. done.
Qed.
Theorem C51_result : forall fs l, command_line l -> Forall (value_ok fs) l ->
  exists app, handle_linker_args fs (spell_all l) app_default = Ok app /\
    opt_output (ap_opts app) = last_of output_of l "./out" /\
    opt_dynamic_linker (ap_opts app) = last_of interp_of l "/lib64/ld-linux-x86-64.so.2" /\
    match last (omap style_of l) with Some v => hash_value v (opt_hash_style (ap_opts app)) | None => opt_hash_style (ap_opts app) = HBoth end /\
    ap_inputs app = inputs_of false l /\
    ap_as_needed app = last_of needed_of l false /\
    (forall d, d ∈ ap_search_paths app <-> d ∈ omap (dir_of fs) l) /\
    (ap_help app = true <-> exists b, THelp b ∈ l) /\
    (opt_eh_frame_hdr (ap_opts app) = true <-> TFrames ∈ l) /\
    ap_objects app = [] /\ ap_archives app = [] /\ ap_scripts app = [] /\ opt_shared_libs (ap_opts app) = [].
Proof.
  intros fs l Hl Hv. destruct (proj2 (run_ok fs l app_default) Hv) as [app Happ]. exists app. unfold handle_linker_args. apply command_line_separated in Hl.
  split. { rewrite <- (app_nil_r (spell_all l)), (handle_tokens fs l [] Hl) by done. rewrite Happ. cbn [mbind res_bind]. by destruct (_ - _)%nat. }
  destruct (run_fields _ _ _ _ Happ) as (F1 & F2 & F3 & F4 & F5 & F6 & F7 & F8 & F9 & F10 & F11 & F12 & F13).
  pose proof (last_hash fs l HBoth Hv) as Hh.
  change (opt_hash_style (ap_opts app_default)) with HBoth in F3. rewrite <- F3 in Hh.
  assert (Hlast : forall f : token -> option bool, (forall t b, f t = Some b -> b = true) -> last_of f l false = true <-> exists t, t ∈ l /\ f t = Some true).
  { intros f Hf. unfold last_of. destruct (last (omap f l)) as [b|] eqn:E.
    - apply last_Some_elem_of in E. apply elem_of_list_omap in E as (t & Ht & E). pose proof (Hf _ _ E) as ->. split; [|done]. intros _. by exists t.
    - apply last_None in E. split; [done|]. intros (t & Ht & Et). exfalso. assert (true ∈ omap f l) as Hin by (apply elem_of_list_omap; by exists t).
      rewrite E in Hin. by apply elem_of_nil in Hin. }
  split_and!; try done.
  - intros d. rewrite F9. change (ap_search_paths app_default) with (@nil string). rewrite elem_of_nil. tauto.
  - rewrite F6. change (ap_help app_default) with false. rewrite Hlast by (intros [] b [= <-]; done). split.
    + intros (t & Ht & E). destruct t; try done. by eexists.
    + intros [b Hb]. by exists (THelp b).
  - rewrite F5. change (opt_eh_frame_hdr (ap_opts app_default)) with false. rewrite Hlast by (intros [] b [= <-]; done). split.
    + intros (t & Ht & E). by destruct t.
    + intros Hb. by exists TFrames.
Qed.
Print Assumptions C51_result.
Definition demo_fs : main_fs := mkMainFs (fun _ => true) Some (fun _ => None) (fun _ => None).
Example C51_case : exists l, command_line l /\ Forall (value_ok demo_fs) l /\
  spell_all l = ["-o"; "x"; "a.o"; "--build-id"; "--as-needed"; "-lm"; "--no-as-needed"; "-l"; "c"; "-Ld"; "-o"; "y"; "--hash-style=gnu"] /\
  inputs_of false l = [("a.o", false); ("m", true); ("c", false)].
Proof.
  exists [TOutput "x"; TFile "a.o"; TBuildId; TNeeded true; TLibJoined "m"; TNeeded false; TLib "c"; TDirJoined "d"; TOutput "y"; THash "gnu"].
  split; [|split; [|done]].
  - cbn [command_line]. split_and!; try done.
    + split; [apply (bool_decide_eq_true_1 (_ ∉ _)); vm_compute; reflexivity|]. intros r. split_and!; discriminate.
    + intros _. by eexists.
  - repeat (constructor; [try done; try (by eexists)|]); [|constructor]. exists HGnu. vm_compute. tauto.
Qed.

(** * C53 *)

(** Which directory comes first does not decide: of two directories that have
    the library the one visited last is taken, and the order of visits is the
    hash set's. A file of that very name is taken before any library. *)
Definition two_dirs : main_fs := mkMainFs (fun p => bool_decide (p ∈ ["/a/libm.so"; "/b/libm.so"])) Some (fun _ => None) (fun _ => None).
Theorem C53_refuted : exists fs ord ord' dirs name, (forall l, ord l ≡ₚ l) /\ (forall l, ord' l ≡ₚ l) /\
  dirs = ["/a"; "/b"] /\ has_lib fs "/a" name /\
  locate fs (ord dirs) name = Some "/b/libm.so" /\ locate fs (ord' dirs) name = Some "/a/libm.so".
Proof.
  exists two_dirs, id, reverse, ["/a"; "/b"], "m". split; [done|]. split; [intros l; apply reverse_Permutation|]. split; [done|].
  split; [left; vm_compute; reflexivity|]. split; vm_compute; reflexivity.
Qed.
Print Assumptions C53_refuted.
Definition file_m : main_fs := mkMainFs (fun p => bool_decide (p ∈ ["m"; "/b/libm.so"])) Some (fun _ => None) (fun _ => None).
Theorem C53_refuted_file : exists fs dirs name, has_lib fs "/b" name /\ dirs = ["/b"] /\ locate fs dirs name = Some name.
Proof. exists file_m, ["/b"], "m". split; [left; vm_compute; reflexivity|]. split; [done|]. vm_compute. reflexivity. Qed.
Print Assumptions C53_refuted_file.

(** Without such files: a library is found exactly if a directory has one, a
    shared one if there is one; and if only one directory has it, it is that
    directory's, in every order of visits. *)
Lemma search_dirs_none fs lib kind dirs : (forall d, d ∈ dirs -> fs_is_file fs (path_join d lib) = false) -> forall found,
  match search_dirs fs lib kind dirs found with
  | Some p => (exists d, d ∈ dirs /\ p = lib_file d lib kind /\ fs_is_file fs p = true) \/
              (found = Some p /\ forall d, d ∈ dirs -> fs_is_file fs (lib_file d lib kind) = false)
  | None => found = None /\ forall d, d ∈ dirs -> fs_is_file fs (lib_file d lib kind) = false
  end.
Proof.
  induction dirs as [|d dirs IH]; intros H found; cbn [search_dirs].
  - destruct found as [p|]; [right|]; (split; [done|]; intros d Hd; by apply elem_of_nil in Hd).
  - rewrite H by (by left). fold (lib_file d lib kind).
    specialize (IH (fun d' Hd' => H d' (elem_of_list_further _ _ _ Hd')) (if fs_is_file fs (lib_file d lib kind) then Some (lib_file d lib kind) else found)).
    destruct (search_dirs fs lib kind dirs _) as [p|].
    + destruct IH as [(d' & Hd' & E)|[E1 E2]]; [left; exists d'; split; [by right|done]|]. destruct (fs_is_file fs (lib_file d lib kind)) eqn:Ef.
      * injection E1 as <-. left. exists d. split; [by left|done].
      * right. split; [done|]. intros d' Hd'. apply elem_of_cons in Hd' as [->|Hd']; [done|by apply E2].
    + destruct IH as [E1 E2]. destruct (fs_is_file fs (lib_file d lib kind)) eqn:Ef; [done|]. split; [done|].
      intros d' Hd'. apply elem_of_cons in Hd' as [->|Hd']; [done|by apply E2].
Qed.
Theorem C53_partial : forall fs dirs name, fs_is_file fs name = false -> (forall d, d ∈ dirs -> fs_is_file fs (path_join d name) = false) ->
  match locate fs dirs name with
  | Some p => exists d, d ∈ dirs /\ fs_is_file fs p = true /\
      (p = lib_file d name "so" \/ p = lib_file d name "a" /\ forall d', d' ∈ dirs -> fs_is_file fs (lib_file d' name "so") = false)
  | None => forall d, d ∈ dirs -> ¬ has_lib fs d name
  end.
Proof.
  intros fs dirs name H1 H2. unfold locate. rewrite H1. pose proof (search_dirs_none fs name "so" dirs H2 None) as Hso. pose proof (search_dirs_none fs name "a" dirs H2 None) as Ha.
  destruct (search_dirs fs name "so" dirs None) as [p|].
  - destruct Hso as [(d & Hd & E & F)|[? _]]; [|done]. exists d. split; [done|]. split; [done|]. by left.
  - destruct Hso as [_ Hso]. destruct (search_dirs fs name "a" dirs None) as [p|].
    + destruct Ha as [(d & Hd & E & F)|[? _]]; [|done]. exists d. split; [done|]. split; [done|]. right. done.
    + destruct Ha as [_ Ha]. intros d Hd [F|F]; [by rewrite Hso in F|by rewrite Ha in F].
Qed.
Print Assumptions C53_partial.
Theorem C53_single_partial : forall fs ord dirs name d, (forall l, ord l ≡ₚ l) -> fs_is_file fs name = false ->
  (forall d, d ∈ dirs -> fs_is_file fs (path_join d name) = false) -> d ∈ dirs -> has_lib fs d name ->
  (forall d', d' ∈ dirs -> has_lib fs d' name -> d' = d) ->
  locate fs (ord dirs) name = Some (if fs_is_file fs (lib_file d name "so") then lib_file d name "so" else lib_file d name "a").
Proof.
  intros fs ord dirs name d Hord H1 H2 Hd Hl Hu. pose proof (C53_partial fs (ord dirs) name H1) as H. assert (Hin : forall x, x ∈ ord dirs <-> x ∈ dirs) by (intros x; by rewrite Hord).
  destruct (locate fs (ord dirs) name) as [p|].
  - destruct H as (d' & Hd' & Hf & Hp); [intros x Hx; by apply H2, Hin|]. assert (d' = d) as ->.
    { apply Hu; [by apply Hin|]. destruct Hp as [->|[-> _]]; [by left|by right]. }
    destruct Hp as [->|[-> Hn]]; [by rewrite Hf|]. by rewrite (Hn d Hd').
  - exfalso. eapply H; [intros x Hx; by apply H2, Hin|by apply Hin|done].
Qed.
Print Assumptions C53_single_partial.
Example C53_case : has_lib two_dirs "/b" "m" /\ fs_is_file two_dirs "m" = false /\ (forall d, d ∈ ["/x"; "/b"] -> fs_is_file two_dirs (path_join d "m") = false) /\
  (forall d', d' ∈ ["/x"; "/b"] -> has_lib two_dirs d' "m" -> d' = "/b").
Proof.
  split; [left; vm_compute; reflexivity|]. split; [vm_compute; reflexivity|]. split.
  - intros d Hd. rewrite !elem_of_cons, elem_of_nil in Hd. destruct Hd as [->|[->|[]]]; vm_compute; reflexivity.
  - intros d Hd. rewrite !elem_of_cons, elem_of_nil in Hd. destruct Hd as [->|[->|[]]]; [|done]. intros [H|H]; vm_compute in H; done.
Qed.

(** * C54 *)
Lemma magic_take content magic : has_magic content magic <-> take (length magic) content = magic.
Proof.
  unfold has_magic, byte_at. split.
  - intros H. apply list_eq. intros i. destruct (magic !! i) as [b|] eqn:E.
    + pose proof (lookup_lt_Some _ _ _ E). rewrite lookup_take by done. by apply H.
    + apply lookup_ge_None in E. by rewrite lookup_take_ge.
  - intros H i b Hi. pose proof (lookup_lt_Some _ _ _ Hi). rewrite <- H, lookup_take in Hi by done. done.
Qed.
Theorem C54_kind : forall content, let kind := file_type_of (take 18 content) in
  (kind = KText <-> blen content < 18 \/ ¬ has_magic content [0x21; 0x3c; 0x61; 0x72; 0x63; 0x68; 0x3e; 0x0a] /\ ¬ has_magic content [0x7f; 0x45; 0x4c; 0x46]) /\
  (kind = KArchive <-> 18 <= blen content /\ has_magic content [0x21; 0x3c; 0x61; 0x72; 0x63; 0x68; 0x3e; 0x0a]) /\
  (kind = KElfSharedLib <-> 18 <= blen content /\ has_magic content [0x7f; 0x45; 0x4c; 0x46] /\ byte_at content 16 = Some 3 /\ byte_at content 17 = Some 0) /\
  (kind = KElfObject <-> 18 <= blen content /\ has_magic content [0x7f; 0x45; 0x4c; 0x46] /\ ¬ (byte_at content 16 = Some 3 /\ byte_at content 17 = Some 0)).
Proof.
  intros content kind. rewrite !magic_take. cbn [length]. subst kind. unfold file_type_of, byte_at.
  assert (Hl : blen (take 18 content) = N.min 18 (blen content)) by (unfold blen; rewrite take_length; lia). rewrite Hl.
  destruct (N.ltb_spec (N.min 18 (blen content)) 18) as [H|H].
  { split_and!; split; intros E; try done; try lia; left; lia. }
  rewrite !take_take. change (8 `min` 18)%nat with 8%nat. change (4 `min` 18)%nat with 4%nat.
  assert (Ht : drop 16 (take 18 content) = [ET_DYN; 0] <-> content !! 16%nat = Some 3 /\ content !! 17%nat = Some 0).
  { assert (exists x y, content !! 16%nat = Some x /\ content !! 17%nat = Some y /\ drop 16 (take 18 content) = [x; y]) as (x & y & -> & -> & ->).
    { assert (18 <= length content)%nat as Hlen by (unfold blen in H; lia). destruct (lookup_lt_is_Some_2 content 16 ltac:(lia)) as [x Hx]. destruct (lookup_lt_is_Some_2 content 17 ltac:(lia)) as [y Hy].
      exists x, y. split; [done|]. split; [done|]. rewrite <- (take_drop_middle content 16 x Hx) at 1. rewrite <- (take_drop_middle content 17 y Hy) at 2.
      assert (E16 : length (take 16 content) = 16%nat) by (rewrite take_length; lia).
      do 18 (destruct content as [|? content]; [simpl in Hlen; lia|]). simpl in Hx, Hy. injection Hx as ->. injection Hy as ->. done. }
    unfold ET_DYN. split; [intros [= -> ->]; done|intros [[= ->] [= ->]]; done]. }
  assert (Hne : take 8 content = AR_MAGIC -> take 4 content = ELF_MAGIC -> False).
  { intros E1 E2. assert (take 4 (take 8 content) = take 4 content) by (by rewrite take_take). rewrite E1, E2 in *. done. }
  fold AR_MAGIC ELF_MAGIC. unfold AR_MAGIC, ELF_MAGIC in *.
  destruct (decide (take 8 content = [33; 60; 97; 114; 99; 104; 62; 10])) as [E1|E1]; [|destruct (decide (take 4 content = [127; 69; 76; 70])) as [E2|E2]; [destruct (decide (drop 16 (take 18 content) = [ET_DYN; 0])) as [E3|E3]|]];
    try rewrite Ht in E3; split_and!; split; intros E; try done; try (by intuition (lia || eauto)).
Qed.
Print Assumptions C54_kind.
Example C54_case : file_type_of (take 18 ([0x7f; 0x45; 0x4c; 0x46; 2; 1; 1; 0; 0; 0; 0; 0; 0; 0; 0; 0; 3; 0; 62; 0])) = KElfSharedLib /\
  file_type_of (take 18 (string_bytes "GROUP(/lib/libc.so.6 -lm)")) = KText.
Proof. split; vm_compute; reflexivity. Qed.

(** * C65 *)

(** A script that names itself is read for ever. *)
Definition self_text : list ascii := list_ascii_of_string "GROUP(s)".
Definition self_fs : main_fs := mkMainFs (fun _ => true) Some (fun _ => Some [0]) (fun _ => Some self_text).
Lemma self_loop ord fuel app : ap_scripts app = ["s"] -> ap_inputs app = [] -> script_loop self_fs ord 10 fuel app = Panic PFuel.
Proof.
  revert app. induction fuel as [|fuel IH]; intros app Hs Hi; cbn [script_loop]; rewrite Hs; [reflexivity|].
  change (last ["s"]) with (Some "s"). cbn beta iota. change (unwrap (fs_text self_fs "s")) with (Ok self_text). cbn [mbind res_bind].
  assert (parse_script 10 self_text = SArgs [["s"%char]]) as -> by (vm_compute; reflexivity).
  change (string_of_list_ascii <$> [["s"%char]]) with ["s"]. set (app0 := app <| ap_scripts := take (length ["s"] - 1) ["s"] |>).
  assert (handle_linker_args self_fs ["s"] app0 = Ok (app0 <| ap_inputs := ap_inputs app0 ++ [("s", ap_as_needed app0)] |>)) as -> by reflexivity.
  cbn [mbind res_bind]. unfold search_for_inputs. subst app0. cbn [ap_inputs set ap_as_needed]. rewrite Hi. cbn [Datatypes.app search_inputs].
  change (locate self_fs (ord _) "s") with (Some "s"). cbn beta iota. unfold file_input. change (unwrap (fs_head self_fs "s")) with (Ok [0]). cbn [mbind res_bind].
  change (file_type_of [0]) with KText. cbn beta iota. cbn [mbind res_bind search_inputs]. apply IH; reflexivity.
Qed.
Theorem C65_refuted : exists fs (sfuel : nat) (args : list string), (forall s text, fs_text fs s = Some text -> parse_script sfuel text <> SRunning) /\
  forall ord fuel, main_linker fs ord sfuel fuel args = Panic PFuel.
Proof.
  exists self_fs, 10%nat, ["s"]. split; [intros s text [= <-]; vm_compute; discriminate|]. intros ord fuel. unfold main_linker.
  assert (exists app, parse_args self_fs ord ["s"] = Ok app /\ ap_help app = false /\ ap_scripts app = ["s"] /\ ap_inputs app = []) as (app & -> & Hh & Hs & Hi).
  { eexists. split; [reflexivity|]. split; [reflexivity|]. split; reflexivity. }
  cbn [mbind res_bind]. rewrite Hh, self_loop by done. reflexivity.
Qed.
Print Assumptions C65_refuted.

(** Reading scripts ends if the parser ends on each and they do not include
    each other in a circle. Missing: circles. *)
Theorem C65_partial : forall fs ord sfuel args (rank : string -> nat),
  (forall s text, fs_text fs s = Some text -> parse_script sfuel text <> SRunning) ->
  (forall s p, includes fs sfuel s p -> (rank p < rank s)%nat) ->
  exists f0, forall fuel, (f0 <= fuel)%nat -> main_linker fs ord sfuel fuel args <> Panic PFuel.
Proof.
  intros fs ord sfuel args rank H1 H2. unfold main_linker.
  assert (Hp : parse_args fs ord args <> Panic PFuel).
  { unfold parse_args. pose proof (handle_linker_runs fs args app_default) as Hr. destruct (handle_linker_args fs args app_default) as [a|e|q]; cbn [mbind res_bind]; [|discriminate|intros [= ->]; done].
    unfold search_for_inputs. pose proof (search_inputs_runs fs ord (ap_inputs a) (a <| ap_inputs := [] |>)) as Hr2.
    destruct (search_inputs _ _ _ _) as [[b o]|e|q]; cbn [mbind res_bind]; [by destruct o|discriminate|intros [= ->]; done]. }
  destruct (parse_args fs ord args) as [app|e|q] eqn:Ep; cbn [mbind res_bind]; [|exists 0%nat; discriminate|exists 0%nat; intros fuel _ [= ->]; done].
  destruct (ap_help app); [exists 0%nat; discriminate|].
  assert (Hi : ap_inputs app = []).
  { unfold parse_args in Ep. apply bind_Ok in Ep as (a & _ & Ep). apply bind_Ok in Ep as ([b o] & Hs & Ep). destruct o; [done|]. injection Ep as <-.
    unfold search_for_inputs in Hs. destruct (search_inputs_scripts _ _ _ _ _ _ Hs) as (new & _ & E & _). exact E. }
  destruct (scripts_end fs ord sfuel rank H1 H2 app Hi) as [f0 Hf0]. exists f0. intros fuel Hf. specialize (Hf0 fuel Hf).
  destruct (script_loop fs ord sfuel fuel app) as [x|e|q]; cbn [mbind res_bind]; [discriminate|discriminate|intros [= ->]; done].
Qed.
Print Assumptions C65_partial.
(** One script naming an object. *)
Definition one_fs : main_fs := mkMainFs (fun p => true) Some
  (fun p => if (p =? "s")%string then Some [0] else Some ([0x7f; 0x45; 0x4c; 0x46] ++ replicate 14 1)) (fun p => if (p =? "s")%string then Some (list_ascii_of_string "GROUP(a.o)") else None).
Example C65_case : (forall s text, fs_text one_fs s = Some text -> parse_script 10 text <> SRunning) /\
  (forall s p, includes one_fs 10 s p -> ((if (p =? "s")%string then 1 else 0) < (if (s =? "s")%string then 1 else 0))%nat) /\
  exists l, main_linker one_fs id 10 5 ["s"] = Ok (Some l) /\ lk_objects l = ["a.o"].
Proof.
  split; [|split].
  - intros s text Ht. cbn [fs_text one_fs] in Ht. destruct (s =? "s")%string; [|done]. injection Ht as <-. vm_compute. discriminate.
  - intros s p (text & args & toks & needed & lib & flag & dirs & head & Ht & Hp & Ha & Hin & Hl & Hh & Hk). cbn [fs_text one_fs] in Ht. destruct (s =? "s")%string; [|done].
    injection Ht as <-. vm_compute in Hp. injection Hp as <-. cbn in Ha.
    unfold locate in Hl. cbn [fs_is_file one_fs] in Hl. injection Hl as <-.
    destruct (String.eqb_spec lib "s") as [->|]; [|lia]. exfalso.
    destruct toks as [|t [|t' toks]]; [done| |].
    + destruct t; simpl in Ha; try discriminate Ha; cbn in Hin; rewrite ?elem_of_cons, ?elem_of_nil in Hin; try (by destruct Hin).
      all: destruct Hin as [[= <- <-]|[]]; discriminate Ha.
    + apply (f_equal length) in Ha. rewrite !spell_all_cons, !app_length in Ha. destruct (spell_nonempty t) as (a & k & Ea), (spell_nonempty t') as (a' & k' & Ea').
      rewrite Ea, Ea' in Ha. simpl in Ha. lia.
  - eexists. split; [vm_compute; reflexivity|]. vm_compute. reflexivity.
Qed.
