(** The program as a command (C98-C102). *)
From Verif Require Import SpecMain SpecRun ProofMain ProofErrors ProofOutput ProofImage DemoLink PropLayout PropFile PropArgs PropSyms PropExec PropMissing PropErrors.

(** * C98 *)
Lemma sections_append l : forall out off, exists more, (write_sections l out off).1 = out ++ more.
Proof.
  induction l as [|s l IH]; intros out off; cbn [write_sections]; [exists []; by rewrite app_nil_r|].
  destruct (off <? sh_offset (sc_sh s)).
  - destruct (IH ((out ++ zeros (sh_offset (sc_sh s) - off)) ++ (sc_chunks s ≫= c_data)) (sh_offset (sc_sh s) + size_on_disk s)) as [m Hm]. rewrite Hm. rewrite <- !app_assoc. eauto.
  - destruct (IH (out ++ (sc_chunks s ≫= c_data)) (off + size_on_disk s)) as [m Hm]. rewrite Hm. rewrite <- app_assoc. eauto.
Qed.
Lemma bytes_magic wd lo l fuel data : link_bytes wd lo l fuel = Ok data -> take 4 data = [0x7f; 0x45; 0x4c; 0x46].
Proof.
  unfold link_bytes. intros H. apply bind_Ok in H as (w & Hw & H). unfold write_to_disk in H. apply bind_Ok in H as (secs & Hs & H).
  destruct (links_outcome wd lo l fuel w secs (conj Hw Hs)) as (w0&wr&ws&w1&extra&null&rest&rest'&st&w3&w4&w5&w6&w7&null'&out&O). destruct (eh_final O) as [HX _].
  pose proof (sections_append secs (ser_ehdr (w_eh w) ++ (w_program_headers w ≫= ser_phdr)) (EHDR_SIZE + blen (w_program_headers w) * PHDR_SIZE)) as [more Hm].
  destruct (write_sections _ _ _) as [o off]. cbn [fst] in Hm. injection H as <-. rewrite Hm. unfold ser_ehdr. rewrite (xe_ident _ HX). reflexivity.
Qed.
(** Status 0: the help text was printed and nothing done, or the program is in
    the file named, executable (0x1ed is rwxr-xr-x), and no other file changed. *)
Theorem C98_success : forall fs ord wd lo sfuel fuel lfuel args, jb_status (main_run fs ord wd lo sfuel fuel lfuel args) = Some 0 ->
  (jb_stdout (main_run fs ord wd lo sfuel fuel lfuel args) = String.append HELP nl /\ jb_effects (main_run fs ord wd lo sfuel fuel lfuel args) = []) \/
  exists out data, jb_stdout (main_run fs ord wd lo sfuel fuel lfuel args) = String.append "Elf executable in: " (String.append out nl) /\
    (forall dflt before, file_after dflt out before (jb_effects (main_run fs ord wd lo sfuel fuel lfuel args)) = Some (data, 0x1ed)) /\
    (forall dflt before path, path <> out -> file_after dflt path before (jb_effects (main_run fs ord wd lo sfuel fuel lfuel args)) = before) /\
    take 4 data = [0x7f; 0x45; 0x4c; 0x46].
Proof.
  intros fs ord wd lo sfuel fuel lfuel args. unfold main_run. destruct (main_linker fs ord sfuel fuel args) as [[l|]|e|p]; [|left; split; reflexivity|discriminate|destruct p; discriminate].
  unfold run_linker, link. destruct (wd_can_create wd); [|discriminate]. destruct (link_bytes wd lo l lfuel) as [data|e|p] eqn:Eb; [|discriminate|destruct p; discriminate].
  intros _. right. cbn [jb_stdout jb_effects]. exists (opt_output (lk_options l)), data. split; [reflexivity|]. split; [|split; [|exact (bytes_magic _ _ _ _ _ Eb)]].
  - intros dflt before. unfold file_after. cbn [foldl file_step]. rewrite !decide_True by reflexivity. reflexivity.
  - intros dflt before path Hp. unfold file_after. cbn [foldl file_step]. rewrite !decide_False by congruence. reflexivity.
Qed.
Print Assumptions C98_success.
(** Any other status, or none yet: nothing is printed, and every file is as it
    was or empty. *)
Theorem C98_failure : forall fs ord wd lo sfuel fuel lfuel args, jb_status (main_run fs ord wd lo sfuel fuel lfuel args) <> Some 0 ->
  jb_stdout (main_run fs ord wd lo sfuel fuel lfuel args) = "" /\
  forall dflt path before, untouched_or_emptied dflt path before (file_after dflt path before (jb_effects (main_run fs ord wd lo sfuel fuel lfuel args))).
Proof.
  intros fs ord wd lo sfuel fuel lfuel args. unfold main_run. destruct (main_linker fs ord sfuel fuel args) as [[l|]|e|p].
  - unfold run_linker, link. destruct (wd_can_create wd).
    + destruct (link_bytes wd lo l lfuel) as [data|e|p]; cbn [jb_status status_of jb_stdout jb_effects]; [congruence|..]; intros _; (split; [reflexivity|]); intros dflt path before; unfold file_after, untouched_or_emptied; cbn [foldl file_step];
        (case_decide; [by right|by left]).
    + intros _. split; [reflexivity|]. intros dflt path before. by left.
  - cbn [jb_status]. congruence.
  - intros _. split; [reflexivity|]. intros dflt path before. by left.
  - intros _. split; [reflexivity|]. intros dflt path before. by left.
Qed.
Print Assumptions C98_failure.
(** The link of Demo.v from its command line; and one that cannot be. *)
Definition elf_head (t : N) : bytes := [0x7f; 0x45; 0x4c; 0x46; 2; 1; 1; 0; 0; 0; 0; 0; 0; 0; 0; 0; t; 0].
Definition cmd_fs : main_fs := mkMainFs (fun p => bool_decide (p ∈ ["a.o"; "/l/libfoo.so"])) Some
  (fun p => if (p =? "a.o")%string then Some (elf_head 1) else if (p =? "/l/libfoo.so")%string then Some (elf_head 3) else None) (fun _ => None).
Example C98_case : exists data, main_run cmd_fs id (demo_world demo_files []) demo_lib_oracle 10 10 10 ["-L"; "/l"; "a.o"; "-lfoo"] =
    mkJob (Some 0) (String.append "Elf executable in: ./out" nl) [ECreate "./out"; EWrite "./out" data; EChmod "./out" 493] None /\ blen data = 9732 /\
  jb_status (main_run cmd_fs id (demo_world demo_files []) demo_lib_oracle 10 10 10 ["a.o"]) = Some 1.
Proof.
  destruct C36_case as (w & secs & data & _ & _ & _ & _ & HL & Hl). exists data. split; [|split; [exact Hl|vm_compute; reflexivity]].
  unfold main_run. assert (E : main_linker cmd_fs id 10 10 ["-L"; "/l"; "a.o"; "-lfoo"] = Ok (Some (demo_linker ["a.o"] ["/l/libfoo.so"]))) by (vm_compute; reflexivity). rewrite E. clear E.
  unfold run_linker. rewrite HL. reflexivity.
Qed.

(** * C99 *)
Lemma read_line fs ord (l : list token) : command_line l -> Forall (value_ok fs) l -> (forall k : list string, ord k ≡ₚ k) -> exists app, handle_linker_args fs (spell_all l) app_default = Ok app /\
  opt_output (ap_opts app) = last_of output_of l "./out" /\ ap_inputs app = inputs_of false l /\ (forall d, d ∈ ord (ap_search_paths app) <-> d ∈ omap (dir_of fs) l) /\
  (ap_help app = true <-> exists b, THelp b ∈ l) /\ ap_objects app = [] /\ ap_archives app = [] /\ ap_scripts app = [] /\ opt_shared_libs (ap_opts app) = [].
Proof.
  intros C V Ho. destruct (C51_result fs l C V) as (app & H & A1 & _ & _ & A4 & _ & A6 & A7 & _ & A8). exists app. split; [exact H|]. split; [exact A1|]. split; [exact A4|]. split; [|split; [exact A7|exact A8]].
  intros d. rewrite (Ho (ap_search_paths app)). apply A6.
Qed.
Lemma values_of fs (l : list token) app : command_line l -> handle_linker_args fs (spell_all l) app_default = Ok app -> Forall (value_ok fs) l.
Proof.
  intros C H. apply command_line_separated in C. unfold handle_linker_args in H. pose proof (spell_all_length l) as Hlen. rewrite <- (app_nil_r (spell_all l)) in H.
  rewrite (handle_tokens fs l [] C) in H by (rewrite app_nil_r; lia). apply bind_Ok in H as (x & H & _). apply (run_ok fs l app_default). eauto.
Qed.
(** Every input of the command line is found and linked: objects, libraries and
    archives are among those of the link, objects and libraries in order and
    before any others. Without scripts there are no others. Missing: inputs
    named by scripts, see [C99_refuted]. *)
Theorem C99_partial : forall fs ord sfuel fuel l lk, command_line l -> (forall k, ord k ≡ₚ k) -> short_heads fs -> main_linker fs ord sfuel fuel (spell_all l) = Ok (Some lk) ->
  exists at_ objs libs ars scripts objs' libs',
    picks fs l at_ SObject (fun p _ => fs_canonicalize fs p) (inputs_of false l) objs /\ lk_objects lk = objs ++ objs' /\
    picks fs l at_ SShared (fun p b => Some (p, b)) (inputs_of false l) libs /\ opt_shared_libs (lk_options lk) = libs ++ libs' /\
    picks fs l at_ SArchive (fun p _ => fs_canonicalize fs p) (inputs_of false l) ars /\ (forall a, a ∈ ars -> a ∈ lk_archives lk) /\
    picks fs l at_ SScript (fun p _ => Some p) (inputs_of false l) scripts /\
    (scripts = [] -> objs' = [] /\ libs' = [] /\ (forall a, a ∈ lk_archives lk -> a ∈ ars) /\ opt_output (lk_options lk) = last_of output_of l "./out").
Proof.
  intros fs ord sfuel fuel l lk C Ho SH H. unfold main_linker in H. apply bind_Ok in H as (app2 & Hp & H). unfold parse_args in Hp. apply bind_Ok in Hp as (app & Ha & Hp). apply bind_Ok in Hp as ([app1 o] & Hs & Hp).
  destruct o as [?|]; [discriminate Hp|]. injection Hp as <-. pose proof (values_of fs l app C Ha) as V. destruct (read_line fs ord l C V Ho) as (app' & Ha' & B1 & B2 & B3 & _ & B5 & B6 & B7 & B8).
  rewrite Ha in Ha'. injection Ha' as <-. 
  destruct (filed_for fs ord l app app1 SH B2 B3 Hs) as [F1 F2 F3 F4 F5]. destruct F1 as (x1 & P1 & E1), F2 as (x2 & P2 & E2), F3 as (x3 & P3 & E3), F4 as (x4 & P4 & E4), F5 as (_ & _ & E7).
  rewrite B5 in E1. rewrite B8 in E2. rewrite B6 in E3. rewrite B7 in E4. cbn [Datatypes.app] in E1, E2, E4.
  destruct (ap_help app1); [discriminate H|]. apply bind_Ok in H as (app3 & H3 & [= <-]). cbn [lk_objects lk_options lk_archives].
  destruct (scripts_add _ _ _ _ _ _ H3) as ((o' & Eo) & (l' & El) & Hars). rewrite E1 in Eo. rewrite E2 in El.
  exists (at_of fs (ord (ap_search_paths app))), x1, x2, x3, x4, o', l'. split; [exact P1|]. split; [exact Eo|]. split; [exact P2|]. split; [exact El|]. split; [exact P3|].
  split; [intros a Hin; apply Hars, E3; by right|]. split; [exact P4|]. intros ->. assert (app3 = app1) as ->.
  { destruct fuel; cbn [script_loop] in H3; rewrite E4 in H3; cbn [last] in H3; by injection H3. }
  split; [apply (app_inv_head x1); rewrite <- Eo, app_nil_r; exact E1|]. split; [apply (app_inv_head x2); rewrite <- El, app_nil_r; exact E2|].
  split; [intros a Hin; apply E3 in Hin as [Hin|Hin]; [by apply elem_of_nil in Hin|exact Hin]|]. congruence.
Qed.
Print Assumptions C99_partial.
(** An input of the command line that stands for no file ends the program with
    status 1 before anything is created. *)
Theorem C99_missing : forall fs ord wd lo sfuel fuel lfuel l, command_line l -> Forall (value_ok fs) l -> (forall k, ord k ≡ₚ k) -> readable_fs fs -> ~ all_found fs l ->
  main_run fs ord wd lo sfuel fuel lfuel (spell_all l) = mkJob (Some 1) "" [] None.
Proof.
  intros fs ord wd lo sfuel fuel lfuel l C V Ho RD NF. destruct (read_line fs ord l C V Ho) as (app & Ha & _ & B2 & B3 & _).
  destruct (search_for_result fs ord l app RD B2 B3) as (app' & o & Hs & _ & Hn). destruct o as [lib|]; [|destruct NF; exact (proj1 Hn eq_refl)].
  unfold main_run, main_linker, parse_args. rewrite Ha. cbn [mbind res_bind]. rewrite Hs. reflexivity.
Qed.
Print Assumptions C99_missing.
Example C99_case : exists l lk, command_line l /\ spell_all l = ["-L"; "/l"; "a.o"; "-lfoo"] /\ Forall (value_ok cmd_fs) l /\ short_heads cmd_fs /\ readable_fs cmd_fs /\ all_found cmd_fs l /\
  main_linker cmd_fs id 10 10 (spell_all l) = Ok (Some lk) /\ lk_objects lk = ["a.o"] /\ opt_shared_libs (lk_options lk) = [("/l/libfoo.so", false)].
Proof.
  exists [TDir "/l"; TFile "a.o"; TLibJoined "foo"], (demo_linker ["a.o"] ["/l/libfoo.so"]).
  split. { cbn [command_line token_ok]. repeat split; try done. unfold exact_options, takes_value. cbn [Datatypes.app]. rewrite !elem_of_cons, elem_of_nil. intros H. repeat (destruct H as [H|H]; [discriminate H|]). exact H. }
  split; [reflexivity|]. split; [repeat constructor|].
  assert (F : forall p, fs_is_file cmd_fs p = true -> p = "a.o" \/ p = "/l/libfoo.so"). { intros p Hp. apply bool_decide_eq_true_1 in Hp. rewrite !elem_of_cons, elem_of_nil in Hp. tauto. }
  split. { intros p h. cbn [fs_head cmd_fs]. destruct (p =? "a.o")%string; [intros [= <-]; vm_compute; discriminate|]. destruct (p =? "/l/libfoo.so")%string; [intros [= <-]; vm_compute; discriminate|discriminate]. }
  split. { intros p Hp. apply F in Hp as [-> | ->]; (split; [vm_compute; eauto|cbn [fs_canonicalize cmd_fs]; eauto]). }
  split. { intros n b Hn. cbn [inputs_of] in Hn. rewrite !elem_of_cons, elem_of_nil in Hn. destruct Hn as [[= -> ->]|[[= -> ->]|[]]].
    - exists "a.o". split; [reflexivity|by left].
    - exists "/l/libfoo.so". split; [reflexivity|]. right. exists "/l". split; [left|]. right. left. reflexivity. }
  split; [vm_compute; reflexivity|]. split; reflexivity.
Qed.
(** A script names two files. The first is not there; nothing is said, and the
    second is not linked either. *)
Definition lost_fs : main_fs := mkMainFs (fun p => bool_decide (p ∈ ["s"; "b.o"])) Some
  (fun p => if (p =? "s")%string then Some (string_bytes "GROUP(x b.o)") else if (p =? "b.o")%string then Some (elf_head 1) else None)
  (fun p => if (p =? "s")%string then Some (list_ascii_of_string "GROUP(x b.o)") else None).
Theorem C99_refuted : exists fs wd lo lk, fs_text fs "s" = Some (list_ascii_of_string "GROUP(x b.o)") /\ fs_is_file fs "x" = false /\ fs_is_file fs "b.o" = true /\ is_sort fs SObject "b.o" /\ valid_orders lo /\
  main_linker fs id 20 10 ["s"] = Ok (Some lk) /\ lk_objects lk = [] /\
  jb_status (main_run fs id wd lo 20 10 10 ["s"]) = Some 0 /\ jb_stdout (main_run fs id wd lo 20 10 10 ["s"]) = String.append "Elf executable in: ./out" nl.
Proof.
  exists lost_fs, (demo_world [] []), demo_lib_oracle, (mkLinker options_default [] []). split; [reflexivity|]. split; [vm_compute; reflexivity|]. split; [vm_compute; reflexivity|].
  split; [exists (elf_head 1); split; vm_compute; reflexivity|]. split; [exact demo_orders|]. split; [vm_compute; reflexivity|]. split; [reflexivity|]. split; vm_compute; reflexivity.
Qed.
Print Assumptions C99_refuted.

(** * C100 *)
(** Asking for help prints it and does nothing else, if the rest of the command
    line is in order. Missing: when it is not, see [C100_refuted]. *)
Theorem C100_partial : forall fs ord wd lo sfuel fuel lfuel l b, command_line l -> Forall (value_ok fs) l -> (forall k, ord k ≡ₚ k) -> readable_fs fs -> all_found fs l -> THelp b ∈ l ->
  main_run fs ord wd lo sfuel fuel lfuel (spell_all l) = mkJob (Some 0) (String.append HELP nl) [] None.
Proof.
  intros fs ord wd lo sfuel fuel lfuel l b C V Ho RD AF Hb. destruct (read_line fs ord l C V Ho) as (app & Ha & _ & B2 & B3 & B4 & _).
  destruct (search_for_result fs ord l app RD B2 B3) as (app' & o & Hs & Hh & Hn). rewrite (proj2 Hn AF) in Hs.
  unfold main_run, main_linker, parse_args. rewrite Ha. cbn [mbind res_bind]. rewrite Hs. cbn [mbind res_bind]. rewrite Hh.
  rewrite (proj2 B4) by eauto. reflexivity.
Qed.
Print Assumptions C100_partial.
(** And it is printed only then. *)
Theorem C100_only : forall fs ord wd lo sfuel fuel lfuel l, command_line l -> (forall k, ord k ≡ₚ k) -> readable_fs fs -> jb_stdout (main_run fs ord wd lo sfuel fuel lfuel (spell_all l)) = String.append HELP nl -> exists b, THelp b ∈ l.
Proof.
  intros fs ord wd lo sfuel fuel lfuel l C Ho RD. unfold main_run. destruct (main_linker fs ord sfuel fuel (spell_all l)) as [[lk|]|e|p] eqn:E; [|intros _|discriminate|discriminate].
  - unfold run_linker. destruct (link wd lo lk lfuel) as [effs [[]|e|p]]; discriminate.
  - unfold main_linker in E. apply bind_Ok in E as (app2 & Hp & E). unfold parse_args in Hp. apply bind_Ok in Hp as (app & Ha & Hp). apply bind_Ok in Hp as ([app1 o] & Hs & Hp). destruct o as [?|]; [discriminate Hp|]. injection Hp as <-.
    pose proof (values_of fs l app C Ha) as V. destruct (read_line fs ord l C V Ho) as (app' & Ha' & _ & B2 & B3 & B4 & _). rewrite Ha in Ha'. injection Ha' as <-. 
    destruct (search_for_result fs ord l app RD B2 B3) as (app1' & o' & Hs' & Hh & _). rewrite Hs in Hs'. injection Hs' as <- <-.
    destruct (ap_help app1) eqn:E1; [|apply bind_Ok in E as (? & _ & E); discriminate E]. apply B4. congruence.
Qed.
Print Assumptions C100_only.
Example C100_case : jb_stdout (main_run cmd_fs id (demo_world [] []) demo_lib_oracle 10 10 10 ["a.o"; "-h"]) = String.append HELP nl /\
  jb_stdout (main_run cmd_fs id (demo_world [] []) demo_lib_oracle 10 10 10 ["--help"]) = String.append HELP nl.
Proof. split; vm_compute; reflexivity. Qed.
(** A missing input is an error even if help is asked for. *)
Theorem C100_refuted : exists fs l b, command_line l /\ Forall (value_ok fs) l /\ readable_fs fs /\ THelp b ∈ l /\ forall wd lo sfuel fuel lfuel, main_run fs id wd lo sfuel fuel lfuel (spell_all l) = mkJob (Some 1) "" [] None.
Proof.
  exists (mkMainFs (fun _ => false) Some (fun _ => None) (fun _ => None)), [THelp true; TFile "x"], true. split.
  { cbn [command_line token_ok]. repeat split; try done. unfold exact_options, takes_value. cbn [Datatypes.app]. rewrite !elem_of_cons, elem_of_nil. intros H. repeat (destruct H as [H|H]; [discriminate H|]). exact H. }
  split; [repeat constructor|]. split; [intros p Hp; discriminate Hp|]. split; [left|]. intros wd lo sfuel fuel lfuel. reflexivity.
Qed.
Print Assumptions C100_refuted.
(** The help text names an option that is taken for a file. *)
Theorem C100_documented_refuted : String.index 0 "--hash-style STYLE" HELP <> None /\
  exists fs, fs_is_file fs "a.o" = true /\ readable_fs fs /\ forall wd lo sfuel fuel lfuel, main_run fs id wd lo sfuel fuel lfuel ["--hash-style"; "gnu"; "a.o"] = mkJob (Some 1) "" [] None.
Proof.
  split; [vm_compute; discriminate|]. exists cmd_fs. split; [vm_compute; reflexivity|]. split.
  { intros p Hp. apply bool_decide_eq_true_1 in Hp. rewrite !elem_of_cons, elem_of_nil in Hp. destruct Hp as [-> |[-> |[]]]; (split; [vm_compute; eauto|cbn [fs_canonicalize cmd_fs]; eauto]). }
  intros wd lo sfuel fuel lfuel. unfold main_run. assert (E : main_linker cmd_fs id sfuel fuel ["--hash-style"; "gnu"; "a.o"] = Err (EUsage "--hash-style")) by (unfold main_linker; assert (P : parse_args cmd_fs id ["--hash-style"; "gnu"; "a.o"] = Err (EUsage "--hash-style")) by (vm_compute; reflexivity); rewrite P; reflexivity).
  rewrite E. reflexivity.
Qed.
Print Assumptions C100_documented_refuted.

(** * C101 *)
(** Without [_start] the file's entry is address 0, where nothing is mapped: the
    process ends at its first instruction. *)
Theorem C101_always_refuted : forall wd lo l fuel w secs data es evs, runnable wd lo l fuel w secs data -> loading wd lo l fuel es evs -> no_nul es -> (forall y, y ∈ all_syms es -> yi_name y <> "_start") ->
  starts_at data = Some 0 /\ exists p, map_file data = Some p /\ pr_mem p 0 = None /\ can_run (pr_phs p) 0 = false.
Proof.
  intros wd lo l fuel w secs data es evs R L Hnn Hno. pose proof (rn_good _ _ _ _ _ _ _ R) as G. destruct (run_reads R) as (R1 & _).
  split. { unfold starts_at. rewrite R1. cbn [fmap option_fmap option_map]. f_equal. exact (proj2 (C44_entry _ _ _ _ _ _ _ _ G L Hnn) Hno). }
  destruct (image R) as (p & Hp & Hphs & _). exists p. split; [exact Hp|].
  assert (E : filter (in_segment 0) (w_program_headers w) = []).
  { destruct (C33_partial _ _ _ _ _ _ (gl_oracle _ _ _ _ _ _ G) (gl_links _ _ _ _ _ _ G) (rn_write _ _ _ _ _ _ _ R)) as (_ & _ & _ & _ & _ & (ph & rest & Hl & _ & Hv & _) & _).
    - exact (proj1 (gl_names _ _ _ _ _ _ G)).
    - exact (proj1 (proj2 (proj2 (proj2 (rn_fit _ _ _ _ _ _ _ R))))).
    - pose proof (run_ordered R) as Ho. rewrite Hl in Ho. apply elem_of_nil_inv. intros x Hx. apply elem_of_list_filter in Hx as [[Ht Hx] Hin].
      assert (Hin' : x ∈ loads (w_program_headers w)) by (unfold loads; apply elem_of_list_filter; split; [exact Ht|exact Hin]). rewrite Hl in Hin'. apply elem_of_list_lookup in Hin' as [[|i] Hi]; [injection Hi as <-; lia|].
      pose proof (Ho 0%nat (S i) ph x ltac:(lia) eq_refl Hi) as K. cbv beta in K. lia. }
  unfold map_file in Hp. destruct (headers data) as [phs|]; [|discriminate Hp]. cbn [mbind option_bind] in Hp. injection Hp as <-. cbn [pr_phs pr_mem] in *. subst phs. unfold mapped, can_run. rewrite E. split; reflexivity.
Qed.
Print Assumptions C101_always_refuted.
Example C101_case : exists w secs evs data, runnable (demo_world lone_files []) demo_lib_oracle (demo_linker ["b.o"] []) 10 w secs data /\ loading (demo_world lone_files []) demo_lib_oracle (demo_linker ["b.o"] []) 10 lone_files evs /\
  no_nul lone_files /\ (forall y, y ∈ all_syms lone_files -> yi_name y <> "_start").
Proof.
  destruct (runnable_demo lone_files ["b.o"] [] (fun _ _ _ => true)) as (w & secs & evs & data & R & L & _); [vm_compute; reflexivity..|].
  change (cmd_objs (demo_world lone_files []) (demo_linker ["b.o"] [])) with lone_files in L. exists w, secs, evs, data. split; [exact R|]. split; [exact L|]. split; [apply no_nul_intro; vm_compute; reflexivity|].
  assert (K : forallb (fun y => negb (String.eqb (yi_name y) "_start")) (all_syms lone_files) = true) by (vm_compute; reflexivity).
  intros y Hy. rewrite forallb_forall in K. apply elem_of_list_In in Hy. specialize (K y Hy). cbv beta in K. apply negb_true_iff, String.eqb_neq in K. exact K.
Qed.
(** Even a command line without any input is linked, with status 0. *)
Definition started (effs : list effect) : option N := match effs with [ECreate _; EWrite _ data; EChmod _ _] => starts_at data | _ => None end.
Theorem C101_refuted : exists fs wd lo, valid_orders lo /\ jb_status (main_run fs id wd lo 10 10 10 []) = Some 0 /\ started (jb_effects (main_run fs id wd lo 10 10 10 [])) = Some 0.
Proof. exists cmd_fs, (demo_world [] []), demo_lib_oracle. split; [exact demo_orders|]. split; vm_compute; reflexivity. Qed.
Print Assumptions C101_refuted.

(** * C102 *)
Lemma message_link wd lo l fuel msg : jb_message (run_linker wd lo fuel l) = Some msg -> exists ns, link_writer wd lo l fuel = Err (EUndefined ns) /\ (link wd lo l fuel).2 = Err (EUndefined ns) /\
  msg = String.append "`" (String.append (opt_output (lk_options l)) (String.append "`: " (format_list ns))).
Proof.
  unfold run_linker, link. destruct (wd_can_create wd); [|discriminate]. unfold link_bytes. destruct (link_writer wd lo l fuel) as [w|e|p]; cbn [mbind res_bind].
  - destruct (write_to_disk (lo_writer lo) w) as [d|e|p] eqn:E; cbn [jb_message]; [discriminate| |discriminate]. exfalso. exact (why_disk none (lo_writer lo) w _ E).
  - cbn [jb_message snd]. destruct e as [n p|t|ns| | |u]; cbn [message_of]; try discriminate. intros [= <-]. exists ns. done.
  - discriminate.
Qed.
(** The message of a failed link lists names, separated by ", ", and every one
    of them is missing from the inputs. Missing: the converse, and names with
    commas, see [C102_refuted]. *)
Theorem C102_partial : forall wd lo l fuel es evs msg, valid_orders lo -> few_outputs wd lo l fuel -> loading wd lo l fuel es evs -> (forall y, y ∈ all_syms es -> comma_free (yi_name y)) ->
  jb_message (run_linker wd lo fuel l) = Some msg ->
  jb_status (run_linker wd lo fuel l) = Some 1 /\ exists ns, lists msg (opt_output (lk_options l)) ns /\ ns <> [] /\ forall n, n ∈ ns -> n <> "" -> unprovided wd l es n.
Proof.
  intros wd lo l fuel es evs msg V F L Hc H. destruct (message_link _ _ _ _ _ H) as (ns & E & E2 & ->).
  split. { unfold run_linker. destruct (link wd lo l fuel) as [effs r]. cbn [snd] in E2. subst r. reflexivity. }
  assert (Hne : ns <> []). { destruct (link wd lo l fuel) as [effs r] eqn:Hl. cbn [snd] in E2. subst r. destruct (C90 wd lo l fuel effs _ V Hl) as [[K _]|K]; [discriminate K|exact K]. }
  assert (U : forall n, n ∈ ns -> n <> "" -> unprovided wd l es n) by (intros n Hn Hn'; exact (C78_partial _ _ _ _ _ _ _ _ V F L E Hn Hn')).
  exists ns. split; [|split; [exact Hne|exact U]]. exists (join_with ", " ns). split; [reflexivity|]. apply items_join; [exact Hne|]. apply Forall_forall. intros n Hn.
  destruct (decide (n = "")) as [->|Hn']; [intros [|i]; discriminate|]. destruct (up_mentioned _ _ _ _ (U n Hn Hn')) as (y & Hy & <-). by apply Hc.
Qed.
Print Assumptions C102_partial.
Fixpoint comma_free_b (s : string) : bool := match s with EmptyString => true | String c s' => if Ascii.eqb c "," then false else comma_free_b s' end.
Lemma comma_intro s : comma_free_b s = true -> comma_free s.
Proof. induction s as [|c s IH]; [intros _ [|i]; discriminate|]. cbn [comma_free_b]. destruct (Ascii.eqb_spec c ","); [discriminate|]. intros H. apply comma_cons. split; [done|by apply IH]. Qed.
Lemma cmd_only wd lo l fuel es evs : loading wd lo l fuel es evs -> lk_archives l = [] -> es = cmd_objs wd l.
Proof.
  intros (wr & _ & R) Ha. destruct (ld_cmd _ _ _ _ _ R) as (ms & -> & HF). destruct ms as [|m ms]; [by rewrite app_nil_r|]. apply Forall_cons in HF as [(ar & m' & H & _) _]. exfalso. rewrite Ha in H. by apply elem_of_nil in H.
Qed.
Definition gap_wd (names : list string) : world := demo_world [("a.o", demo_obj [progbits ".text" 6 16 [0xc3; 0xc3]] ((fun n => (n, dsym 0x10 0 0 0)) <$> names) [])] [].
Definition gap_l : linker := demo_linker ["a.o"] [].
Example C102_case : exists es evs, loading (gap_wd ["g"; "h"]) demo_lib_oracle gap_l 10 es evs /\ valid_orders demo_lib_oracle /\ few_outputs (gap_wd ["g"; "h"]) demo_lib_oracle gap_l 10 /\
  (forall y, y ∈ all_syms es -> comma_free (yi_name y)) /\ jb_message (run_linker (gap_wd ["g"; "h"]) demo_lib_oracle 10 gap_l) = Some "`./out`: [g, h]".
Proof.
  destruct (resolved_loading (gap_wd ["g"; "h"]) demo_lib_oracle gap_l 10) as (es & evs & L); [vm_compute; reflexivity|]. exists es, evs. split; [exact L|]. split; [exact demo_orders|]. split; [apply small_intro; vm_compute; reflexivity|].
  split; [|vm_compute; reflexivity]. rewrite (cmd_only _ _ _ _ _ _ L eq_refl). assert (K : forallb (fun y => comma_free_b (yi_name y)) (all_syms (cmd_objs (gap_wd ["g"; "h"]) gap_l)) = true) by (vm_compute; reflexivity).
  intros y Hy. rewrite forallb_forall in K. apply elem_of_list_In in Hy. apply comma_intro. exact (K y Hy).
Qed.
(** One name with a comma reads like two. *)
Theorem C102_refuted : exists wd wd' lo l fuel ns ns' msg, valid_orders lo /\ link_writer wd lo l fuel = Err (EUndefined ns) /\ link_writer wd' lo l fuel = Err (EUndefined ns') /\ ns <> ns' /\
  jb_message (run_linker wd lo fuel l) = Some msg /\ jb_message (run_linker wd' lo fuel l) = Some msg.
Proof.
  exists (gap_wd ["g"; "h"]), (gap_wd ["g, h"]), demo_lib_oracle, gap_l, 10%nat, ["g"; "h"], ["g, h"], "`./out`: [g, h]". split; [exact demo_orders|].
  split; [apply message_intro; vm_compute; reflexivity|]. split; [apply message_intro; vm_compute; reflexivity|]. split; [discriminate|]. split; vm_compute; reflexivity.
Qed.
Print Assumptions C102_refuted.
