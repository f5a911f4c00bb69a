(** C103, C104, C105: a computed output is written, and sound inputs are read
    without a crash. *)
From Verif Require Import ProofTotal PropResolve PropScan DemoLink.

(** Soundness of concrete inputs can be checked. *)
Definition sound_b (e : elf_obj) : bool :=
  forallb (fun sh => if bool_decide (sh_type sh ∈ [2; 11; 3; 4; 6; 9; 10]) then true
    else if sh_type sh =? 8 then match eo_shstr e (sh_name sh) with Some n => bool_decide (n <> "" /\ n ∉ reserved) | None => true end
    else sh_offset sh + sh_size sh <=? N.of_nat (length (eo_data e))) (eo_shdrs e) &&
  forallb (fun x => forallb (fun rel => if gr_sym rel =? 0 then true else if 0 <? x.1 then gr_sym rel <? N.of_nat (length (eo_syms e)) else false) x.2) (eo_relocs e).
Lemma sound_intro e : sound_b e = true -> sound_object e.
Proof.
  unfold sound_b. rewrite andb_true_iff, !forallb_forall. intros [H1 H2]. split.
  - intros sh Hs Ht. specialize (H1 sh (proj1 (elem_of_list_In _ _) Hs)). rewrite bool_decide_eq_false_2 in H1 by (intros Q; apply Ht; set_solver).
    destruct (N.eqb_spec (sh_type sh) 8) as [E|_]; [exfalso; apply Ht; rewrite E; set_solver|]. by apply N.leb_le.
  - intros sh name Hs Ht Hn. specialize (H1 sh (proj1 (elem_of_list_In _ _) Hs)). rewrite Ht, Hn in H1. rewrite bool_decide_eq_false_2 in H1 by (rewrite !elem_of_cons, elem_of_nil; lia).
    by apply bool_decide_eq_true_1 in H1.
  - intros idx rels rel Hi Hr Hs. specialize (H2 _ (proj1 (elem_of_list_In _ _) Hi)). cbn [fst snd] in H2. rewrite forallb_forall in H2. specialize (H2 _ (proj1 (elem_of_list_In _ _) Hr)).
    destruct (N.eqb_spec (gr_sym rel) 0); [contradiction|]. destruct (N.ltb_spec 0 idx); [|discriminate H2]. split; [done|]. by apply N.ltb_lt.
Qed.
Definition demo_sound_b (files : list (string * elf_obj)) (objs libs : list string) : bool :=
  forallb (fun p => match ModelTables.assoc p files with Some e => sound_b e | None => true end) objs &&
  forallb (fun p => bool_decide (file_name p <> None)) libs.
Lemma demo_sound files objs libs : demo_sound_b files objs libs = true -> sound_inputs (demo_world files []) (demo_linker objs libs).
Proof.
  unfold demo_sound_b. rewrite andb_true_iff, !forallb_forall. intros [H1 H2]. split.
  - intros e [(p & Hp & He)|(p & ar & m & Hp & _)]; [|by apply elem_of_nil in Hp]. specialize (H1 p (proj1 (elem_of_list_In _ _) Hp)). cbn in He.
    destruct (ModelTables.assoc p files) as [e'|]; [|discriminate He]. injection He as ->. by apply sound_intro.
  - intros p ar name m Hp. by apply elem_of_nil in Hp.
  - intros p Hp. cbn [opt_shared_libs lk_options demo_linker set] in Hp. split.
    + cbn [wd_elf demo_world]. destruct (ModelTables.assoc p files); discriminate.
    + assert (Hp' : p ∈ libs) by (apply elem_of_list_fmap in Hp as ([q b] & -> & Hq); apply elem_of_list_fmap in Hq as (q' & [= -> ->] & Hq'); exact Hq').
      specialize (H2 p (proj1 (elem_of_list_In _ _) Hp')). by apply bool_decide_eq_true_1 in H2.
  - vm_compute. discriminate.
Qed.
Definition demo_names (files : list (string * elf_obj)) (objs : list string) : list string :=
  objs ≫= fun p => match ModelTables.assoc p files with
  | Some e => eo_syms e ≫= fun y => match eo_strtab e (st_name y) with Some n => [n] | None => [] end | None => [] end.
Lemma demo_within files objs libs : names_within (demo_world files []) (demo_linker objs libs) (demo_names files objs).
Proof.
  intros e sym name [(p & Hp & He)|(p & ar & m & Hp & _)] Hs Hn; [|by apply elem_of_nil in Hp].
  apply elem_of_list_bind. exists p. split; [|exact Hp]. cbn in He. destruct (ModelTables.assoc p files) as [e'|]; [|discriminate He]. injection He as ->.
  apply elem_of_list_bind. exists sym. split; [|exact Hs]. rewrite Hn. left.
Qed.

(** * C103 *)

(** Once all is computed and no name is undefined, the file is written, and the
    command ends with status 0. *)
Theorem C103_written : forall wd lo l fuel w, valid_oracle (lo_writer lo) -> wd_can_create wd = true -> link_writer wd lo l fuel = Ok w ->
  exists data, link wd lo l fuel = ([ECreate (opt_output (lk_options l)); EWrite (opt_output (lk_options l)) data; EChmod (opt_output (lk_options l)) 493], Ok tt).
Proof.
  intros wd lo l fuel w V HC H. pose proof H as H0. unfold link_writer in H0. apply bind_Ok in H0 as (wr & Er & H0). apply bind_Ok in H0 as (w' & Ec & H0). apply bind_Ok in H0 as (u & _ & [= ->]).
  destruct (computed_written _ _ _ _ _ _ V Er Ec) as (secs & d & _ & Hd). exists d. unfold link. rewrite HC. unfold link_bytes. rewrite H. cbn [mbind res_bind]. rewrite Hd. reflexivity.
Qed.
Print Assumptions C103_written.
(** So what keeps a link from succeeding shows before anything is written. *)
Theorem C103_failed : forall wd lo l fuel, valid_oracle (lo_writer lo) -> wd_can_create wd = true -> (link wd lo l fuel).2 <> Ok tt ->
  (forall w, link_writer wd lo l fuel <> Ok w) /\ (link wd lo l fuel).1 = [ECreate (opt_output (lk_options l))].
Proof.
  intros wd lo l fuel V HC H. assert (K : forall w, link_writer wd lo l fuel <> Ok w).
  { intros w Hw. destruct (C103_written _ _ _ _ _ V HC Hw) as [d Hd]. rewrite Hd in H. by apply H. }
  split; [exact K|]. unfold link in *. rewrite HC in *. destruct (link_bytes wd lo l fuel); [|reflexivity..]. by contradict H.
Qed.
Print Assumptions C103_failed.
Example C103_case : exists w, wd_can_create (demo_world demo_files []) = true /\ link_writer (demo_world demo_files []) demo_lib_oracle (demo_linker ["a.o"] ["/l/libfoo.so"]) 10 = Ok w.
Proof. eexists. split; [reflexivity|]. vm_compute. reflexivity. Qed.

(** * C104 *)

(** Reading sound inputs ends in a crash only by never ending. *)
Theorem C104_reading : forall wd lo l U fuel p, valid_orders lo -> sound_inputs wd l -> names_within wd l U -> room U <= 2 ^ 32 ->
  resolve wd lo l fuel = Panic p -> p = PFuel.
Proof. exact resolve_total. Qed.
Print Assumptions C104_reading.
(** With archives that tell the truth about their members it does end, with all
    inputs read or with an error. *)
Theorem C104_ends : forall wd lo l U fuel, valid_orders lo -> sound_inputs wd l -> names_within wd l U -> room U <= 2 ^ 32 -> truthful wd l ->
  (11 * (1 + length U) < fuel)%nat -> (exists w, resolve wd lo l fuel = Ok w) \/ exists e, resolve wd lo l fuel = Err e.
Proof.
  intros wd lo l U fuel HO HS HU HR HT HF. destruct (resolve wd lo l fuel) as [w|e|p] eqn:E; [eauto..|]. exfalso.
  rewrite (C104_reading _ _ _ _ _ _ HO HS HU HR E) in E. by apply (C47_partial _ _ _ _ _ HO HU HT HF).
Qed.
Print Assumptions C104_ends.
(** Two members, one needing the other, and an object that needs the first. *)
Lemma honest_sound : sound_inputs honest_world stale_linker.
Proof.
  split.
  - intros e [(p & Hp & He)|(p & ar & m & Hp & Ha & Hm)]; apply elem_of_list_singleton in Hp as ->; apply sound_intro.
    + change (wd_elf honest_world "a.o") with (Some (Some user_x)) in He. injection He as <-. vm_compute. reflexivity.
    + change (wd_archive honest_world "l.a") with (Some (Some honest)) in Ha. injection Ha as <-. cbn [honest ar_get] in Hm.
      destruct (m =? "x.o")%string; [|destruct (m =? "y.o")%string; [|discriminate Hm]]; injection Hm as <-; vm_compute; reflexivity.
  - intros p ar name m Hp Ha Hi. apply elem_of_list_singleton in Hp as ->. change (wd_archive honest_world "l.a") with (Some (Some honest)) in Ha. injection Ha as <-. cbn [honest ar_get ar_member_of_symbol] in *.
    destruct (name =? "x")%string; [|destruct (name =? "y")%string; [|discriminate Hi]]; injection Hi as <-; eexists; (split; [reflexivity|]); intros e [= <-]; reflexivity.
  - intros p Hp. vm_compute in Hp. by apply elem_of_nil in Hp.
  - vm_compute. discriminate.
Qed.
Example C104_case : sound_inputs honest_world stale_linker /\ names_within honest_world stale_linker [""; "x"; "y"] /\ truthful honest_world stale_linker /\ room [""; "x"; "y"] = 6 /\
  exists w, resolve honest_world demo_lib_oracle stale_linker 45 = Ok w.
Proof. destruct C47_case as (H1 & H2 & H3). split; [exact honest_sound|]. split; [exact H1|]. split; [exact H2|]. split; [reflexivity|exact H3]. Qed.
(** Not so for other inputs: a section that reaches past the end of the file. *)
Definition short_obj : elf_obj := mkElfObj true [1; 2] [shdr0; mkShdr 1 1 2 0 0 4 0 0 1 0] (fun n => if n =? 1 then Some ".rodata" else Some "") [] (fun _ => None) [] (fun _ => None) [].
Theorem C104_refuted : exists wd lo l fuel, valid_orders lo /\ resolve wd lo l fuel = Panic PIndex.
Proof. exists (demo_world [("a.o", short_obj)] []), demo_lib_oracle, (demo_linker ["a.o"] []), 10%nat. split; [exact demo_orders|]. vm_compute. reflexivity. Qed.
Print Assumptions C104_refuted.

(** * C105 *)

(** Sound inputs can still make the link crash: a relocation of a section that
    is not loaded, as in debugging information. *)
Theorem C105_refuted : exists wd lo l U fuel, valid_orders lo /\ sound_inputs wd l /\ names_within wd l U /\ room U <= 2 ^ 32 /\ truthful wd l /\ (11 * (1 + length U) < fuel)%nat /\
  (link wd lo l fuel).2 = Panic PUnwrap.
Proof.
  exists (demo_world [("a.o", C64_obj)] []), demo_lib_oracle, (demo_linker ["a.o"] []), (demo_names [("a.o", C64_obj)] ["a.o"]), 45%nat.
  split; [exact demo_orders|]. split; [apply demo_sound; vm_compute; reflexivity|]. split; [apply demo_within|]. split; [vm_compute; discriminate|].
  split; [intros p ar name m e Hp; by apply elem_of_nil in Hp|]. split; [vm_compute; lia|]. vm_compute. reflexivity.
Qed.
Print Assumptions C105_refuted.
(** Such a crash is in computing the output: reading, reporting undefined names
    and writing the file never crash. Missing: when computing the output does
    not crash. *)
Theorem C105_partial : forall wd lo l U fuel p, valid_orders lo -> sound_inputs wd l -> names_within wd l U -> room U <= 2 ^ 32 -> truthful wd l ->
  (11 * (1 + length U) < fuel)%nat -> (link wd lo l fuel).2 = Panic p ->
  exists w, resolve wd lo l fuel = Ok w /\ compute_sections (lo_writer lo) w = Panic p.
Proof.
  intros wd lo l U fuel p HO HS HU HR HT HF H. destruct (crash_place _ _ _ _ _ _ HO HS HU HR H) as [E|K]; [|exact K].
  by apply (C47_partial _ _ _ _ _ HO HU HT HF) in E.
Qed.
Print Assumptions C105_partial.
