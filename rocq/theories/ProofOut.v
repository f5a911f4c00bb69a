(** The sections and program headers of a finished link. *)
From Verif Require Export ProofLink.

(** What a section keeps from being added to being written. *)
Definition decl (s : section) := (sc_id s, sc_link s, sc_synth s, sh_name (sc_sh s), sh_type (sc_sh s), flags s, align s).
Definition same_decl (a b : section) : Prop := decl b = decl a.
Lemma kept_decl a b : kept a b -> same_decl a b.
Proof. intros ->. done. Qed.
Lemma sized_decl a b : sized a b -> same_decl a b.
Proof. intros ->. done. Qed.
Lemma placed_decl a b : only_placed a b -> same_decl a b.
Proof. intros [-> _]. done. Qed.
Lemma finalize_decl o w a b : sec_finalize o w a = Ok b -> same_decl a b.
Proof. intros H. destruct (finalize_spec _ _ _ _ H) as (-> & _). done. Qed.
Lemma F2_same_decl l l' : Forall2 same_decl l l' <-> decl <$> l' = decl <$> l.
Proof.
  split.
  - induction 1 as [|a b l l' H HF IH]; [done|]. rewrite !fmap_cons. by rewrite H, IH.
  - revert l'. induction l as [|a l IH]; intros [|b l1] H; try done; try (by constructor). rewrite !fmap_cons in H. apply (inj2 cons) in H as [H1 H2].
    constructor; [|by apply IH]. exact H1.
Qed.

(** The output header of a section, given the one laid out. *)
Definition written (w : writer) (a b : section) : Prop :=
  same_decl a b /\ sc_index b = sc_index a /\ addr b = addr a /\ offset b = offset a /\
  memsz b = (if decide (sc_synth a = Some KCopyRel) then cr_size (w_copyrel w) else memsz a).
Lemma finalize_written o w a b c : kept a b -> sec_finalize o w b = Ok c -> written w a c.
Proof.
  intros Hk H. destruct (finalize_spec _ _ _ _ H) as (E1 & E2 & _). split; [|split; [|split; [|split]]].
  - unfold same_decl. rewrite <- (kept_decl _ _ Hk). by apply (finalize_decl o w).
  - rewrite E1, Hk. done.
  - rewrite E1, Hk. done.
  - rewrite E1, Hk. done.
  - rewrite E2, Hk. done.
Qed.
Lemma written_nobits w a b : written w a b -> is_nobits b = is_nobits a.
Proof. intros [H _]. unfold same_decl, decl in H. injection H as _ _ _ _ H _ _. unfold is_nobits. congruence. Qed.
Lemma written_flags w a b : written w a b -> flags b = flags a.
Proof. intros [H _]. unfold same_decl, decl in H. congruence. Qed.
Lemma written_synth w a b : written w a b -> sc_synth b = sc_synth a.
Proof. intros [H _]. unfold same_decl, decl in H. congruence. Qed.
Lemma written_memsz w a b : written w a b -> sc_synth b <> Some KCopyRel -> memsz b = memsz a.
Proof. intros Hw Hs. rewrite (written_synth _ _ _ Hw) in Hs. destruct Hw as (_ & _ & _ & _ & ->). by rewrite decide_False. Qed.

(** * The initial state of layout *)
Lemma ref_const st w0 : ref_writer st = Ok w0 -> w_eh w0 = initial_ehdr /\ w_program_headers w0 = [] /\
  w_p_vaddr w0 = 0x200000 /\ w_start_p_vaddr w0 = 0x200000 /\ w_file_offset w0 = 0 /\ w_got_len w0 = 1 /\ w_got_plt w0 = [] /\ w_plt w0 = [] /\
  w_copyrel w0 = mkCopyrel 0 [] /\ w_dyn_rels w0 = [] /\ w_plt_rels w0 = [].
Proof.
  intros H. destruct st; vm_compute in H; injection H as <-; vm_compute; split_and!; reflexivity.
Qed.
Lemma winv_const n0 w0 w opts : writer_new opts = Ok w0 -> winv n0 w0 w -> w_eh w = initial_ehdr /\ w_program_headers w = [] /\
  w_p_vaddr w = 0x200000 /\ w_start_p_vaddr w = 0x200000 /\ w_file_offset w = 0 /\ w_got_len w = 1 /\ w_got_plt w = [] /\ w_plt w = [] /\
  w_copyrel w = mkCopyrel 0 [] /\ w_dyn_rels w = [] /\ w_plt_rels w = [].
Proof.
  intros H0 HI. destruct (writer_new_ref _ _ H0) as (_ & _ & _ & (wx & Hx & Hc) & _). apply ref_const in Hx.
  pose proof (wi_const _ _ _ HI) as Hk. rewrite Hc in Hk. clear Hc. unfold wconst in Hk. injection Hk as E1 E2 E3 E4 E5 E6 E7 E8 E9 E10 E11 _.
  rewrite E1, E2, E3, E4, E5, E6, E7, E8, E9, E10, E11. exact Hx.
Qed.

(** The initial sections, as far as layout is concerned. *)
Definition ref_decls (st : hash_style) := decl <$> ref_sections st.
Lemma decl_of_sig a b : sec_sig a = sec_sig b -> align a = align b -> decl a = decl b.
Proof. unfold sec_sig, decl. intros [= H1 H2 H3 H4 H5 H6 H7 H8] ->. congruence. Qed.

(** * The whole picture *)
Record outcome (wd : world) (lo : lib_oracle) (l : linker) (fuel : nat) (w : writer) (secs : list section)
    (w0 wr ws w1 : writer) (extra : N) (null : section) (rest rest' : list section) (st : layout) (w3 w4 w5 w6 w7 : writer) (null' : section) (out : list section) : Prop := {
  oc_new : writer_new (lk_options l) = Ok w0;
  oc_winv : winv (length (w_sections w0)) w0 wr;
  oc_resolve : resolve wd lo l fuel = Ok wr;
  oc_run : run (lo_writer lo) wr ws w1 extra null rest rest' st w3 w4 w5 w6 w7 w;
  oc_secs : secs = null' :: out;
  oc_null : written w (null <| sc_index := 0 |>) null';
  oc_out : Forall2 (written w) rest' out;
  oc_layout : mapM_st (layout_step (w_shstrtab wr)) (indexed (o_sort (lo_writer lo) rest))
     (mkLayout 0 0x200000 (Some (x0_of (indexed (o_sort (lo_writer lo) rest)))) 0 None []) = Ok (st, rest');
  oc_decls : Forall2 same_decl (w_sections wr) (null :: rest) }.
Global Arguments oc_new {_ _ _ _ _ _ _ _ _ _ _ _ _ _ _ _ _ _ _ _ _ _} _.
Global Arguments oc_winv {_ _ _ _ _ _ _ _ _ _ _ _ _ _ _ _ _ _ _ _ _ _} _.
Global Arguments oc_resolve {_ _ _ _ _ _ _ _ _ _ _ _ _ _ _ _ _ _ _ _ _ _} _.
Global Arguments oc_run {_ _ _ _ _ _ _ _ _ _ _ _ _ _ _ _ _ _ _ _ _ _} _.
Global Arguments oc_secs {_ _ _ _ _ _ _ _ _ _ _ _ _ _ _ _ _ _ _ _ _ _} _.
Global Arguments oc_null {_ _ _ _ _ _ _ _ _ _ _ _ _ _ _ _ _ _ _ _ _ _} _.
Global Arguments oc_out {_ _ _ _ _ _ _ _ _ _ _ _ _ _ _ _ _ _ _ _ _ _} _.
Global Arguments oc_layout {_ _ _ _ _ _ _ _ _ _ _ _ _ _ _ _ _ _ _ _ _ _} _.
Global Arguments oc_decls {_ _ _ _ _ _ _ _ _ _ _ _ _ _ _ _ _ _ _ _ _ _} _.

(** From the computed writer on, whether or not names are left undefined. *)
Lemma made_outcome wd lo l fuel wr w secs : resolve wd lo l fuel = Ok wr -> compute_sections (lo_writer lo) wr = Ok w -> mapM_res (sec_finalize (lo_writer lo) w) (w_sections w) = Ok secs ->
  exists w0 ws w1 extra null rest rest' st w3 w4 w5 w6 w7 null' out,
  outcome wd lo l fuel w secs w0 wr ws w1 extra null rest rest' st w3 w4 w5 w6 w7 null' out.
Proof.
  intros Hr Hc Hf. destruct (compute_run _ _ _ Hc) as (ws & w1 & extra & null & rest & rest' & st & w3 & w4 & w5 & w6 & w7 & R).
  destruct (resolve_winv _ _ _ _ _ Hr) as (w0 & Hw0 & HI).
  destruct (run_kept R) as (n1 & fin & Es & Kn & Kf). rewrite Es in Hf. simpl in Hf.
  apply bind_Ok in Hf as (null' & Hn & Hf). apply bind_Ok in Hf as (out & Ho & [= <-]).
  exists w0, ws, w1, extra, null, rest, rest', st, w3, w4, w5, w6, w7, null', out. split.
  - done.
  - done.
  - done.
  - done.
  - done.
  - by eapply finalize_written.
  - clear -Kf Ho. revert out Ho. induction Kf as [|a b la lb Hab Kf IH]; intros out Ho; simpl in Ho; [injection Ho as <-; constructor|].
    apply bind_Ok in Ho as (c & Hc & Ho). apply bind_Ok in Ho as (cs & Hcs & [= <-]). constructor; [by eapply finalize_written|by apply IH].
  - pose proof (rn_layout R) as HL. destruct (winv_const _ _ _ _ Hw0 HI) as (C1 & C2 & C3 & C4 & C5 & _).
    pose proof (sz_frame _ _ _ _ _ (rn_sizing R)) as Hf'. unfold frame in Hf'. injection Hf' as F1 F2 F3 F4 F5 F6 F7 F8 F9.
    rewrite F6, F5, F3, F2, F1, C1, C2, C3, C5 in HL. exact HL.
  - rewrite <- (rn_secs1 R). rewrite (sz_secs _ _ _ _ _ (rn_sizing R)).
    pose proof (scan_secs _ _ (sz_scan _ _ _ _ _ (rn_sizing R))) as HF.
    generalize dependent (w_sections ws). clear. induction (w_sections wr) as [|a la IH]; intros lb HF; inversion HF as [|? b ? lb' [Hk _] HF']; subst; [constructor|].
    rewrite fmap_cons. constructor; [|by apply IH]. unfold same_decl. rewrite (sized_decl _ _ (sized_fn _ _ _ _ _ _ _ b)). by apply kept_decl.
Qed.
Lemma links_outcome wd lo l fuel w secs : links wd lo l fuel w secs -> exists w0 wr ws w1 extra null rest rest' st w3 w4 w5 w6 w7 null' out,
  outcome wd lo l fuel w secs w0 wr ws w1 extra null rest rest' st w3 w4 w5 w6 w7 null' out.
Proof.
  intros [Hl Hf]. destruct (link_steps _ _ _ _ _ Hl) as (wr & Hr & Hc & _). destruct (made_outcome _ _ _ _ _ _ _ Hr Hc Hf) as (w0 & H). exists w0, wr. exact H.
Qed.
