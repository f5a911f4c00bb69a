(** Running the small inputs of Demo.v: how examples and witnesses about whole
    links are checked by computation. *)
From Verif Require Export Demo ProofPlace.

Lemma sec_before_total a b : sec_before a b \/ sec_before b a.
Proof. unfold sec_before. lia. Qed.
Lemma sec_before_trans a b c : sec_before a b -> sec_before b c -> sec_before a c.
Proof. unfold sec_before. lia. Qed.
Lemma demo_le_spec a b : demo_le a b = true <-> sec_before a b.
Proof.
  rewrite <- section_cmp_spec. unfold demo_le. destruct (section_cmp a b); split; try done; intros H; by destruct H.
Qed.
Lemma demo_valid : valid_oracle demo_oracle.
Proof.
  split; [done|done|]. intros l. split; [apply sort_by_perm|]. intros i j a b Hij Ha Hb.
  apply section_cmp_spec. apply demo_le_spec.
  assert (HS : StronglySorted (le_rel demo_le) (sort_by demo_le l)).
  { apply sort_by_sorted.
    - intros x y. rewrite !demo_le_spec. apply sec_before_total.
    - intros x y z. rewrite !demo_le_spec. apply sec_before_trans. }
  change (sort_by demo_le l !! i = Some a) in Ha. change (sort_by demo_le l !! j = Some b) in Hb.
  revert i j Hij Ha Hb. induction HS as [|x k HS IH HF]; intros i j Hij Ha Hb; [done|].
  destruct j as [|j]; [lia|]. destruct i as [|i].
  - simpl in Ha, Hb. injection Ha as ->. rewrite List.Forall_forall in HF. apply HF. apply elem_of_list_In. by eapply elem_of_list_lookup_2.
  - simpl in Ha, Hb. apply (IH i j); [lia|done|done].
Qed.

(** [f] holds of the result of linking these files. *)
Definition demo_check (files : list (string * elf_obj)) (objs libs : list string) (f : writer -> list section -> bool) : bool :=
  match demo_run files objs libs with
  | Ok w => match mapM_res (sec_finalize demo_oracle w) (w_sections w) with Ok secs => f w secs | _ => false end
  | _ => false
  end.
Lemma demo_links files objs libs f : demo_check files objs libs f = true -> exists w secs,
  links (demo_world files []) demo_lib_oracle (demo_linker objs libs) 10 w secs /\ f w secs = true.
Proof.
  unfold demo_check, links, demo_run. destruct (link_writer _ _ _ _) as [w| |]; try discriminate.
  intros H. change (lo_writer demo_lib_oracle) with demo_oracle.
  destruct (mapM_res (sec_finalize demo_oracle w) (w_sections w)) as [secs| |] eqn:E; try discriminate. exists w, secs. eauto.
Qed.

(** Properties of sections that can be checked. *)
Definition any {A} (l : list A) (f : A -> bool) : bool := existsb f l.
Lemma any_spec {A} (l : list A) f : any l f = true <-> exists x, x ∈ l /\ f x = true.
Proof. unfold any. rewrite existsb_exists. split; intros (x & H & E); exists x; by rewrite ?elem_of_list_In in *. Qed.
Lemma any_pos {A} (l : list A) f : any (imap pair l) f = true <-> exists i x, l !! i = Some x /\ f (i, x) = true.
Proof.
  rewrite any_spec. split.
  - intros ([i x] & H & E). apply elem_of_lookup_imap in H as (j & y & [= -> ->] & H). eauto.
  - intros (i & x & H & E). exists (i, x). split; [|done]. apply elem_of_lookup_imap. eauto.
Qed.
Example demo_main_check : demo_check demo_files ["a.o"] ["/l/libfoo.so"] (fun w secs => any secs (fun s => 0 <? addr s)) = true.
Proof. vm_compute. reflexivity. Qed.

(** Ordinary inputs can be checked too. *)
Definition demo_sections (files : list (string * elf_obj)) (objs : list string) : list (string * Shdr) :=
  objs ≫= fun p => match ModelTables.assoc p files with
  | Some e => eo_shdrs e ≫= fun sh => match eo_shstr e (sh_name sh) with
      | Some name => if bool_decide (sh_type sh ∈ [2; 11; 3; 4; 6; 9; 10]) then [] else [(name, sh)]
      | None => [] end
  | None => []
  end.
Definition demo_plain_b (files : list (string * elf_obj)) (objs : list string) : bool :=
  let l := demo_sections files objs in
  forallb (fun x => bool_decide (x.1 ∉ reserved) && (negb (x.1 =? "")%string || (sh_size x.2 =? 0))) l &&
  forallb (fun x => forallb (fun y => negb (x.1 =? y.1)%string || Bool.eqb (sh_type x.2 =? 8) (sh_type y.2 =? 8)) l) l.
Lemma demo_sections_spec files objs libs e name sh :
  input_section (demo_world files []) (demo_linker objs libs) e name sh -> (name, sh) ∈ demo_sections files objs.
Proof.
  intros ([(p & Hp & He)|(p & ar & m & Hp & _)] & Hsh & Hty & Hn); [|by apply elem_of_nil in Hp].
  unfold demo_sections. apply elem_of_list_bind. exists p. split; [|done]. simpl in He. destruct (ModelTables.assoc p files) as [e'|]; [|done].
  injection He as ->. apply elem_of_list_bind. exists sh. split; [|done]. rewrite Hn, bool_decide_eq_false_2 by done. by left.
Qed.
Lemma demo_plain files objs libs : demo_plain_b files objs = true -> plain_inputs (demo_world files []) (demo_linker objs libs).
Proof.
  unfold demo_plain_b. rewrite andb_true_iff, !forallb_forall. intros [H1 H2].
  assert (HI : forall e name sh, input_section (demo_world files []) (demo_linker objs libs) e name sh -> List.In (name, sh) (demo_sections files objs)).
  { intros e name sh H. apply elem_of_list_In. by eapply demo_sections_spec. }
  split.
  - intros e name sh H. specialize (H1 _ (HI _ _ _ H)). apply andb_true_iff in H1 as [H1 _]. by apply bool_decide_eq_true_1 in H1.
  - intros e sh H. specialize (H1 _ (HI _ _ _ H)). apply andb_true_iff in H1 as [_ H1]. simpl in H1. by apply N.eqb_eq.
  - intros e sh e' sh' name H H'. specialize (H2 _ (HI _ _ _ H)). rewrite forallb_forall in H2. specialize (H2 _ (HI _ _ _ H')). simpl in H2.
    rewrite String.eqb_refl in H2. simpl in H2. apply Bool.eqb_prop in H2. rewrite <- !N.eqb_eq. by rewrite H2.
Qed.
Example demo_main_plain : plain_inputs (demo_world demo_files []) (demo_linker ["a.o"] ["/l/libfoo.so"]).
Proof. apply demo_plain. vm_compute. reflexivity. Qed.
