(** C28-C35: the order of sections, their addresses and file offsets, and the
    program headers of a finished link. *)
From Verif Require Import ProofLoad DemoLink.

(** * C28 *)
Theorem C28_comparison : forall a b c,
  (section_cmp a b <> Gt <-> sec_before a b) /\ section_cmp b a = CompOpp (section_cmp a b) /\
  (sec_before a b \/ sec_before b a) /\ (sec_before a b -> sec_before b c -> sec_before a c).
Proof.
  intros a b c. split; [apply section_cmp_spec|]. split; [apply section_cmp_anti|]. split; [apply sec_before_total|apply sec_before_trans].
Qed.
Print Assumptions C28_comparison.

Theorem C28_order : forall wd lo l fuel w secs, valid_oracle (lo_writer lo) -> links wd lo l fuel w secs ->
  (forall wr, resolve wd lo l fuel = Ok wr -> ident <$> secs ≡ₚ ident <$> w_sections wr) /\
  (exists null, secs !! 0%nat = Some null /\ sc_id null = 0%nat) /\
  (forall i s, secs !! i = Some s -> sc_index s = N.of_nat i) /\
  (forall i j a b, (0 < i < j)%nat -> secs !! i = Some a -> secs !! j = Some b ->
     (flags a = 0 -> flags b = 0) /\ (flags a = flags b -> align b <= align a) /\
     (forall k c, (i < k < j)%nat -> secs !! k = Some c -> flags a = flags b -> flags c = flags a)).
Proof.
  intros wd lo l fuel w secs V H. destruct (links_outcome _ _ _ _ _ _ H) as (w0&wr&ws&w1&extra&null&rest&rest'&st&w3&w4&w5&w6&w7&null'&out&O).
  split; [|split; [|split]].
  - intros wr' Hr. assert (wr' = wr) as -> by (pose proof (oc_resolve O); congruence).
    assert (Hf : forall k : list section, ident <$> k = (fun d : nat * option sid * option synth * N * N * N * N =>
       match d with (i, _, _, n, t, f, a) => (i, n, t, f, a) end) <$> (decl <$> k)) by (intros k; by rewrite <- list_fmap_compose).
    rewrite !Hf. apply fmap_Permutation. rewrite (oc_secs O), fmap_cons, <- (rest_decls O).
    destruct (oc_null O) as [Hn _]. unfold same_decl in Hn. rewrite Hn, (out_perm O V). done.
  - exists null'. split; [by rewrite (oc_secs O)|]. apply (null_facts O).
  - intros [|i] s Hi.
    + rewrite (oc_secs O) in Hi. injection Hi as <-. apply (null_facts O).
    + apply (secs_out O) in Hi. by apply (out_index O).
  - intros [|i] [|j] a b Hij Ha Hb; try lia. apply (secs_out O) in Ha. apply (secs_out O) in Hb.
    destruct (out_sorted O V i j a b) as (S1 & S2 & _); [lia|done|done|]. split; [done|]. split; [done|].
    intros [|k] c Hk Hc E; [lia|]. apply (secs_out O) in Hc. eapply (out_group O V i j k); try done; lia.
Qed.
Print Assumptions C28_order.

Definition main_links (w : writer) (secs : list section) : Prop :=
  links (demo_world demo_files []) demo_lib_oracle (demo_linker ["a.o"] ["/l/libfoo.so"]) 10 w secs.
Lemma main_check f : demo_check demo_files ["a.o"] ["/l/libfoo.so"] f = true -> exists w secs, main_links w secs /\ f w secs = true.
Proof. apply demo_links. Qed.
Definition main_rows : list (N * N) :=
  [(2, 8); (2, 8); (2, 8); (2, 4); (2, 4); (2, 1); (2, 1); (3, 64); (3, 8); (3, 8); (3, 8); (3, 8); (3, 8); (6, 16); (6, 8); (0, 8); (0, 1); (0, 1)].
Example C28_case : exists w secs, main_links w secs /\ valid_oracle demo_oracle /\
  bool_decide ((fun s => (flags s, align s)) <$> drop 1 secs = main_rows) = true.
Proof.
  destruct (main_check (fun w secs => bool_decide ((fun s => (flags s, align s)) <$> drop 1 secs = main_rows))) as (w & secs & H & E); [vm_compute; reflexivity|].
  exists w, secs. split; [exact H|]. split; [exact demo_valid|exact E].
Qed.

(** * C29 *)

(** At layout, for every list of sections: only addresses and offsets are
    assigned, and allocated sections get increasing, disjoint address ranges. *)
Theorem C29_layout : forall w w' null rest, generate_program_headers w = Ok w' -> w_sections w = null :: rest ->
  w_program_headers w = [] -> exists rest', w_sections w' = null :: rest' /\ Forall2 only_placed rest rest' /\
  forall i j a b, (i < j)%nat -> rest' !! i = Some a -> rest' !! j = Some b -> alloc a = true -> alloc b = true ->
    addr a + memsz a <= addr b.
Proof.
  intros w w' null rest H Hs Hp. destruct (gph_spec _ _ _ _ Hs H) as (st & rest' & HL & ->). rewrite Hp in HL. exists rest'. split; [done|].
  split; [by eapply layout_only|]. intros i j a b. exact (ri_mem_ord _ _ _ _ (range_inv_all _ _ _ _ _ _ _ HL) i j a b).
Qed.
Print Assumptions C29_layout.

(** In the output file it fails: .copyrel is laid out with size 0 and gets its
    size afterwards, so it overlaps the section after it. *)
Definition overlap (a b : section) : bool :=
  alloc a && alloc b && (addr a <? addr b + memsz b) && (addr b <? addr a + memsz a).
Theorem C29_refuted : exists wd lo l fuel w secs i j a b, valid_oracle (lo_writer lo) /\ links wd lo l fuel w secs /\
  (i < j)%nat /\ secs !! i = Some a /\ secs !! j = Some b /\ alloc a = true /\ alloc b = true /\
  addr a < addr b + memsz b /\ addr b < addr a + memsz a.
Proof.
  destruct (main_check (fun w secs => match secs !! 8%nat, secs !! 9%nat with Some a, Some b => overlap a b | _, _ => false end))
    as (w & secs & H & E); [vm_compute; reflexivity|].
  destruct (secs !! 8%nat) as [a|] eqn:Ea; [|done]. destruct (secs !! 9%nat) as [b|] eqn:Eb; [|done].
  eexists _, demo_lib_oracle, _, _, w, secs, 8%nat, 9%nat, a, b. split; [exact demo_valid|]. split; [exact H|].
  unfold overlap in E. rewrite !andb_true_iff, !N.ltb_lt in E. split; [lia|]. tauto.
Qed.
Print Assumptions C29_refuted.

(** What holds in the output file: the memory of every other section is
    disjoint from the sections after it, and addresses increase. *)
Theorem C29_partial : forall wd lo l fuel w secs i j a b, valid_oracle (lo_writer lo) -> links wd lo l fuel w secs ->
  (i < j)%nat -> secs !! i = Some a -> secs !! j = Some b -> alloc a = true -> alloc b = true ->
  addr a <= addr b /\ (sc_synth a <> Some KCopyRel -> addr a + memsz a <= addr b).
Proof.
  intros wd lo l fuel w secs i j a b V H Hij Ha Hb La Lb. destruct (links_outcome _ _ _ _ _ _ H) as (w0&wr&ws&w1&extra&null&rest&rest'&st&w3&w4&w5&w6&w7&null'&out&O).
  destruct i as [|i].
  { exfalso. rewrite (oc_secs O) in Ha. injection Ha as <-. unfold alloc in La. by rewrite (proj2 (proj2 (null_facts O))) in La. }
  destruct j as [|j]; [lia|]. apply (secs_out O) in Ha. apply (secs_out O) in Hb. split.
  - eapply (out_addr_ordered O i j); try done; lia.
  - intros Hs. eapply (out_mem_ordered O i j); try done; lia.
Qed.
Print Assumptions C29_partial.
Example C29_case : exists w secs a b, main_links w secs /\ secs !! 9%nat = Some a /\ secs !! 14%nat = Some b /\
  alloc a = true /\ alloc b = true /\ sc_synth a = None /\ memsz a = 16 /\ addr a = 2101248 /\ addr b = 2105344.
Proof.
  destruct (main_check (fun w secs => match secs !! 9%nat, secs !! 14%nat with
    | Some a, Some b => bool_decide (alloc a = true /\ alloc b = true /\ sc_synth a = None /\ memsz a = 16 /\ addr a = 2101248 /\ addr b = 2105344) | _, _ => false end))
    as (w & secs & H & E); [vm_compute; reflexivity|].
  destruct (secs !! 9%nat) as [a|] eqn:Ea; [|done]. destruct (secs !! 14%nat) as [b|] eqn:Eb; [|done].
  exists w, secs, a, b. apply bool_decide_eq_true_1 in E. tauto.
Qed.

(** * C30 *)

(** A section with the write flag only is placed over the ELF header. *)
Definition lone_obj : elf_obj := demo_obj [progbits ".text" 6 16 [0xc3]; progbits ".lone" 1 1 [1; 2; 3]] [("_start", dsym 0x12 1 0 1)] [].
Theorem C30_refuted : exists wd lo l fuel w secs i j a b, valid_oracle (lo_writer lo) /\ links wd lo l fuel w secs /\
  i <> j /\ file_ranges (w_eh w) (w_program_headers w) secs !! i = Some a /\
  file_ranges (w_eh w) (w_program_headers w) secs !! j = Some b /\
  a.1 < b.1 + b.2 /\ b.1 < a.1 + a.2.
Proof.
  destruct (demo_links [("a.o", lone_obj)] ["a.o"] [] (fun w secs => match file_ranges (w_eh w) (w_program_headers w) secs !! 0%nat, file_ranges (w_eh w) (w_program_headers w) secs !! 2%nat with
    | Some a, Some b => (a.1 <? b.1 + b.2) && (b.1 <? a.1 + a.2) | _, _ => false end)) as (w & secs & H & E); [vm_compute; reflexivity|].
  destruct (file_ranges (w_eh w) (w_program_headers w) secs !! 0%nat) as [a|] eqn:Ea; [|done].
  destruct (file_ranges (w_eh w) (w_program_headers w) secs !! 2%nat) as [b|] eqn:Eb; [|done].
  eexists _, demo_lib_oracle, _, _, w, secs, 0%nat, 2%nat, a, b. split; [exact demo_valid|]. split; [exact H|]. split; [lia|]. split; [exact Ea|]. split; [exact Eb|].
  rewrite andb_true_iff, !N.ltb_lt in E. exact E.
Qed.
Print Assumptions C30_refuted.

(** Without such a section (and with a section name table below 4 GiB) the
    ranges follow each other. *)
Theorem C30_partial : forall wd lo l fuel w secs i j a b, valid_oracle (lo_writer lo) -> links wd lo l fuel w secs ->
  (forall s, s ∈ secs -> ¬ lone_write s) -> stt_total_len (w_shstrtab w) < 2^32 -> (i < j)%nat ->
  file_ranges (w_eh w) (w_program_headers w) secs !! i = Some a ->
  file_ranges (w_eh w) (w_program_headers w) secs !! j = Some b -> a.1 + a.2 <= b.1.
Proof.
  intros wd lo l fuel w secs i j a b V H HW Ht. destruct (links_outcome _ _ _ _ _ _ H) as (w0&wr&ws&w1&extra&null&rest&rest'&st&w3&w4&w5&w6&w7&null'&out&O).
  exact (file_ranges_ordered O V (lone_out O HW) Ht i j a b).
Qed.
Print Assumptions C30_partial.

(** The demo program meets the conditions of this and the following theorems. *)
Definition usual (w : writer) (secs : list section) : bool :=
  forallb (fun s => negb (flags s =? 1)) secs && (stt_total_len (w_shstrtab w) <? 2^32) && (blen (w_program_headers w) <? 2^16).
Lemma usual_spec w secs : usual w secs = true -> (forall s, s ∈ secs -> ¬ lone_write s) /\ stt_total_len (w_shstrtab w) < 2^32 /\
  blen (w_program_headers w) < 2^16.
Proof.
  unfold usual. rewrite !andb_true_iff, !N.ltb_lt, forallb_forall. intros [[H1 H2] H3]. split; [|tauto].
  intros s Hs E. apply elem_of_list_In in Hs. specialize (H1 s Hs). unfold lone_write in E. rewrite E in H1. done.
Qed.
Example C30_case : exists w secs, main_links w secs /\ (forall s, s ∈ secs -> ¬ lone_write s) /\ stt_total_len (w_shstrtab w) < 2^32 /\
  blen (w_program_headers w) < 2^16 /\
  take 4 (file_ranges (w_eh w) (w_program_headers w) secs) = [(0, 64); (64, 336); (400, 72); (472, 48)] /\
  last (file_ranges (w_eh w) (w_program_headers w) secs) = Some (8516, 1216).
Proof.
  destruct (main_check (fun w secs => usual w secs && bool_decide (take 4 (file_ranges (w_eh w) (w_program_headers w) secs) = [(0, 64); (64, 336); (400, 72); (472, 48)] /\
    last (file_ranges (w_eh w) (w_program_headers w) secs) = Some (8516, 1216)))) as (w & secs & H & E); [vm_compute; reflexivity|].
  exists w, secs. apply andb_true_iff in E as [E1 E2]. apply bool_decide_eq_true_1 in E2. apply usual_spec in E1. tauto.
Qed.

(** * C31 *)

(** With a write-only section, a section that is not allocated is mapped. And
    .copyrel may reach beyond its segment. *)
Theorem C31_refuted_unallocated : exists wd lo l fuel w secs s ph, valid_oracle (lo_writer lo) /\ links wd lo l fuel w secs /\
  s ∈ secs /\ alloc s = false /\ filesz s <> 0 /\ ph ∈ loads (w_program_headers w) /\ file_inside s ph.
Proof.
  destruct (demo_links [("a.o", lone_obj)] ["a.o"] [] (fun w secs => match secs !! 1%nat, loads (w_program_headers w) !! 0%nat with
    | Some s, Some ph => negb (alloc s) && negb (filesz s =? 0) && (p_offset ph <=? offset s) && (offset s + filesz s <=? p_offset ph + p_filesz ph) | _, _ => false end))
    as (w & secs & H & E); [vm_compute; reflexivity|].
  destruct (secs !! 1%nat) as [s|] eqn:Es; [|done]. destruct (loads (w_program_headers w) !! 0%nat) as [ph|] eqn:Ep; [|done].
  rewrite !andb_true_iff, !N.leb_le, !negb_true_iff, N.eqb_neq in E.
  eexists _, demo_lib_oracle, _, _, w, secs, s, ph. split; [exact demo_valid|]. split; [exact H|]. split; [by eapply elem_of_list_lookup_2|].
  split; [tauto|]. split; [tauto|]. split; [by eapply elem_of_list_lookup_2|]. unfold file_inside. tauto.
Qed.
Print Assumptions C31_refuted_unallocated.
Definition big_lib : elf_obj := demo_lib [("foo", dsym 0x12 7 0x1000 6); ("bar", dsym 0x11 8 0x2000 0x5000)].
Theorem C31_refuted_copyrel : exists wd lo l fuel w secs s, valid_oracle (lo_writer lo) /\ links wd lo l fuel w secs /\
  s ∈ secs /\ alloc s = true /\ forall ph, ph ∈ loads (w_program_headers w) -> ¬ mem_inside s ph.
Proof.
  destruct (demo_links [("a.o", demo_main); ("/l/libfoo.so", big_lib)] ["a.o"] ["/l/libfoo.so"] (fun w secs => match secs !! 8%nat with
    | Some s => alloc s && forallb (fun ph => negb ((p_vaddr ph <=? addr s) && (addr s + memsz s <=? p_vaddr ph + p_memsz ph))) (loads (w_program_headers w)) | _ => false end))
    as (w & secs & H & E); [vm_compute; reflexivity|].
  destruct (secs !! 8%nat) as [s|] eqn:Es; [|done]. apply andb_true_iff in E as [E1 E2]. rewrite forallb_forall in E2.
  eexists _, demo_lib_oracle, _, _, w, secs, s. split; [exact demo_valid|]. split; [exact H|]. split; [by eapply elem_of_list_lookup_2|]. split; [done|].
  intros ph Hph [M1 M2]. apply elem_of_list_In in Hph. specialize (E2 ph Hph). apply N.leb_le in M1. apply N.leb_le in M2. rewrite M1, M2 in E2. done.
Qed.
Print Assumptions C31_refuted_copyrel.

Theorem C31_partial : forall wd lo l fuel w secs, valid_oracle (lo_writer lo) -> links wd lo l fuel w secs ->
  (forall s, s ∈ secs -> ¬ lone_write s) ->
  (forall s, s ∈ secs -> alloc s = true -> sc_synth s <> Some KCopyRel ->
     exists ph, ph ∈ loads (w_program_headers w) /\ mem_inside s ph /\ file_inside s ph /\ p_flags ph = perms s) /\
  (forall i s ph, (0 < i)%nat -> secs !! i = Some s -> alloc s = false -> ph ∈ loads (w_program_headers w) ->
     offset s + filesz s <= p_offset ph \/ p_offset ph + p_filesz ph <= offset s) /\
  (forall ph, ph ∈ loads (w_program_headers w) -> exists s, s ∈ secs /\ alloc s = true /\ p_flags ph = perms s /\
     p_vaddr ph <= addr s <= p_vaddr ph + p_memsz ph).
Proof.
  intros wd lo l fuel w secs V H HW. destruct (links_outcome _ _ _ _ _ _ H) as (w0&wr&ws&w1&extra&null&rest&rest'&st&w3&w4&w5&w6&w7&null'&out&O).
  pose proof (lone_out O HW) as HW'. split; [|split].
  - intros s Hs Ha Hsy. destruct (out_segment O V s HW' (alloc_out O s Hs Ha) Ha Hsy) as (ph & H1 & H2 & H3 & H4 & _). eauto.
  - intros [|i] s ph Hi Hs Ha Hph; [lia|]. apply (secs_out O) in Hs. eapply (out_not_segment O V s ph); try done. by eapply elem_of_list_lookup_2.
  - intros ph Hph. destruct (load_section O V ph HW' Hph) as (s & Hs & H1). exists s. split; [|done]. rewrite (oc_secs O). by right.
Qed.
Print Assumptions C31_partial.
Example C31_case : exists w secs, main_links w secs /\ (forall s, s ∈ secs -> ¬ lone_write s) /\
  p_flags <$> loads (w_program_headers w) = [4; 6; 5].
Proof.
  destruct (main_check (fun w secs => usual w secs && bool_decide (p_flags <$> loads (w_program_headers w) = [4; 6; 5]))) as (w & secs & H & E); [vm_compute; reflexivity|].
  exists w, secs. apply andb_true_iff in E as [E1 E2]. apply bool_decide_eq_true_1 in E2. apply usual_spec in E1. tauto.
Qed.

(** * C32 *)

(** A zero-fill section before a section with contents in the same segment
    shifts the latter's address but not its file offset. *)
Definition bss_first : elf_obj := demo_obj
  [progbits ".text" 6 16 [0xc3]; progbits ".data" 3 8 [1; 2; 3; 4; 5; 6; 7; 8]; nobits ".bss" 3 32 16] [("_start", dsym 0x12 1 0 1)] [].
Theorem C32_refuted : exists wd lo l fuel w secs s ph, valid_oracle (lo_writer lo) /\ links wd lo l fuel w secs /\
  s ∈ secs /\ alloc s = true /\ filesz s <> 0 /\ ph ∈ loads (w_program_headers w) /\ mem_inside s ph /\
  offset s + p_vaddr ph <> addr s + p_offset ph.
Proof.
  destruct (demo_links [("a.o", bss_first)] ["a.o"] [] (fun w secs => any secs (fun s => any (loads (w_program_headers w)) (fun ph =>
    alloc s && negb (filesz s =? 0) && (p_vaddr ph <=? addr s) && (addr s + memsz s <=? p_vaddr ph + p_memsz ph) && negb (offset s + p_vaddr ph =? addr s + p_offset ph)))))
    as (w & secs & H & E); [vm_compute; reflexivity|].
  apply any_spec in E as (s & Hs & E). apply any_spec in E as (ph & Hph & E).
  rewrite !andb_true_iff, !N.leb_le, !negb_true_iff, !N.eqb_neq in E.
  eexists _, demo_lib_oracle, _, _, w, secs, s, ph. split; [exact demo_valid|]. split; [exact H|]. split; [done|]. unfold mem_inside. tauto.
Qed.
Print Assumptions C32_refuted.

Theorem C32_partial : forall wd lo l fuel w secs, valid_oracle (lo_writer lo) -> links wd lo l fuel w secs ->
  (forall s, s ∈ secs -> ¬ lone_write s) ->
  (zero_fill_last secs -> forall s, s ∈ secs -> alloc s = true -> is_nobits s = false ->
     exists ph, ph ∈ loads (w_program_headers w) /\ mem_inside s ph /\ file_inside s ph /\ offset s + p_vaddr ph = addr s + p_offset ph) /\
  (forall ph, ph ∈ loads (w_program_headers w) -> p_vaddr ph mod 0x1000 = 0 /\ p_offset ph mod 0x1000 = 0 /\ p_align ph = 0x1000 /\
     p_paddr ph = p_vaddr ph /\ p_filesz ph <= p_memsz ph) /\
  (forall i j a b, (i < j)%nat -> loads (w_program_headers w) !! i = Some a -> loads (w_program_headers w) !! j = Some b ->
     (forall x y, p_vaddr a <= x < p_vaddr a + p_memsz a -> p_vaddr b <= y -> x / 0x1000 < y / 0x1000) /\
     p_offset a + p_filesz a <= p_offset b).
Proof.
  intros wd lo l fuel w secs V H HW. destruct (links_outcome _ _ _ _ _ _ H) as (w0&wr&ws&w1&extra&null&rest&rest'&st&w3&w4&w5&w6&w7&null'&out&O).
  pose proof (lone_out O HW) as HW'. pose proof (segs O V HW') as SG. split; [|split].
  - intros Hz s Hs Ha Hn. destruct (out_segment O V s HW' (alloc_out O s Hs Ha) Ha) as (ph & H1 & H2 & H3 & H4 & H5).
    { intros E. rewrite (copyrel_nobits O V s (alloc_out O s Hs Ha) E) in Hn. done. }
    exists ph. split; [done|]. split; [done|]. split; [done|]. by apply H5.
  - intros ph Hph. rewrite (loads_final O V) in Hph. destruct (sg_ph _ _ _ _ _ _ SG ph Hph) as (_ & P1 & P2 & P3 & P4 & P5 & _). done.
  - intros i j a b Hij Ha Hb. rewrite (loads_final O V) in Ha, Hb.
    destruct (sg_ph _ _ _ _ _ _ SG b (elem_of_list_lookup_2 _ _ _ Hb)) as (_ & P1 & _).
    destruct (sg_ord _ _ _ _ _ _ SG i j a b Hij Ha Hb) as [O1 O2]. split; [|done]. intros x y Hx Hy.
    pose proof (up_spec (p_vaddr a + p_memsz a)) as (U1 & _). 
    assert (x < p_vaddr b) as Hxb by lia.
    apply (N.lt_le_trans _ (p_vaddr b / 0x1000)); [|by apply N.div_le_mono].
    apply N.div_lt_upper_bound; [lia|]. pose proof (N.div_mod (p_vaddr b) 0x1000 ltac:(lia)). lia.
Qed.
Print Assumptions C32_partial.
Definition zero_fill_last_b (l : list section) : bool :=
  forallb (fun x => forallb (fun y => negb ((x.1 <? y.1)%nat && (flags x.2 =? flags y.2) && is_nobits x.2 && negb (bool_decide (sc_synth x.2 = Some KCopyRel)) && negb (memsz x.2 =? 0)) || is_nobits y.2)
     (imap pair l)) (imap pair l).
Lemma zero_fill_last_spec l : zero_fill_last_b l = true -> zero_fill_last l.
Proof.
  unfold zero_fill_last_b. rewrite forallb_forall. intros H i j si sj Hij Hi Hj Ef Hn Hs Hm.
  specialize (H (i, si)). rewrite forallb_forall in H.
  assert (Hin : forall k s, l !! k = Some s -> List.In (k, s) (imap pair l)).
  { intros k s Hk. apply elem_of_list_In. apply elem_of_lookup_imap. eauto. }
  specialize (H (Hin _ _ Hi) (j, sj) (Hin _ _ Hj)). simpl in H. apply orb_true_iff in H as [H|H]; [|done]. exfalso.
  apply Nat.ltb_lt in Hij. apply N.eqb_eq in Ef. apply N.eqb_neq in Hm. rewrite Hij, Ef, Hn, Hm, bool_decide_eq_false_2 in H by done. done.
Qed.
Example C32_case : exists w secs, main_links w secs /\ (forall s, s ∈ secs -> ¬ lone_write s) /\ zero_fill_last secs /\
  (fun ph => (p_offset ph, p_vaddr ph, p_filesz ph, p_memsz ph)) <$> loads (w_program_headers w) =
    [(0, 2097152, 676, 676); (4096, 2101248, 328, 344); (8192, 2105344, 45, 45)].
Proof.
  destruct (main_check (fun w secs => usual w secs && zero_fill_last_b secs && bool_decide ((fun ph => (p_offset ph, p_vaddr ph, p_filesz ph, p_memsz ph)) <$> loads (w_program_headers w) =
    [(0, 2097152, 676, 676); (4096, 2101248, 328, 344); (8192, 2105344, 45, 45)]))) as (w & secs & H & E); [vm_compute; reflexivity|].
  exists w, secs. rewrite !andb_true_iff in E. destruct E as [[E1 E2] E3]. apply bool_decide_eq_true_1 in E3. apply usual_spec in E1. apply zero_fill_last_spec in E2. tauto.
Qed.

(** * C33 *)

(** Reserved: the first byte after the program header table, by the layout, is
    where the first section starts (C30), so the number written is the number
    reserved exactly when the first section starts right after the table. *)
Theorem C33_partial : forall wd lo l fuel w secs, valid_oracle (lo_writer lo) -> links wd lo l fuel w secs ->
  (forall s, s ∈ secs -> ¬ lone_write s) -> stt_total_len (w_shstrtab w) < 2^32 -> blen (w_program_headers w) < 2^16 ->
  e_phnum (w_eh w) = blen (w_program_headers w) /\ e_phoff (w_eh w) = 64 /\ e_phentsize (w_eh w) = 56 /\
  (exists s, secs !! 1%nat = Some s /\ alloc s = true /\ offset s = 64 + 56 * blen (w_program_headers w)) /\
  (exists rest, w_program_headers w =
     mkPhdr 6 4 64 0x200040 0x200040 (56 * blen (w_program_headers w)) (56 * blen (w_program_headers w)) 8 :: rest /\
     forall ph, ph ∈ rest -> p_type ph <> 6) /\
  (exists ph rest, loads (w_program_headers w) = ph :: rest /\ p_offset ph = 0 /\ p_vaddr ph = 0x200000 /\
     64 + 56 * blen (w_program_headers w) <= p_filesz ph /\ p_filesz ph <= p_memsz ph) /\
  blen (loads (w_program_headers w)) = alloc_runs (Some 0) (drop 1 secs) /\
  blen (w_program_headers w) = alloc_runs (Some 0) (drop 1 secs) + 3.
Proof.
  intros wd lo l fuel w secs V H HW Ht Hph. destruct (links_outcome _ _ _ _ _ _ H) as (w0&wr&ws&w1&extra&null&rest&rest'&st&w3&w4&w5&w6&w7&null'&out&O).
  pose proof (lone_out O HW) as HW'. pose proof (segs O V HW') as SG. pose proof (header_count O V HW' Ht) as HC.
  destruct (final_headers O) as (ph & Eph & Eph0 & F1 & F2 & F3 & _).
  assert (Hu : u16 (blen (w_program_headers w)) = blen (w_program_headers w)) by (unfold u16; by apply N.mod_small). rewrite Hu in *.
  assert (Hruns : blen (loads (w_program_headers w)) = alloc_runs (Some 0) (drop 1 secs)).
  { rewrite (loads_final O V). pose proof (sg_count _ _ _ _ _ _ SG []) as HK. rewrite app_nil_r in HK. simpl in HK. rewrite N.add_0_r in HK. rewrite <- HK.
    rewrite (oc_secs O). change (drop 1 (null' :: out)) with out.
    assert (Hd : decl <$> indexed (o_sort (lo_writer lo) rest) = decl <$> out) by (by rewrite indexed_decl, (out_decls O)).
    clear -Hd. revert Hd. generalize (indexed (o_sort (lo_writer lo) rest)). generalize 0. revert out.
    intros out f k Hd. revert f k Hd. induction out as [|s out IH]; intros f [|s1 k] Hd; try done. rewrite !fmap_cons in Hd.
    apply (inj2 cons) in Hd as [Hd1 Hd2]. simpl. rewrite has_alloc, (decl_alloc _ _ Hd1). change (sh_flags (sc_sh s1)) with (flags s1). rewrite (decl_flags _ _ Hd1).
    rewrite <- (IH _ _ Hd2). destruct (N.eqb_spec (flags s) f) as [->|Hne].
    - rewrite bool_decide_eq_true_2 by done. by destruct (alloc s).
    - rewrite bool_decide_eq_false_2 by congruence. by destruct (alloc s). }
  split; [done|]. split; [done|]. split; [done|]. split; [|split; [|split; [|split]]].
  - destruct (first_offset O V HW') as (a & Ha & Ea & _). destruct (out_flags_rest' O _ _ Ha) as (s & Hs & Hw). exists s.
    split; [by apply (secs_out O)|]. split.
    + destruct (Forall2_lookup_r _ _ _ _ _ (placed_all O) Ha) as (b & Hb & Hp). pose proof (proj1 Hw) as Hd. unfold same_decl in Hd.
      rewrite (decl_alloc _ _ Hd), (decl_alloc _ _ (placed_decl _ _ Hp)).
      destruct (indexed (o_sort (lo_writer lo) rest)) as [|x k] eqn:E; [done|]. simpl in Hb. injection Hb as ->. by eapply (head_alloc O V HW').
    + destruct Hw as (_ & _ & _ & -> & _). lia.
  - exists (ly_phs st). split.
    { transitivity (ph :: ly_phs st); [exact Eph|]. f_equal. rewrite Eph0. f_equal; lia. }
    intros q Hq E. assert (Hnl : q ∈ nonloads (ly_phs st)). { apply elem_of_list_filter. split; [|done]. unfold is_load. by rewrite E. }
    pose proof (spec_inv_all _ _ _ _ _ _ _ (oc_layout O)) as SI. apply elem_of_list_lookup in Hnl as [i Hi].
    destruct (Forall2_lookup_l _ _ _ _ _ (si_list _ _ _ _ SI) Hi) as (x & _ & (D & _) & _). rewrite E in D. unfold special_type in D. by destruct (_ =? _).
  - destruct (sg_first _ _ _ _ _ _ SG) as [(E & _)|(_ & q & k & E1 & E2 & E3 & E4)].
    { exfalso. destruct (first_offset O V HW') as (a & Ha & _). by rewrite E in Ha. }
    exists q, k. rewrite (loads_final O V). split; [done|]. split; [done|]. split; [by rewrite E3, up_base|]. split; [lia|].
    destruct (sg_ph _ _ _ _ _ _ SG q) as (_ & _ & _ & _ & _ & P5 & _); [rewrite E1; by left|done].
  - done.
  - rewrite <- Hruns, (loads_final O V). pose proof (sg_count _ _ _ _ _ _ SG []) as HK. rewrite app_nil_r in HK. simpl in HK.
    unfold x0_of, phdrs_room in HC. lia.
Qed.
Print Assumptions C33_partial.
Example C33_case : exists w secs, main_links w secs /\ (forall s, s ∈ secs -> ¬ lone_write s) /\ stt_total_len (w_shstrtab w) < 2^32 /\
  blen (w_program_headers w) = 6 /\ alloc_runs (Some 0) (drop 1 secs) = 3.
Proof.
  destruct (main_check (fun w secs => usual w secs && bool_decide (blen (w_program_headers w) = 6 /\ alloc_runs (Some 0) (drop 1 secs) = 3))) as (w & secs & H & E); [vm_compute; reflexivity|].
  exists w, secs. apply andb_true_iff in E as [E1 E2]. apply bool_decide_eq_true_1 in E2. apply usual_spec in E1. tauto.
Qed.

(** With a write-only section the table is not where the layout reserved it:
    section contents overlap it (C30_refuted). *)

(** * C34 *)

(** The header of .interp has the address before rounding up to the page and
    skipping the headers if .interp opens a segment; an input section of that
    name with a large alignment achieves that. *)
Definition interp_obj : elf_obj := demo_obj
  [progbits ".text" 6 16 [0xc3]; progbits ".interp" 2 4096 [0]] [("_start", dsym 0x12 1 0 1)] [].
Theorem C34_refuted : exists wd lo l fuel w secs s ph, valid_oracle (lo_writer lo) /\ links wd lo l fuel w secs /\
  s ∈ secs /\ st_name_at (w_shstrtab w) (sh_name (sc_sh s)) = Some ".interp" /\
  ph ∈ w_program_headers w /\ p_type ph = 3 /\ p_offset ph = offset s /\ p_vaddr ph <> addr s.
Proof.
  destruct (demo_links [("a.o", interp_obj)] ["a.o"] [] (fun w secs => any secs (fun s => any (w_program_headers w) (fun ph =>
    bool_decide (st_name_at (w_shstrtab w) (sh_name (sc_sh s)) = Some ".interp" /\ p_type ph = 3 /\ p_offset ph = offset s /\ p_vaddr ph <> addr s)))))
    as (w & secs & H & E); [vm_compute; reflexivity|].
  apply any_spec in E as (s & Hs & E). apply any_spec in E as (ph & Hph & E). apply bool_decide_eq_true_1 in E.
  eexists _, demo_lib_oracle, _, _, w, secs, s, ph. split; [exact demo_valid|]. split; [exact H|]. tauto.
Qed.
Print Assumptions C34_refuted.

(** For ordinary inputs (no section with a name the linker uses itself): there
    is exactly one PT_INTERP and one PT_DYNAMIC, and they describe .interp and
    the SHT_DYNAMIC section. *)
Theorem C34_partial : forall wd lo l fuel w secs, valid_oracle (lo_writer lo) -> links wd lo l fuel w secs ->
  plain_inputs wd l -> stt_total_len (w_shstrtab w) < 2^32 ->
  (exists s ph, s ∈ secs /\ st_name_at (w_shstrtab w) (sh_name (sc_sh s)) = Some ".interp" /\
     filter (fun ph => p_type ph = 3) (w_program_headers w) = [ph] /\
     p_vaddr ph = addr s /\ p_offset ph = offset s /\ p_filesz ph = filesz s /\ p_memsz ph = memsz s) /\
  (exists s ph, s ∈ secs /\ sh_type (sc_sh s) = 6 /\
     filter (fun ph => p_type ph = 2) (w_program_headers w) = [ph] /\
     p_vaddr ph = addr s /\ p_offset ph = offset s /\ p_filesz ph = filesz s /\ p_memsz ph = memsz s).
Proof.
  intros wd lo l fuel w secs V H Hpl Ht. destruct (links_outcome _ _ _ _ _ _ H) as (w0&wr&ws&w1&extra&null&rest&rest'&st&w3&w4&w5&w6&w7&null'&out&O).
  split.
  - destruct (fixed_out O V 4 _ ltac:(lia) eq_refl) as (s & Hs & Hid & Hty & _ & _ & _ & _ & Hn). cbn [fst snd] in *.
    destruct (special_addr O V 9 4 s Hpl Ht Hs Hid ltac:(lia)) as (ph & Hf & (D1 & D2 & D3 & D4 & _) & Ha).
    exists s, ph. split; [rewrite (oc_secs O); by right|]. split; [rewrite (names_w O); by apply Hn|].
    assert (Et : special_type s = 3) by (unfold special_type; by rewrite Hty). rewrite Et in Hf. done.
  - destruct (fixed_out O V 10 _ ltac:(lia) eq_refl) as (s & Hs & Hid & Hty & _). cbn [fst snd] in *.
    destruct (special_addr O V 13 10 s Hpl Ht Hs Hid ltac:(lia)) as (ph & Hf & (D1 & D2 & D3 & D4 & _) & Ha).
    exists s, ph. split; [rewrite (oc_secs O); by right|]. split; [done|].
    assert (Et : special_type s = 2) by (unfold special_type; by rewrite Hty). rewrite Et in Hf. done.
Qed.
Print Assumptions C34_partial.
Example C34_case : exists w secs, main_links w secs /\ plain_inputs (demo_world demo_files []) (demo_linker ["a.o"] ["/l/libfoo.so"]) /\
  stt_total_len (w_shstrtab w) < 2^32 /\
  (fun ph => (p_type ph, p_vaddr ph, p_filesz ph)) <$> filter (fun ph => p_type ph = 3 \/ p_type ph = 2) (w_program_headers w) =
    [(2, 2101296, 272); (3, 2097800, 28)].
Proof.
  destruct (main_check (fun w secs => usual w secs && bool_decide ((fun ph => (p_type ph, p_vaddr ph, p_filesz ph)) <$> filter (fun ph => p_type ph = 3 \/ p_type ph = 2) (w_program_headers w) =
    [(2, 2101296, 272); (3, 2097800, 28)]))) as (w & secs & H & E); [vm_compute; reflexivity|].
  exists w, secs. apply andb_true_iff in E as [E1 E2]. apply bool_decide_eq_true_1 in E2. apply usual_spec in E1.
  split; [exact H|]. split; [exact demo_main_plain|]. tauto.
Qed.

(** * C35 *)

(** No padding is inserted between the sections of a segment: after a .text of
    13 bytes, .plt (alignment 8) is misaligned. *)
Theorem C35_refuted : exists wd lo l fuel w secs s, valid_oracle (lo_writer lo) /\ links wd lo l fuel w secs /\
  s ∈ secs /\ alloc s = true /\ align s = 8 /\ addr s mod 8 <> 0.
Proof.
  destruct (main_check (fun w secs => any secs (fun s => bool_decide (alloc s = true /\ align s = 8 /\ addr s mod 8 <> 0)))) as (w & secs & H & E); [vm_compute; reflexivity|].
  apply any_spec in E as (s & Hs & E). apply bool_decide_eq_true_1 in E.
  eexists _, demo_lib_oracle, _, _, w, secs, s. split; [exact demo_valid|]. split; [exact H|]. tauto.
Qed.
Print Assumptions C35_refuted.

(** What holds for output sections: a section is aligned if its alignment
    divides the page size (8 in the first segment, after the headers) and the
    sizes of the sections before it in its segment. Not covered: alignment of
    the single contributions to a section. *)
Theorem C35_partial : forall wd lo l fuel w secs i s, valid_oracle (lo_writer lo) -> links wd lo l fuel w secs ->
  (forall s, s ∈ secs -> ¬ lone_write s) ->
  secs !! i = Some s -> alloc s = true -> align s <> 0 -> 0x1000 mod align s = 0 ->
  (forall j a, (j < i)%nat -> secs !! j = Some a -> flags a = flags s -> sc_synth a <> Some KCopyRel -> memsz a mod align s = 0) ->
  (flags s = 2 -> 8 mod align s = 0) -> addr s mod align s = 0.
Proof.
  intros wd lo l fuel w secs i s V H HW Hi Ha H0 Hpg Hsz H8. destruct (links_outcome _ _ _ _ _ _ H) as (w0&wr&ws&w1&extra&null&rest&rest'&st&w3&w4&w5&w6&w7&null'&out&O).
  destruct i as [|i].
  { exfalso. rewrite (oc_secs O) in Hi. injection Hi as <-. unfold alloc in Ha. by rewrite (proj2 (proj2 (null_facts O))) in Ha. }
  apply (secs_out O) in Hi. eapply (out_aligned O V i s (lone_out O HW) Hi); try done.
  intros j a Hj Hja. apply (Hsz (S j) a); [lia|]. by apply (secs_out O).
Qed.
Print Assumptions C35_partial.
Example C35_case : exists w secs s, main_links w secs /\ (forall s, s ∈ secs -> ¬ lone_write s) /\ secs !! 12%nat = Some s /\
  alloc s = true /\ align s = 8 /\ flags s = 3 /\ addr s = 2101568 /\
  forall j a, (j < 12)%nat -> secs !! j = Some a -> flags a = flags s -> sc_synth a <> Some KCopyRel -> memsz a mod align s = 0.
Proof.
  destruct (main_check (fun w secs => usual w secs && match secs !! 12%nat with
    | Some s => bool_decide (alloc s = true /\ align s = 8 /\ flags s = 3 /\ addr s = 2101568) &&
        forallb (fun a => negb (flags a =? flags s) || (memsz a mod align s =? 0) || bool_decide (sc_synth a = Some KCopyRel)) (take 12 secs)
    | None => false end)) as (w & secs & H & E); [vm_compute; reflexivity|].
  apply andb_true_iff in E as [E1 E]. destruct (secs !! 12%nat) as [s|] eqn:Es; [|done]. apply andb_true_iff in E as [E2 E3].
  apply bool_decide_eq_true_1 in E2. apply usual_spec in E1. rewrite forallb_forall in E3.
  exists w, secs, s. split; [exact H|]. split; [tauto|]. split; [done|]. split; [tauto|]. split; [tauto|]. split; [tauto|]. split; [tauto|].
  intros j a Hj Ha Hf Hs. assert (Hin : List.In a (take 12 secs)). { apply elem_of_list_In. apply (elem_of_list_lookup_2 _ j). by rewrite lookup_take. }
  specialize (E3 a Hin). rewrite !orb_true_iff in E3. destruct E3 as [[E3|E3]|E3].
  - rewrite Hf, N.eqb_refl in E3. done.
  - by apply N.eqb_eq.
  - apply bool_decide_eq_true_1 in E3. done.
Qed.
