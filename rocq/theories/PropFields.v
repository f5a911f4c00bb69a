(** Relocated fields of the output (C59, C66, C67). *)
From Verif Require Import ProofBase DemoLink PropLayout PropFile PropGot PropMerge PropSyms ProofFields.

(** * C66 *)

(** A name no library lists: the field of an absolute or pc-relative
    relocation (or a call's, PLT32) holds the psABI's value for the address in
    the .symtab entry of that name. *)
Theorem C66_near : forall wd lo l fuel w secs es evs x q off n, good_link wd lo l fuel w secs -> loading wd lo l fuel es evs -> no_nuls es ->
  rel_site es x q off -> rel_against es q n -> stays_in wd lo l n -> rel_type (ri_rel q) = 4 \/ rel_type (ri_rel q) ∈ direct ->
  exists s sym, the_sec w secs (si_name x) s /\ symtab_entry w secs n sym /\
    field_is s (field_off off q) (near_type (rel_type (ri_rel q))) (Z.of_N (st_value sym)) (rel_addend q) None None.
Proof. intros wd lo l fuel w secs es evs x q off n G L Hnn (H1 & H2 & H3 & H4 & H5) Hn. exact (near_rel G L Hnn x q off n H1 H2 H3 H4 H5 Hn). Qed.
Print Assumptions C66_near.

(** The same for the absolute and pc-relative types if the name is defined,
    whatever the libraries list. *)
Theorem C66_defined : forall wd lo l fuel w secs es evs x q off n, good_link wd lo l fuel w secs -> loading wd lo l fuel es evs -> no_nuls es ->
  rel_site es x q off -> rel_against es q n -> rel_type (ri_rel q) ∈ direct ->
  exists s sym, the_sec w secs (si_name x) s /\ symtab_entry w secs n sym /\
    (st_shndx sym <> 0 -> field_is s (field_off off q) (rel_type (ri_rel q)) (Z.of_N (st_value sym)) (rel_addend q) None None).
Proof. intros wd lo l fuel w secs es evs x q off n G L Hnn (H1 & H2 & H3 & H4 & H5) Hn. exact (direct_rel G L Hnn x q off n H1 H2 H3 H4 H5 Hn). Qed.
Print Assumptions C66_defined.

(** A load through the GOT (type 42) of a name no library lists becomes the
    computation of its address into the same register. *)
Theorem C66_lea : forall wd lo l fuel w secs es evs x q off n, good_link wd lo l fuel w secs -> loading wd lo l fuel es evs -> no_nuls es ->
  rel_site es x q off -> rel_against es q n -> stays_in wd lo l n -> rel_type (ri_rel q) = 42 ->
  exists s sym reg ea, the_sec w secs (si_name x) s /\ symtab_entry w secs n sym /\
    SpecReloc.decode_at (Z.of_N (addr s + off)) (si_bytes x) (gr_offset (ri_rel q) - 3) = Some (MovLoad reg ea, 7) /\
    SpecReloc.decode_at (Z.of_N (addr s)) (contents s) (off + (gr_offset (ri_rel q) - 3)) = Some (Lea reg (Z.of_N (st_value sym) + rel_addend q + 4), 7).
Proof. intros wd lo l fuel w secs es evs x q off n G L Hnn (H1 & H2 & H3 & H4 & H5) Hn. exact (lea_rel G L Hnn x q off n H1 H2 H3 H4 H5 Hn). Qed.
Print Assumptions C66_lea.

(** A call of a function only a library has: the field leads to a PLT entry
    that jumps through its own .got.plt word, and asks the loader for exactly
    the JUMP_SLOT record of that word, whose symbol has the function's name. *)
Theorem C66_plt : forall wd lo l fuel w secs es evs x q off n, good_link wd lo l fuel w secs -> loading wd lo l fuel es evs -> no_nuls es ->
  rel_site es x q off -> rel_against es q n -> left_to_libraries es q n -> rel_type (ri_rel q) = 4 ->
  exists s p g rp k i j d, the_sec w secs (si_name x) s /\ the_sec w secs ".plt" p /\ the_sec w secs ".got.plt" g /\ the_sec w secs ".rela.plt" rp /\
    field_is s (field_off off q) 4 0 (rel_addend q) None (Some (Z.of_N (addr p + 16 * (i + 1)))) /\ stub_for p g i k /\
    rd_rela (contents rp) (24 * k) = Some (dyn_record (addr g + 8 * (i + 3)) j 7) /\ dynsym_entry w secs n j d.
Proof.
  intros wd lo l fuel w secs es evs x q off n G L Hnn (H1 & H2 & H3 & H4 & H5) Hn (B1 & B2 & B3 & B4 & B5).
  exact (plt_rel G L Hnn x q off n H1 H2 H3 H4 H5 Hn B1 B2 B3 B4 B5).
Qed.
Print Assumptions C66_plt.

(** A load through the GOT of a name only a library has: the field leads to a
    GOT word with exactly one GLOB_DAT record, whose symbol has that name. *)
Theorem C66_got : forall wd lo l fuel w secs es evs x q off n, good_link wd lo l fuel w secs -> loading wd lo l fuel es evs -> no_nuls es ->
  rel_site es x q off -> rel_against es q n -> left_to_libraries es q n -> rel_type (ri_rel q) = 41 \/ rel_type (ri_rel q) = 42 ->
  exists s got rdy recs o j d, the_sec w secs (si_name x) s /\ the_sec w secs ".got" got /\ the_sec w secs ".rela.dyn" rdy /\
    field_is s (field_off off q) (rel_type (ri_rel q)) 0 (rel_addend q) (Some (Z.of_N (addr got + o))) None /\ o + 8 <= filesz got /\
    rd_relas (contents rdy) = Some recs /\ filter (fun r => reloc_type r = 6 /\ r_offset r = addr got + o) recs = [dyn_record (addr got + o) j 6] /\ dynsym_entry w secs n j d.
Proof.
  intros wd lo l fuel w secs es evs x q off n G L Hnn (H1 & H2 & H3 & H4 & H5) Hn (B1 & B2 & B3 & B4 & B5).
  exact (got_rel G L Hnn x q off n H1 H2 H3 H4 H5 Hn B1 B2 B3 B4 B5).
Qed.
Print Assumptions C66_got.

(** An absolute or pc-relative relocation against a library's object: the
    field holds the value for the storage this file has for the object, which
    has exactly one COPY record. Missing: functions, see [C66_refuted]. *)
Theorem C66_copy_partial : forall wd lo l fuel w secs es evs x q off n, good_link wd lo l fuel w secs -> loading wd lo l fuel es evs -> no_nuls es ->
  rel_site es x q off -> rel_against es q n -> left_to_libraries es q n -> rel_type (ri_rel q) ∈ direct ->
  exists s j d, the_sec w secs (si_name x) s /\ dynsym_entry w secs n j d /\
    field_is s (field_off off q) (rel_type (ri_rel q)) (Z.of_N (st_value d)) (rel_addend q) None None /\
    (typ d = 1 -> exists cr rdy recs, the_sec w secs ".copyrel" cr /\ the_sec w secs ".rela.dyn" rdy /\ rd_relas (contents rdy) = Some recs /\
       filter (fun r => reloc_type r = 5 /\ reloc_sym r = j) recs = [dyn_record (st_value d) j 5] /\
       addr cr <= st_value d /\ st_value d + st_size d <= addr cr + memsz cr).
Proof.
  intros wd lo l fuel w secs es evs x q off n G L Hnn (H1 & H2 & H3 & H4 & H5) Hn (B1 & B2 & B3 & B4 & B5) Hty.
  destruct (copied_rel G L Hnn x q off n H1 H2 H3 H4 H5 Hn B1 B2 B3 B4 B5 Hty) as (s & j & d & Hs & Hd & Hf). exists s, j, d. split; [exact Hs|]. split; [exact Hd|]. split; [exact Hf|].
  intros Ht. destruct (good_copy G) as (cr & rdy & ds & recs & C1 & C2 & C3 & C4 & C5 & _). exists cr, rdy, recs. split; [exact C1|]. split; [exact C2|]. split; [exact C4|].
  destruct Hd as (ds' & sd & D1 & _ & D2 & _). assert (ds' = ds) as -> by (eapply the_one; [exact C3|exact D1]). exact (C5 j d D2 Ht).
Qed.
Print Assumptions C66_copy_partial.

(** ** A link with all of these *)
Local Instance insn_eq_dec : EqDecision insn.
Proof. solve_decision. Defined.
Definition mix_main : elf_obj := demo_obj
  [progbits ".text" 6 16 [0xe8; 0; 0; 0; 0; 0xe8; 0; 0; 0; 0; 0x48; 0x8b; 0x05; 0; 0; 0; 0; 0x48; 0x8b; 0x05; 0; 0; 0; 0; 0x48; 0x8d; 0x05; 0; 0; 0; 0; 0xc3]; relasec ".rela.text";
   progbits ".data" 3 8 (zeros 24); relasec ".rela.data"; progbits ".rodata" 2 1 [7; 7; 7]]
  [("_start", dsym 0x12 1 0 31); ("f", dsym 0x12 1 31 1); ("foo", dsym 0x10 0 0 0); ("loc", dsym 0x11 3 16 8); ("bar", dsym 0x10 0 0 0); ("qux", dsym 0x10 0 0 0); ("", dsym 0x03 5 0 0)]
  [(2, [mkGreloc 1 (Some (-4)%Z) 2 4; mkGreloc 6 (Some (-4)%Z) 3 4; mkGreloc 13 (Some (-4)%Z) 4 42; mkGreloc 20 (Some (-4)%Z) 5 42; mkGreloc 27 (Some (-3)%Z) 7 2]);
   (4, [mkGreloc 0 (Some 4%Z) 6 1; mkGreloc 8 (Some 0%Z) 3 1; mkGreloc 16 (Some 2%Z) 4 1])].
Definition mix_extra : elf_obj := demo_obj [progbits ".rodata" 2 1 [1; 2]] [] [].
Definition mix_files : list (string * elf_obj) := [("b.o", mix_extra); ("a.o", mix_main); ("/l/libduo.so", duo_lib)].
Definition mix_objs : list (string * elf_obj) := [("b.o", mix_extra); ("a.o", mix_main)].
Definition mix_wd : world := demo_world mix_files [].
Definition mix_l : linker := demo_linker ["b.o"; "a.o"] ["/l/libduo.so"].
Definition mix_links (w : writer) (secs : list section) (evs : list event) : Prop :=
  good_link mix_wd demo_lib_oracle mix_l 10 w secs /\ loading mix_wd demo_lib_oracle mix_l 10 mix_objs evs.
Lemma mix_check f : demo_check mix_files ["b.o"; "a.o"] ["/l/libduo.so"] (fun w secs => good_b w secs && f w secs) = true -> exists w secs evs, mix_links w secs evs /\ f w secs = true.
Proof.
  intros H. destruct (good_demo mix_files ["b.o"; "a.o"] ["/l/libduo.so"] f) as (w & secs & evs & G & L & E); [exact H|vm_compute; reflexivity|vm_compute; reflexivity|].
  exists w, secs, evs. split; [split; [exact G|exact L]|exact E].
Qed.

(** Deciding the hypotheses. *)
Definition about_b (x : sec_in) (q : rel_in) : bool := (ri_obj q =? si_obj x)%nat && (N.to_nat (ri_idx q - 1) =? si_idx x)%nat.
Lemma about_b_spec x q : about_b x q = true <-> SpecMerge.about x q.
Proof. unfold about_b, SpecMerge.about. rewrite andb_true_iff, !Nat.eqb_eq. done. Qed.
Definition lone_b (B : sec_in -> rel_in -> bool) (rels : list rel_in) (x : sec_in) (q : rel_in) (k : nat) : bool :=
  B x q && forallb (fun q' => if B x q' then ((rel_span (ri_rel q')).2 <=? (rel_span (ri_rel q)).1) || ((rel_span (ri_rel q)).2 <=? (rel_span (ri_rel q')).1) else true) (take k rels ++ drop (S k) rels).
Lemma lone_intro (A : sec_in -> rel_in -> Prop) B es x q k : (forall q', B x q' = true <-> A x q') -> all_rels es !! k = Some q -> lone_b B (all_rels es) x q k = true -> lone_by A es x q.
Proof.
  intros HB Hk H. unfold lone_b in H. apply andb_true_iff in H as [H1 H2]. split; [by apply HB|]. exists (take k (all_rels es)), (drop (S k) (all_rels es)). split; [symmetry; by apply take_drop_middle|].
  intros q' Hq' Ha. rewrite forallb_forall in H2. apply elem_of_list_In in Hq'. specialize (H2 q' Hq'). cbv beta in H2. apply HB in Ha. rewrite Ha in H2. apply orb_true_iff in H2. rewrite !N.leb_le in H2. exact H2.
Qed.
Definition site_b (es : list (string * elf_obj)) (x : sec_in) (q : rel_in) (k j : nat) (off : N) : bool :=
  negb (String.eqb (si_name x) "") && match si_data x with Some _ => true | None => false end && lone_b about_b (all_rels es) x q k &&
  match contribs (si_name x) (all_secs es) !! j with Some y => bool_decide (sec_key y = sec_key x) | None => false end && (off =? ntotal (si_size <$> take j (contribs (si_name x) (all_secs es)))).
Lemma site_intro es i k j x q off : all_secs es !! i = Some x -> all_rels es !! k = Some q -> site_b es x q k j off = true -> rel_site es x q off.
Proof.
  intros Hi Hk H. unfold site_b in H. rewrite !andb_true_iff, negb_true_iff, String.eqb_neq in H. destruct H as [[[[H1 H2] H3] H4] H5]. apply elem_of_list_lookup_2 in Hi.
  split; [exact Hi|]. split; [exact H1|]. split; [by destruct (si_data x)|]. split; [eapply lone_intro; [intros; apply about_b_spec|exact Hk|exact H3]|].
  exists j. apply N.eqb_eq in H5. split; [|exact H5]. destruct (contribs (si_name x) (all_secs es) !! j) as [y|] eqn:Ey; [|discriminate H4]. apply bool_decide_eq_true_1 in H4. unfold sec_key in H4. injection H4 as E1 E2.
  f_equal. apply elem_of_list_lookup_2, elem_contribs in Ey as [_ Ey]. eapply all_secs_same; [exact Ey|exact Hi|exact E1|exact E2].
Qed.
Definition against_b (es : list (string * elf_obj)) (q : rel_in) (n : string) : bool :=
  match es !! ri_obj q with Some (_, e) => bool_decide (eo_strtab e (st_name (ri_sym q)) = Some n) && negb (typ (ri_sym q) =? 3) | None => false end.
Lemma against_intro es q n : against_b es q n = true -> rel_against es q n.
Proof.
  unfold against_b, rel_against. destruct (es !! ri_obj q) as [[p e]|]; [|discriminate]. rewrite andb_true_iff, negb_true_iff, N.eqb_neq. intros [H1 H2]. apply bool_decide_eq_true_1 in H1. eauto.
Qed.
Definition left_b (es : list (string * elf_obj)) (q : rel_in) (n : string) : bool :=
  negb (String.eqb n "") && forallb (fun y => bool_decide (is_Some (strength (binding (yi_sym y)))) && (st_shndx (yi_sym y) =? 0)) (named n (all_syms es)) && negb (binding (ri_sym q) =? 0) &&
  forallb (fun x => if String.eqb (si_name x) "" then true else forallb (fun y => negb (lies_b x y)) (named n (all_syms es))) (all_secs es) && forallb (fun m => negb (String.eqb n m)) linker_names.
Lemma left_intro es q n : left_b es q n = true -> left_to_libraries es q n.
Proof.
  unfold left_b. rewrite !andb_true_iff, !forallb_forall, !negb_true_iff, String.eqb_neq, N.eqb_neq. intros [[[[H1 H2] H3] H4] H5].
  assert (K : forall y, y ∈ named n (all_syms es) -> standard (yi_sym y) /\ st_shndx (yi_sym y) = 0).
  { intros y Hy. apply elem_of_list_In in Hy. specialize (H2 y Hy). cbv beta in H2. apply andb_true_iff in H2 as [A B]. split; [exact (bool_decide_eq_true_1 _ A)|by apply N.eqb_eq]. }
  assert (N : n ∉ linker_names). { intros H. apply elem_of_list_In in H. specialize (H5 n H). cbv beta in H5. rewrite String.eqb_refl in H5. discriminate H5. }
  split; [exact H1|]. split; [intros y Hy; apply K; exact Hy|]. split; [exact H3|]. split.
  - intros (y & Hy & [Hd|(x & Hx & Hxn & Hl)]); [apply Hd; apply K; exact Hy|]. apply elem_of_list_In in Hx, Hy. specialize (H4 x Hx). cbv beta in H4. apply String.eqb_neq in Hxn. rewrite Hxn in H4. rewrite forallb_forall in H4. specialize (H4 y Hy). cbv beta in H4. apply lies_b_spec in Hl. rewrite Hl in H4. discriminate H4.
  - intros [-> |(a & st & en & Ha & Hn & _)]; [apply N; apply (bool_decide_unpack _); vm_compute; exact I|].
    apply array_marks_kind in Ha as ([] & _ & -> & ->); cbn in Hn; rewrite !elem_of_cons, elem_of_nil in Hn; destruct Hn as [-> |[-> |[]]]; apply N; apply (bool_decide_unpack _); vm_compute; exact I.
Qed.
Definition unlisted_b (e : elf_obj) (n : string) : bool := forallb (fun d => negb (bool_decide (eo_dynstr e (st_name d) = Some n))) (eo_dynsyms e).
Lemma mix_unlisted n : unlisted_b duo_lib n = true -> forall d, ~ library_lists mix_wd mix_l n d.
Proof.
  intros H d (path & e & [Hp He] & Hd & Hn). apply elem_of_list_singleton in Hp as ->. apply (inj Some), (inj Some) in He as <-. unfold unlisted_b in H. rewrite forallb_forall in H. apply elem_of_list_In in Hd. specialize (H d Hd). cbv beta in H.
  rewrite bool_decide_true in H by exact Hn. discriminate H.
Qed.
Lemma mix_no_nuls : no_nuls mix_objs.
Proof. apply no_nul_intro. vm_compute. reflexivity. Qed.
(** Bytes of the section of that name. *)
Definition reads_b (w : writer) (secs : list section) (n : string) (f : section -> bool) : bool := any secs (fun s => if bool_decide (sec_name w s = Some n) then f s else false).
Lemma reads_intro w secs n f s : reads_b w secs n f = true -> the_sec w secs n s -> f s = true.
Proof. unfold reads_b. intros H (H1 & H2 & H3). apply any_spec in H as (s' & Hs' & H). case_bool_decide as Hn; [|discriminate H]. by rewrite <- (H3 s' Hs' Hn). Qed.

Definition case_b (i k j : nat) (off : N) (sec n : string) (ty at_ : N) : bool :=
  match all_secs mix_objs !! i, all_rels mix_objs !! k with
  | Some x, Some q => site_b mix_objs x q k j off && String.eqb (si_name x) sec && against_b mix_objs q n && (rel_type (ri_rel q) =? ty) && (gr_offset (ri_rel q) =? at_)
  | _, _ => false
  end.
Lemma case_intro i k j off sec n ty at_ : case_b i k j off sec n ty at_ = true -> exists x q, si_name x = sec /\ rel_type (ri_rel q) = ty /\ gr_offset (ri_rel q) = at_ /\
  rel_site mix_objs x q off /\ rel_against mix_objs q n /\ all_rels mix_objs !! k = Some q.
Proof.
  unfold case_b. destruct (all_secs mix_objs !! i) as [x|] eqn:Hx; [|discriminate]. destruct (all_rels mix_objs !! k) as [q|] eqn:Hq; [|discriminate]. rewrite !andb_true_iff, String.eqb_eq, !N.eqb_eq.
  intros [[[[H1 H2] H3] H4] H5]. exists x, q. split; [exact H2|]. split; [exact H4|]. split; [exact H5|]. split; [eapply site_intro; [exact Hx|exact Hq|exact H1]|]. split; [by apply against_intro|reflexivity].
Qed.
Definition left_at_b (k : nat) (n : string) : bool := match all_rels mix_objs !! k with Some q => left_b mix_objs q n | None => false end.
Lemma left_at_intro k n q : left_at_b k n = true -> all_rels mix_objs !! k = Some q -> left_to_libraries mix_objs q n.
Proof. unfold left_at_b. intros H E. rewrite E in H. by apply left_intro. Qed.

(** The call of [f], 26 bytes ahead of the next instruction. *)
Example C66_near_case : exists w secs evs x q s sym, mix_links w secs evs /\ rel_site mix_objs x q 0 /\ rel_against mix_objs q "f" /\ (forall d, ~ library_lists mix_wd mix_l "f" d) /\ rel_type (ri_rel q) = 4 /\
  the_sec w secs ".text" s /\ symtab_entry w secs "f" sym /\ rd 4 (contents s) 1 = Some 26.
Proof.
  destruct (mix_check (fun w secs => reads_b w secs ".text" (fun s => bool_decide (rd 4 (contents s) 1 = Some 26)))) as (w & secs & evs & [G L] & E); [vm_compute; reflexivity|].
  destruct (case_intro 3 0 0 0 ".text" "f" 4 1) as (x & q & Hx & Ht & _ & Hs & Hn & _); [vm_compute; reflexivity|].
  assert (Hu : forall d, ~ library_lists mix_wd mix_l "f" d) by (apply mix_unlisted; vm_compute; reflexivity).
  destruct (C66_near _ _ _ _ _ _ _ _ x q 0 "f" G L mix_no_nuls Hs Hn (or_introl Hu) (or_introl Ht)) as (s & sym & H1 & H2 & _). rewrite Hx in H1. pose proof (reads_intro _ _ _ _ _ E H1) as Er. apply bool_decide_eq_true_1 in Er.
  exists w, secs, evs, x, q, s, sym. split; [split; [exact G|exact L]|]. split; [exact Hs|]. split; [exact Hn|]. split; [exact Hu|]. split; [exact Ht|]. split; [exact H1|]. split; [exact H2|exact Er].
Qed.
(** The word for [loc + 2] in .data. *)
Example C66_defined_case : exists w secs evs x q s sym, mix_links w secs evs /\ rel_site mix_objs x q 0 /\ rel_against mix_objs q "loc" /\ rel_type (ri_rel q) = 1 /\
  the_sec w secs ".data" s /\ symtab_entry w secs "loc" sym /\ rd 8 (contents s) 16 = Some (addr s + 16 + 2).
Proof.
  destruct (mix_check (fun w secs => reads_b w secs ".data" (fun s => bool_decide (rd 8 (contents s) 16 = Some (addr s + 16 + 2))))) as (w & secs & evs & [G L] & E); [vm_compute; reflexivity|].
  destruct (case_intro 4 7 0 0 ".data" "loc" 1 16) as (x & q & Hx & Ht & _ & Hs & Hn & _); [vm_compute; reflexivity|].
  destruct (C66_defined _ _ _ _ _ _ _ _ x q 0 "loc" G L mix_no_nuls Hs Hn) as (s & sym & H1 & H2 & _); [rewrite Ht; by left|]. rewrite Hx in H1. pose proof (reads_intro _ _ _ _ _ E H1) as Er. apply bool_decide_eq_true_1 in Er.
  exists w, secs, evs, x, q, s, sym. split; [split; [exact G|exact L]|]. split; [exact Hs|]. split; [exact Hn|]. split; [exact Ht|]. split; [exact H1|]. split; [exact H2|exact Er].
Qed.
(** The load of [loc]: rax gets its address. *)
Example C66_lea_case : exists w secs evs x q s d, mix_links w secs evs /\ rel_site mix_objs x q 0 /\ rel_against mix_objs q "loc" /\ (forall d, ~ library_lists mix_wd mix_l "loc" d) /\ rel_type (ri_rel q) = 42 /\
  the_sec w secs ".text" s /\ the_sec w secs ".data" d /\ SpecReloc.decode_at (Z.of_N (addr s)) (contents s) 10 = Some (Lea 0 (Z.of_N (addr d + 16)), 7).
Proof.
  destruct (mix_check (fun w secs => reads_b w secs ".text" (fun s => reads_b w secs ".data" (fun d => bool_decide (SpecReloc.decode_at (Z.of_N (addr s)) (contents s) 10 = Some (Lea 0 (Z.of_N (addr d + 16)), 7)))))) as (w & secs & evs & [G L] & E); [vm_compute; reflexivity|].
  destruct (case_intro 3 2 0 0 ".text" "loc" 42 13) as (x & q & Hx & Ht & _ & Hs & Hn & _); [vm_compute; reflexivity|].
  destruct (case_intro 4 7 0 0 ".data" "loc" 1 16) as (x2 & q2 & Hx2 & Ht2 & _ & Hs2 & Hn2 & _); [vm_compute; reflexivity|].
  assert (Hu : forall d, ~ library_lists mix_wd mix_l "loc" d) by (apply mix_unlisted; vm_compute; reflexivity).
  destruct (C66_lea _ _ _ _ _ _ _ _ x q 0 "loc" G L mix_no_nuls Hs Hn (or_introl Hu) Ht) as (s & sym & reg & ea & H1 & H2 & _).
  destruct (C66_defined _ _ _ _ _ _ _ _ x2 q2 0 "loc" G L mix_no_nuls Hs2 Hn2) as (d & _ & H3 & _); [rewrite Ht2; by left|]. rewrite Hx in H1. rewrite Hx2 in H3.
  pose proof (reads_intro _ _ _ _ _ E H1) as E1. pose proof (reads_intro _ _ _ _ _ E1 H3) as E2. apply bool_decide_eq_true_1 in E2.
  exists w, secs, evs, x, q, s, d. split; [split; [exact G|exact L]|]. split; [exact Hs|]. split; [exact Hn|]. split; [exact Hu|]. split; [exact Ht|]. split; [exact H1|]. split; [exact H3|exact E2].
Qed.
(** The call of [foo] leads to the first entry of the PLT. *)
Example C66_plt_case : exists w secs evs x q s p, mix_links w secs evs /\ rel_site mix_objs x q 0 /\ rel_against mix_objs q "foo" /\ left_to_libraries mix_objs q "foo" /\ rel_type (ri_rel q) = 4 /\
  the_sec w secs ".text" s /\ the_sec w secs ".plt" p /\ SpecReloc.decode_at (Z.of_N (addr s)) (contents s) 5 = Some (CallRel (Z.of_N (addr p + 16)), 5).
Proof.
  destruct (mix_check (fun w secs => reads_b w secs ".text" (fun s => reads_b w secs ".plt" (fun p => bool_decide (SpecReloc.decode_at (Z.of_N (addr s)) (contents s) 5 = Some (CallRel (Z.of_N (addr p + 16)), 5)))))) as (w & secs & evs & [G L] & E); [vm_compute; reflexivity|].
  destruct (case_intro 3 1 0 0 ".text" "foo" 4 6) as (x & q & Hx & Ht & _ & Hs & Hn & Hq); [vm_compute; reflexivity|].
  assert (Hu : left_to_libraries mix_objs q "foo") by (apply (left_at_intro 1); [vm_compute; reflexivity|exact Hq]).
  destruct (C66_plt _ _ _ _ _ _ _ _ x q 0 "foo" G L mix_no_nuls Hs Hn Hu Ht) as (s & p & g & rp & k & i & j & d & H1 & H2 & _). rewrite Hx in H1.
  pose proof (reads_intro _ _ _ _ _ E H1) as E1. pose proof (reads_intro _ _ _ _ _ E1 H2) as E2. apply bool_decide_eq_true_1 in E2.
  exists w, secs, evs, x, q, s, p. split; [split; [exact G|exact L]|]. split; [exact Hs|]. split; [exact Hn|]. split; [exact Hu|]. split; [exact Ht|]. split; [exact H1|]. split; [exact H2|exact E2].
Qed.
(** The load of [bar] reads the third word of the GOT. *)
Example C66_got_case : exists w secs evs x q s g, mix_links w secs evs /\ rel_site mix_objs x q 0 /\ rel_against mix_objs q "bar" /\ left_to_libraries mix_objs q "bar" /\ rel_type (ri_rel q) = 42 /\
  the_sec w secs ".text" s /\ the_sec w secs ".got" g /\ SpecReloc.decode_at (Z.of_N (addr s)) (contents s) 17 = Some (MovLoad 0 (Z.of_N (addr g + 16)), 7).
Proof.
  destruct (mix_check (fun w secs => reads_b w secs ".text" (fun s => reads_b w secs ".got" (fun p => bool_decide (SpecReloc.decode_at (Z.of_N (addr s)) (contents s) 17 = Some (MovLoad 0 (Z.of_N (addr p + 16)), 7)))))) as (w & secs & evs & [G L] & E); [vm_compute; reflexivity|].
  destruct (case_intro 3 3 0 0 ".text" "bar" 42 20) as (x & q & Hx & Ht & _ & Hs & Hn & Hq); [vm_compute; reflexivity|].
  assert (Hu : left_to_libraries mix_objs q "bar") by (apply (left_at_intro 3); [vm_compute; reflexivity|exact Hq]).
  destruct (C66_got _ _ _ _ _ _ _ _ x q 0 "bar" G L mix_no_nuls Hs Hn Hu (or_intror Ht)) as (s & g & rd & recs & o & j & d & H1 & H2 & _). rewrite Hx in H1.
  pose proof (reads_intro _ _ _ _ _ E H1) as E1. pose proof (reads_intro _ _ _ _ _ E1 H2) as E2. apply bool_decide_eq_true_1 in E2.
  exists w, secs, evs, x, q, s, g. split; [split; [exact G|exact L]|]. split; [exact Hs|]. split; [exact Hn|]. split; [exact Hu|]. split; [exact Ht|]. split; [exact H1|]. split; [exact H2|exact E2].
Qed.
(** The word for [qux + 4] in .data: the storage for [qux] is behind that of
    [bar] (24 bytes). *)
Example C66_copy_case : exists w secs evs x q s cr, mix_links w secs evs /\ rel_site mix_objs x q 0 /\ rel_against mix_objs q "qux" /\ left_to_libraries mix_objs q "qux" /\ rel_type (ri_rel q) = 1 /\
  the_sec w secs ".data" s /\ the_sec w secs ".copyrel" cr /\ rd 8 (contents s) 0 = Some (addr cr + 24 + 4).
Proof.
  destruct (mix_check (fun w secs => reads_b w secs ".data" (fun s => reads_b w secs ".copyrel" (fun p => bool_decide (rd 8 (contents s) 0 = Some (addr p + 24 + 4)))))) as (w & secs & evs & [G L] & E); [vm_compute; reflexivity|].
  destruct (case_intro 4 5 0 0 ".data" "qux" 1 0) as (x & q & Hx & Ht & _ & Hs & Hn & Hq); [vm_compute; reflexivity|].
  assert (Hu : left_to_libraries mix_objs q "qux") by (apply (left_at_intro 5); [vm_compute; reflexivity|exact Hq]).
  destruct (C66_copy_partial _ _ _ _ _ _ _ _ x q 0 "qux" G L mix_no_nuls Hs Hn Hu) as (s & j & d & H1 & _); [rewrite Ht; by left|]. rewrite Hx in H1. destruct (good_copy G) as (cr & _ & _ & _ & H2 & _).
  pose proof (reads_intro _ _ _ _ _ E H1) as E1. pose proof (reads_intro _ _ _ _ _ E1 H2) as E2. apply bool_decide_eq_true_1 in E2.
  exists w, secs, evs, x, q, s, cr. split; [split; [exact G|exact L]|]. split; [exact Hs|]. split; [exact Hn|]. split; [exact Hu|]. split; [exact Ht|]. split; [exact H1|]. split; [exact H2|exact E2].
Qed.

(** The word for the address of the library's function [foo] in .data is 0,
    and no dynamic relocation changes it. *)
Theorem C66_refuted : exists wd lo l fuel w secs es evs x q n d s rdy rp recs recs', good_link wd lo l fuel w secs /\ loading wd lo l fuel es evs /\ no_nuls es /\
  rel_site es x q 0 /\ rel_against es q n /\ left_to_libraries es q n /\ rel_type (ri_rel q) = 1 /\ library_lists wd l n d /\ typ d = 2 /\
  the_sec w secs (si_name x) s /\ rd 8 (contents s) (gr_offset (ri_rel q)) = Some 0 /\
  the_sec w secs ".rela.dyn" rdy /\ the_sec w secs ".rela.plt" rp /\ rd_relas (contents rdy) = Some recs /\ rd_relas (contents rp) = Some recs' /\
  forall r, r ∈ recs ++ recs' -> r_offset r + 8 <= addr s \/ addr s + memsz s <= r_offset r.
Proof.
  destruct (mix_check (fun w secs => reads_b w secs ".data" (fun s => bool_decide (rd 8 (contents s) 8 = Some 0) && reads_b w secs ".rela.dyn" (fun rdy => reads_b w secs ".rela.plt" (fun rp =>
    match rd_relas (contents rdy), rd_relas (contents rp) with Some recs, Some recs' => forallb (fun r => (r_offset r + 8 <=? addr s) || (addr s + memsz s <=? r_offset r)) (recs ++ recs') | _, _ => false end))))) as (w & secs & evs & [G L] & E); [vm_compute; reflexivity|].
  destruct (case_intro 4 6 0 0 ".data" "foo" 1 8) as (x & q & Hx & Ht & Ha & Hs & Hn & Hq); [vm_compute; reflexivity|].
  assert (Hu : left_to_libraries mix_objs q "foo") by (apply (left_at_intro 6); [vm_compute; reflexivity|exact Hq]).
  destruct (C66_copy_partial _ _ _ _ _ _ _ _ x q 0 "foo" G L mix_no_nuls Hs Hn Hu) as (s & j & d & H1 & _); [rewrite Ht; by left|]. pose proof H1 as H1'. rewrite Hx in H1'.
  pose proof (reads_intro _ _ _ _ _ E H1') as E1. apply andb_true_iff in E1 as [E1 E2]. apply bool_decide_eq_true_1 in E1.
  destruct (good_glob_dat G) as (_ & rdy & _ & _ & _ & recs & _ & J1 & _ & _ & _ & J2 & _). destruct (good_jump_slots G) as (_ & _ & rp & _ & _ & _ & recs' & _ & _ & J3 & _ & _ & _ & J4 & _).
  pose proof (reads_intro _ _ _ _ _ E2 J1) as E3. pose proof (reads_intro _ _ _ _ _ E3 J3) as E4. cbv beta in E4. rewrite J2, J4 in E4. rewrite forallb_forall in E4.
  assert (Hl : exists d, eo_dynsyms duo_lib !! 1%nat = Some d /\ eo_dynstr duo_lib (st_name d) = Some "foo" /\ typ d = 2) by (eexists; split; [vm_compute; reflexivity|]; split; vm_compute; reflexivity). destruct Hl as (fd & F1 & F2 & F3).
  exists mix_wd, demo_lib_oracle, mix_l, 10%nat, w, secs, mix_objs, evs, x, q, "foo", fd, s, rdy, rp, recs, recs'. split; [exact G|]. split; [exact L|]. split; [exact mix_no_nuls|]. split; [exact Hs|]. split; [exact Hn|]. split; [exact Hu|]. split; [exact Ht|].
  split. { exists "/l/libduo.so", duo_lib. split; [split; [apply elem_of_list_singleton; reflexivity|reflexivity]|]. split; [eapply elem_of_list_lookup_2; exact F1|exact F2]. }
  split; [exact F3|]. split; [exact H1|]. split; [rewrite Ha; exact E1|]. split; [exact J1|]. split; [exact J3|]. split; [exact J2|]. split; [exact J4|].
  intros r Hr. apply elem_of_list_In in Hr. specialize (E4 r Hr). cbv beta in E4. apply orb_true_iff in E4. rewrite !N.leb_le in E4. exact E4.
Qed.
Print Assumptions C66_refuted.

(** * C67 *)

(** A relocation against a section symbol refers to the contents the same
    object contributes to the output section of that name. Missing: zero-fill
    that follows other zero-fill of the same name, see [C67_refuted]. *)
Theorem C67_partial : forall wd lo l fuel w secs es evs x q off x' off', good_link wd lo l fuel w secs -> loading wd lo l fuel es evs ->
  rel_site es x q off -> x' ∈ all_secs es -> si_name x' <> "" -> rel_section q x' -> offset_of es x' off' -> (si_data x' = None -> off' = 0) ->
  exists s s', the_sec w secs (si_name x) s /\ the_sec w secs (si_name x') s' /\
    (rel_type (ri_rel q) = 4 \/ rel_type (ri_rel q) ∈ direct ->
       field_is s (field_off off q) (near_type (rel_type (ri_rel q))) (Z.of_N (addr s' + off')) (rel_addend q) None None) /\
    (rel_type (ri_rel q) = 42 -> exists reg ea,
       SpecReloc.decode_at (Z.of_N (addr s + off)) (si_bytes x) (gr_offset (ri_rel q) - 3) = Some (MovLoad reg ea, 7) /\
       SpecReloc.decode_at (Z.of_N (addr s)) (contents s) (off + (gr_offset (ri_rel q) - 3)) = Some (Lea reg (Z.of_N (addr s' + off') + rel_addend q + 4), 7)).
Proof.
  intros wd lo l fuel w secs es evs x q off x' off' G L (H1 & H2 & H3 & H4 & H5) Hx' Hn' Hr Ho' Hz.
  destruct (good_sec_rel G L x q off x' off' H1 H2 H3 H4 H5 Hx' Hn' Hr Ho') as (s & s' & A1 & _ & A2 & A3). exists s, s'. split; [exact A1|]. split; [exact A2|].
  pose proof (good_kind G L x' s' Hn' Hx' A2) as K. destruct (is_nobits s'); [rewrite (Hz K)|]; exact A3.
Qed.
Print Assumptions C67_partial.

(** The reference to .rodata of the second object, which starts 2 bytes into
    the output section (addend: one byte further, minus 4). *)
Definition sec_case_b (es : list (string * elf_obj)) (i k j : nat) (off : N) (sec : string) (i' j' : nat) (off' : N) (sec' : string) (ty : N) : bool :=
  match all_secs es !! i, all_rels es !! k, all_secs es !! i' with
  | Some x, Some q, Some x' => site_b es x q k j off && String.eqb (si_name x) sec && (rel_type (ri_rel q) =? ty) && String.eqb (si_name x') sec' &&
      bool_decide (typ (ri_sym q) = 3 /\ si_obj x' = ri_obj q /\ N.of_nat (si_idx x') = st_shndx (ri_sym q) /\ st_shndx (ri_sym q) <> 0xfff1) &&
      match contribs sec' (all_secs es) !! j' with Some y => bool_decide (sec_key y = sec_key x') | None => false end && (off' =? ntotal (si_size <$> take j' (contribs sec' (all_secs es))))
  | _, _, _ => false
  end.
Lemma sec_case_intro es i k j off sec i' j' off' sec' ty : sec_case_b es i k j off sec i' j' off' sec' ty = true -> exists x q x', si_name x = sec /\ rel_type (ri_rel q) = ty /\ si_name x' = sec' /\
  rel_site es x q off /\ x' ∈ all_secs es /\ rel_section q x' /\ offset_of es x' off' /\ all_secs es !! i' = Some x' /\ all_rels es !! k = Some q.
Proof.
  unfold sec_case_b. destruct (all_secs es !! i) as [x|] eqn:Hx; [|discriminate]. destruct (all_rels es !! k) as [q|] eqn:Hq; [|discriminate]. destruct (all_secs es !! i') as [x'|] eqn:Hx'; [|discriminate].
  rewrite !andb_true_iff, !String.eqb_eq, !N.eqb_eq. intros [[[[[[H1 H2] H3] H4] H5] H6] H7]. apply bool_decide_eq_true_1 in H5. exists x, q, x'. split; [exact H2|]. split; [exact H3|]. split; [exact H4|].
  split; [eapply site_intro; [exact Hx|exact Hq|exact H1]|]. pose proof Hx' as Hx2. apply elem_of_list_lookup_2 in Hx2. split; [exact Hx2|]. split; [exact H5|]. split; [|split; reflexivity].
  exists j'. rewrite H4. split; [|exact H7]. destruct (contribs sec' (all_secs es) !! j') as [y|] eqn:Ey; [|discriminate H6]. apply bool_decide_eq_true_1 in H6. unfold sec_key in H6. injection H6 as E1 E2.
  f_equal. apply elem_of_list_lookup_2, elem_contribs in Ey as [_ Ey]. eapply all_secs_same; [exact Ey|exact Hx2|exact E1|exact E2].
Qed.
Example C67_case : exists w secs evs x q x' s s', mix_links w secs evs /\ rel_site mix_objs x q 0 /\ rel_section q x' /\ offset_of mix_objs x' 2 /\ rel_type (ri_rel q) = 2 /\
  the_sec w secs ".text" s /\ the_sec w secs ".rodata" s' /\ SpecReloc.decode_at (Z.of_N (addr s)) (contents s) 24 = Some (Lea 0 (Z.of_N (addr s' + 2 + 1)), 7).
Proof.
  destruct (mix_check (fun w secs => reads_b w secs ".text" (fun s => reads_b w secs ".rodata" (fun d => bool_decide (SpecReloc.decode_at (Z.of_N (addr s)) (contents s) 24 = Some (Lea 0 (Z.of_N (addr d + 2 + 1)), 7)))))) as (w & secs & evs & [G L] & E); [vm_compute; reflexivity|].
  destruct (sec_case_intro mix_objs 3 4 0 0 ".text" 5 1 2 ".rodata" 2) as (x & q & x' & H1 & H2 & H3 & H4 & H5 & H6 & H7 & H8 & _); [vm_compute; reflexivity|].
  destruct (C67_partial _ _ _ _ _ _ _ _ x q 0 x' 2 G L H4 H5) as (s & s' & A1 & A2 & _); [rewrite H3; discriminate|exact H6|exact H7|intros Hd; exfalso; revert H8; assert (K : (si_data <$> all_secs mix_objs !! 5%nat) = Some (Some [7; 7; 7])) by (vm_compute; reflexivity); intros H8; rewrite H8 in K; cbn [fmap option_fmap option_map] in K; rewrite Hd in K; discriminate K|].
  rewrite H1 in A1. rewrite H3 in A2. pose proof (reads_intro _ _ _ _ _ E A1) as E1. pose proof (reads_intro _ _ _ _ _ E1 A2) as E2. apply bool_decide_eq_true_1 in E2.
  exists w, secs, evs, x, q, x', s, s'. split; [split; [exact G|exact L]|]. split; [exact H4|]. split; [exact H6|]. split; [exact H7|]. split; [exact H2|]. split; [exact A1|]. split; [exact A2|exact E2].
Qed.

(** The word for the address of the second object's .bss is that of the first. *)
Definition zf_a : elf_obj := demo_obj [progbits ".text" 6 4 [0xc3]; nobits ".bss" 3 8 16] [("_start", dsym 0x12 1 0 1)] [].
Definition zf_b : elf_obj := demo_obj [progbits ".data" 3 8 (zeros 8); relasec ".rela.data"; nobits ".bss" 3 8 8] [("", dsym 0x03 3 0 0)] [(2, [mkGreloc 0 (Some 0%Z) 1 1])].
Definition zf_files : list (string * elf_obj) := [("a.o", zf_a); ("b.o", zf_b)].
Theorem C67_refuted : exists wd lo l fuel w secs es evs x q off x' off' s s', good_link wd lo l fuel w secs /\ loading wd lo l fuel es evs /\
  rel_site es x q off /\ x' ∈ all_secs es /\ si_name x' <> "" /\ rel_section q x' /\ offset_of es x' off' /\ rel_type (ri_rel q) = 1 /\
  the_sec w secs (si_name x) s /\ the_sec w secs (si_name x') s' /\ ~ field_is s (field_off off q) 1 (Z.of_N (addr s' + off')) (rel_addend q) None None.
Proof.
  destruct (good_demo zf_files ["a.o"; "b.o"] [] (fun w secs => reads_b w secs ".data" (fun s => reads_b w secs ".bss" (fun s' => bool_decide (rd 8 (contents s) 0 <> Some (wrap 8 (Z.of_N (addr s' + 16)))))))) as (w & secs & evs & G & L & E); [vm_compute; reflexivity..|].
  change (cmd_objs (demo_world zf_files []) (demo_linker ["a.o"; "b.o"] [])) with zf_files in L.
  destruct (sec_case_intro zf_files 4 0 0 0 ".data" 5 1 16 ".bss" 1) as (x & q & x' & H1 & H2 & H3 & H4 & H5 & H6 & H7 & _ & H8); [vm_compute; reflexivity|].
  pose proof H4 as (K1 & K2 & K3 & K4 & K5). assert (Hn' : si_name x' <> "") by (rewrite H3; discriminate).
  destruct (good_sec_rel G L x q 0 x' 16 K1 K2 K3 K4 K5 H5 Hn' H6 H7) as (s & s' & A1 & _ & A2 & _).
  exists (demo_world zf_files []), demo_lib_oracle, (demo_linker ["a.o"; "b.o"] []), 10%nat, w, secs, zf_files, evs, x, q, 0, x', 16, s, s'. split; [exact G|]. split; [exact L|]. split; [exact H4|]. split; [exact H5|]. split; [exact Hn'|].
  split; [exact H6|]. split; [exact H7|]. split; [exact H2|]. split; [exact A1|]. split; [exact A2|]. rewrite H1 in A1. rewrite H3 in A2.
  pose proof (reads_intro _ _ _ _ _ E A1) as E1. pose proof (reads_intro _ _ _ _ _ E1 A2) as E2. apply bool_decide_eq_true_1 in E2. clear E E1.
  vm_compute in H8. apply (inj Some) in H8. subst q. intros (wd' & v & Hp & Hr). cbn [psabi] in Hp. apply (inj Some) in Hp. injection Hp as <- <-. apply E2. unfold field_off in Hr. cbn [ri_rel gr_offset] in Hr. etransitivity; [exact Hr|]. unfold rel_addend. cbn [ri_rel gr_addend default from_option id]. unfold id. rewrite Z.add_0_r. reflexivity.
Qed.
Print Assumptions C67_refuted.

(** * C59 *)

(** If every relocation section follows the section it names, relocations
    change that section only, and there they fill in their field (here for the
    types of [C66_defined]). Missing: other orders, see [C59_refuted]. *)
Theorem C59_partial : forall wd lo l fuel w secs es evs, good_link wd lo l fuel w secs -> loading wd lo l fuel es evs -> no_nuls es -> adjacent es ->
  (forall n, n <> "" -> contribs n (all_secs es) <> [] -> exists s, the_sec w secs n s /\
     (is_nobits s = false -> exists ds, contents s = concat ds /\ Forall2 (built_by (aimed es) (all_rels es)) (contribs n (all_secs es)) ds)) /\
  (forall x q off n, x ∈ all_secs es -> si_name x <> "" -> si_data x <> None -> lone_by (aimed es) es x q -> offset_of es x off ->
     rel_against es q n -> rel_type (ri_rel q) ∈ direct ->
     exists s sym, the_sec w secs (si_name x) s /\ symtab_entry w secs n sym /\
       (st_shndx sym <> 0 -> field_is s (field_off off q) (rel_type (ri_rel q)) (Z.of_N (st_value sym)) (rel_addend q) None None)).
Proof.
  intros wd lo l fuel w secs es evs G L Hnn Ha.
  assert (K : forall x q, q ∈ all_rels es -> SpecMerge.about x q <-> aimed es x q).
  { intros x q Hq. destruct (Ha q Hq) as (Hp & p & e & sh & He & Hsh & Hi). split.
    - intros [A1 A2]. exists p, e, sh. split; [exact He|]. split; [exact Hsh|]. split; [done|]. rewrite Hi, <- A2. apply N2Nat.id.
    - intros (p' & e' & sh' & He' & Hsh' & A1 & A2). rewrite He in He'. injection He' as <- <-. rewrite Hsh in Hsh'. injection Hsh' as <-. split; [done|]. rewrite <- Hi, <- A2. apply Nat2N.id. }
  split.
  - intros n Hn Hc. destruct (C40_partial _ _ _ _ _ _ _ _ n G L Hn Hc) as (s & Hs & _ & _ & _ & H). exists s. split; [exact Hs|]. intros Hb. rewrite Hb in H. destruct H as (ds & Hd & HF). exists ds. split; [exact Hd|].
    eapply Forall2_impl; [exact HF|]. intros x d [B1 B2]. split; [exact B1|]. intros k Hk. apply B2. intros r Hr Hab. apply Hk; [exact Hr|by apply K].
  - intros x q off n H1 H2 H3 (A1 & pre & post & E & Hal) H5. apply (C66_defined _ _ _ _ _ _ _ _ x q off n G L Hnn). split_and!; try assumption.
    assert (Hin : forall q', q' ∈ pre ++ post -> q' ∈ all_rels es) by (intros q' Hq'; rewrite E; apply elem_of_app in Hq' as [?|?]; apply elem_of_app; [by left|right; by right]).
    split; [apply K; [rewrite E; apply elem_of_app; right; by left|exact A1]|]. exists pre, post. split; [exact E|]. intros q' Hq' Hab. apply Hal; [exact Hq'|apply K; [by apply Hin|exact Hab]].
Qed.
Print Assumptions C59_partial.

(** [demo_obj] leaves [sh_info] zero. *)
Definition with_info (i : nat) (v : N) (e : elf_obj) : elf_obj :=
  mkElfObj (eo_is_object e) (eo_data e) (alter (fun h : Shdr => h <| sh_info := v |>) i (eo_shdrs e)) (eo_shstr e) (eo_syms e) (eo_strtab e) (eo_dynsyms e) (eo_dynstr e) (eo_relocs e).

(** An object whose relocation section comes last but names the first section:
    the relocation is applied to .data, and .text stays as it was. *)
Definition far_a : elf_obj :=
  with_info 3 1 (demo_obj [progbits ".text" 6 4 [0xe8; 0; 0; 0; 0; 0xc3]; progbits ".data" 3 8 [1; 2; 3; 4; 5; 6; 7; 8]; relasec ".rela.text"] [("_start", dsym 0x12 1 0 6); ("f", dsym 0x12 1 5 1)] [(3, [mkGreloc 1 (Some (-4)%Z) 2 2])]).
Definition far_files : list (string * elf_obj) := [("a.o", far_a)].
Theorem C59_refuted : exists wd lo l fuel w secs es evs x x' q s s', good_link wd lo l fuel w secs /\ loading wd lo l fuel es evs /\ no_nuls es /\
  all_rels es = [q] /\ aimed es x q /\ x' ∈ all_secs es /\ ~ aimed es x' q /\
  the_sec w secs (si_name x) s /\ contents s = si_bytes x /\ the_sec w secs (si_name x') s' /\ contents s' <> si_bytes x' /\
  forall y, y ∈ all_secs es -> si_name y = si_name x' -> y = x'.
Proof.
  destruct (good_demo far_files ["a.o"] [] (fun w secs => reads_b w secs ".text" (fun s => bool_decide (contents s = [0xe8; 0; 0; 0; 0; 0xc3])) && reads_b w secs ".data" (fun s => bool_decide (contents s <> [1; 2; 3; 4; 5; 6; 7; 8])))) as (w & secs & evs & G & L & E); [vm_compute; reflexivity..|].
  change (cmd_objs (demo_world far_files []) (demo_linker ["a.o"] [])) with far_files in L. apply andb_true_iff in E as [E1 E2].
  assert (Hx : exists x, all_secs far_files !! 1%nat = Some x /\ si_name x = ".text" /\ si_bytes x = [0xe8; 0; 0; 0; 0; 0xc3] /\ si_obj x = 0%nat /\ si_idx x = 1%nat) by (eexists; split; [vm_compute; reflexivity|]; split_and!; vm_compute; reflexivity).
  assert (Hx' : exists x, all_secs far_files !! 2%nat = Some x /\ si_name x = ".data" /\ si_bytes x = [1; 2; 3; 4; 5; 6; 7; 8] /\ si_obj x = 0%nat /\ si_idx x = 2%nat) by (eexists; split; [vm_compute; reflexivity|]; split_and!; vm_compute; reflexivity).
  assert (Hq : exists q, all_rels far_files = [q] /\ ri_obj q = 0%nat /\ ri_idx q = 3) by (eexists; split; [vm_compute; reflexivity|]; split; vm_compute; reflexivity).
  assert (Hsh : exists sh, eo_shdrs far_a !! 3%nat = Some sh /\ sh_info sh = 1) by (eexists; split; vm_compute; reflexivity).
  destruct Hx as (x & X1 & X2 & X3 & X4 & X5), Hx' as (x' & Y1 & Y2 & Y3 & Y4 & Y5), Hq as (q & Q1 & Q2 & Q3), Hsh as (sh & S1 & S2).
  pose proof (elem_of_list_lookup_2 _ _ _ X1) as Xin. pose proof (elem_of_list_lookup_2 _ _ _ Y1) as Yin.
  assert (T : forall y, y ∈ all_secs far_files -> si_name y <> "" -> exists s, the_sec w secs (si_name y) s).
  { intros y Hy Hn. destruct (C40_partial _ _ _ _ _ _ _ _ (si_name y) G L Hn) as (s & Hs & _); [|by exists s]. intros Ec. assert (Hc : y ∈ contribs (si_name y) (all_secs far_files)) by (by apply elem_contribs). rewrite Ec in Hc. by apply elem_of_nil in Hc. }
  destruct (T x Xin) as [s Hs]; [rewrite X2; discriminate|]. destruct (T x' Yin) as [s' Hs']; [rewrite Y2; discriminate|].
  pose proof Hs as Hs2. rewrite X2 in Hs2. pose proof Hs' as Hs2'. rewrite Y2 in Hs2'. pose proof (reads_intro _ _ _ _ _ E1 Hs2) as F1. pose proof (reads_intro _ _ _ _ _ E2 Hs2') as F2. apply bool_decide_eq_true_1 in F1, F2.
  exists (demo_world far_files []), demo_lib_oracle, (demo_linker ["a.o"] []), 10%nat, w, secs, far_files, evs, x, x', q, s, s'. split; [exact G|]. split; [exact L|]. split; [apply no_nul_intro; vm_compute; reflexivity|]. split; [exact Q1|].
  assert (He : far_files !! ri_obj q = Some ("a.o", far_a)) by (rewrite Q2; reflexivity).
  split. { exists "a.o", far_a, sh. split; [exact He|]. split; [rewrite Q3; exact S1|]. split; [congruence|]. rewrite X5, S2. reflexivity. }
  split; [exact Yin|]. split. { intros (p & e & sh' & He' & Hsh' & _ & Hi). rewrite He in He'. injection He' as <- <-. rewrite Q3 in Hsh'. change (N.to_nat 3) with 3%nat in Hsh'. rewrite S1 in Hsh'. injection Hsh' as <-. rewrite Y5, S2 in Hi. discriminate Hi. }
  split; [exact Hs|]. split; [rewrite F1, X3; reflexivity|]. split; [exact Hs'|]. split; [rewrite Y3; exact F2|].
  intros y Hy Hn. assert (C : exists z, contribs ".data" (all_secs far_files) = [z]) by (eexists; vm_compute; reflexivity). destruct C as [z C].
  assert (A1 : y ∈ contribs ".data" (all_secs far_files)) by (apply elem_contribs; split; [congruence|exact Hy]). assert (A2 : x' ∈ contribs ".data" (all_secs far_files)) by (apply elem_contribs; split; [exact Y2|exact Yin]).
  rewrite C in A1, A2. apply elem_of_list_singleton in A1, A2. congruence.
Qed.
Print Assumptions C59_refuted.

(** The usual order, with the [sh_info] compilers write. *)
Definition near_a : elf_obj := with_info 4 3 (with_info 2 1 mix_main).
Definition near_files : list (string * elf_obj) := [("a.o", near_a); ("/l/libduo.so", duo_lib)].
Example C59_case : exists w secs evs, good_link (demo_world near_files []) demo_lib_oracle (demo_linker ["a.o"] ["/l/libduo.so"]) 10 w secs /\
  loading (demo_world near_files []) demo_lib_oracle (demo_linker ["a.o"] ["/l/libduo.so"]) 10 [("a.o", near_a)] evs /\ no_nuls [("a.o", near_a)] /\ adjacent [("a.o", near_a)] /\ length (all_rels [("a.o", near_a)]) = 8%nat.
Proof.
  destruct (good_demo near_files ["a.o"] ["/l/libduo.so"] (fun _ _ => true)) as (w & secs & evs & G & L & _); [vm_compute; reflexivity..|].
  change (cmd_objs (demo_world near_files []) (demo_linker ["a.o"] ["/l/libduo.so"])) with [("a.o", near_a)] in L. exists w, secs, evs. split; [exact G|]. split; [exact L|]. split; [apply no_nul_intro; vm_compute; reflexivity|]. split; [|vm_compute; reflexivity].
  assert (K : forallb (fun q => (0 <? ri_idx q) && (ri_obj q =? 0)%nat && match eo_shdrs near_a !! N.to_nat (ri_idx q) with Some sh => sh_info sh =? ri_idx q - 1 | None => false end) (all_rels [("a.o", near_a)]) = true) by (vm_compute; reflexivity).
  intros q Hq. rewrite forallb_forall in K. apply elem_of_list_In in Hq. specialize (K q Hq). cbv beta in K. rewrite !andb_true_iff, N.ltb_lt, Nat.eqb_eq in K. destruct K as [[K1 K2] K3]. split; [exact K1|].
  destruct (eo_shdrs near_a !! N.to_nat (ri_idx q)) as [sh|] eqn:Es; [|discriminate K3]. apply N.eqb_eq in K3. exists "a.o", near_a, sh. rewrite K2. split; [reflexivity|]. split; [exact Es|exact K3].
Qed.
