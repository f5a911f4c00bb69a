(** Where a link of sound inputs can crash. *)
From Verif Require Import SpecCrash ProofCrash DemoLink PropTotal PropResolve PropScan.

Lemma read_of_input wd l r rel0 rel : read_from wd l rel0 -> came (rel0, r) (rel, r) -> of_input wd l rel.
Proof.
  intros (e & idx & rels & g & H1 & H2 & H3 & H4 & ->) (_ & C1 & C2 & C3). exists e, idx, rels, g. split; [exact H1|]. split; [exact H2|]. split; [exact H3|]. split; [exact H4|]. split; [exact C1|]. split; [exact C2|].
  cbn [fst r_info] in C3. assert (E : (u64 (gr_sym g * 2 ^ 32) + gr_type g) mod 2 ^ 32 = gr_type g mod 2 ^ 32).
  { unfold u64, wrap. change (2 ^ 64) with (2 ^ 32 * 2 ^ 32). rewrite N.mul_mod_distr_r by discriminate. rewrite N.add_comm, N.mod_add by discriminate. reflexivity. }
  rewrite E in C3. destruct C3 as [C3|C3]; [left; by rewrite C3|by right].
Qed.

(** * C105 *)

(** A crash is in filling in the PLT, in applying a relocation of an input (to a
    section that got no address, or one that cannot be applied), or in counting
    more program headers than fit the header. Nothing else in the computation
    crashes: scanning, sizes, hash tables, dynamic relocations and entries,
    ordering, layout, the symbols the linker defines, the entry point. *)
Theorem C105_place : forall wd lo l U fuel p, valid_orders lo -> sound_inputs wd l -> names_within wd l U -> room U <= 2 ^ 32 -> truthful wd l -> (11 * (1 + length U) < fuel)%nat ->
  plain_libs wd l -> plain_section_symbols wd l -> short_tables wd lo l fuel -> (link wd lo l fuel).2 = Panic p ->
  exists wr w4, resolve wd lo l fuel = Ok wr /\ laid_out (lo_writer lo) wr w4 /\
    (patch_plt_and_got_plt w4 = Panic p \/ exists w5 w6, patch_plt_and_got_plt w4 = Ok w5 /\ handle_special_symbols w5 = Ok w6 /\
      ((exists s c rel r, s ∈ w_sections w6 /\ c ∈ sc_chunks s /\ (rel, r) ∈ c_relocations c /\ of_input wd l rel /\
          (c_address c = None /\ p = PUnwrap \/
           exists a data sym0 sym, c_address c = Some a /\ length data = length (c_data c) /\ syt_get (w_symtab w6) r = Some sym0 /\ alike sym0 sym /\
             apply_relocation a data rel sym (w_dynsym w6) (sh_addr (hdr_of id_got (w_sections w6))) (sh_addr (hdr_of id_plt (w_sections w6))) = Panic p)) \/
       p = POverflow /\ 2 ^ 16 <= (N.of_nat (length (w_program_headers w4)) mod 2 ^ 16) * 56)).
Proof.
  intros wd lo l U fuel p HO HS HU HR HT HF PL HN HB H. destruct (C105_partial _ _ _ _ _ _ HO HS HU HR HT HF H) as (wr & Er & Ec). destruct (HB _ Er) as [B1 B2].
  destruct (compute_place _ _ _ _ _ _ _ (proj1 HO) HS HU HR PL HN Er B1 B2 Ec) as (w1 & secs & w3 & w4 & E1 & E2 & E3 & E4 & K). exists wr, w4.
  split; [exact Er|]. split; [exists w1, secs, w3; split; [exact E1|]; split; [exact E2|]; split; [exact E3|exact E4]|]. destruct K as [K|(w5 & w6 & E5 & E6 & K)]; [by left|]. right. exists w5, w6. split; [exact E5|]. split; [exact E6|].
  destruct K as [(s & c & rel & r & rel0 & K1 & K2 & K3 & K4 & K5 & K6)|K]; [|right; exact K]. left. exists s, c, rel, r. split; [exact K1|]. split; [exact K2|]. split; [exact K3|]. split; [by eapply read_of_input|exact K6].
Qed.
Print Assumptions C105_place.
(** Inputs without relocations crash the link only in the PLT or by too many
    program headers. *)
Theorem C105_no_relocations_partial : forall wd lo l U fuel p, valid_orders lo -> sound_inputs wd l -> names_within wd l U -> room U <= 2 ^ 32 -> truthful wd l -> (11 * (1 + length U) < fuel)%nat ->
  plain_libs wd l -> plain_section_symbols wd l -> short_tables wd lo l fuel -> no_relocations wd l -> (link wd lo l fuel).2 = Panic p ->
  exists wr w4, resolve wd lo l fuel = Ok wr /\ laid_out (lo_writer lo) wr w4 /\ (patch_plt_and_got_plt w4 = Panic p \/ p = POverflow /\ 1170 < N.of_nat (length (w_program_headers w4))).
Proof.
  intros wd lo l U fuel p HO HS HU HR HT HF PL HN HB NR H. destruct (C105_place _ _ _ _ _ _ HO HS HU HR HT HF PL HN HB H) as (wr & w4 & E1 & E2 & K). exists wr, w4. split; [exact E1|]. split; [exact E2|].
  destruct K as [K|(w5 & w6 & _ & _ & K)]; [by left|]. destruct K as [(s & c & rel & r & _ & _ & _ & (e & idx & rels & g & G1 & G2 & G3 & _) & _)|[-> K]].
  - exfalso. rewrite (NR _ _ _ G1 G2) in G3. by apply elem_of_nil in G3.
  - right. split; [reflexivity|]. pose proof (N.mod_le (N.of_nat (length (w_program_headers w4))) (2 ^ 16) ltac:(discriminate)). lia.
Qed.
Print Assumptions C105_no_relocations_partial.
(** What the theorems ask of the inputs can be checked on one object file. *)
Definition fits_b (e : elf_obj) : bool :=
  forallb (fun s => if st_info s mod 16 =? 3 then (match eo_strtab e (st_name s) with Some n => bool_decide (n = "") | None => true end) else true) (eo_syms e) &&
  match resolve (demo_world [("a.o", e)] []) demo_lib_oracle (demo_linker ["a.o"] []) 45 with Ok w => (stt_total_len (w_shstrtab w) <? 2 ^ 32) && (12 * stt_total_len (w_dynstr w) <? 2 ^ 32) | _ => true end.
Definition world_of (e : elf_obj) : world := demo_world [("a.o", e)] [].
Definition one_object : linker := demo_linker ["a.o"] [].
Lemma only_input e e' : is_input (world_of e) one_object e' -> e' = e.
Proof.
  intros [(p & Hp & He)|(p & ar & m & Hp & _)]; [|exfalso; exact (not_elem_of_nil _ Hp)]. apply elem_of_list_singleton in Hp as ->. change (Some (Some e) = Some (Some e')) in He. injection He as <-. reflexivity.
Qed.
Lemma fits_hyps e : fits_b e = true -> truthful (world_of e) one_object /\ plain_libs (world_of e) one_object /\ plain_section_symbols (world_of e) one_object /\ short_tables (world_of e) demo_lib_oracle one_object 45.
Proof.
  unfold fits_b. rewrite andb_true_iff, forallb_forall. intros [Q R]. split; [intros p ar name m e' Hp; exfalso; exact (not_elem_of_nil _ Hp)|]. split; [intros p e' sym (Hp & _); exfalso; exact (not_elem_of_nil _ Hp)|]. split.
  - intros e' sym name He Hs Ht Hn. apply only_input in He as ->. specialize (Q sym (proj1 (elem_of_list_In _ _) Hs)). cbv beta in Q. rewrite Ht, Hn in Q. exact (bool_decide_eq_true_1 _ Q).
  - intros w E. unfold world_of, one_object in E. rewrite E in R. apply andb_true_iff in R as [Q1 Q2]. apply N.ltb_lt in Q1, Q2. split; [exact Q1|exact Q2].
Qed.
(** The crash of a relocation in debugging information is of the second kind. *)
Example C105_place_case : exists wd lo l U fuel, valid_orders lo /\ sound_inputs wd l /\ names_within wd l U /\ room U <= 2 ^ 32 /\ truthful wd l /\ (11 * (1 + length U) < fuel)%nat /\
  plain_libs wd l /\ plain_section_symbols wd l /\ short_tables wd lo l fuel /\ (link wd lo l fuel).2 = Panic PUnwrap.
Proof.
  exists (world_of C64_obj), demo_lib_oracle, one_object, (demo_names [("a.o", C64_obj)] ["a.o"]), 45%nat. destruct (fits_hyps C64_obj) as (F1 & F2 & F3 & F4); [vm_compute; reflexivity|].
  split; [exact demo_orders|]. split; [apply demo_sound; vm_compute; reflexivity|]. split; [apply demo_within|]. split; [vm_compute; discriminate|].
  split; [exact F1|]. split; [vm_compute; lia|]. split; [exact F2|]. split; [exact F3|]. split; [exact F4|]. vm_compute. reflexivity.
Qed.
(** The same file without that relocation: the link succeeds. *)
Definition C105_obj : elf_obj := demo_obj [progbits ".text" 6 16 [0xc3]; progbits ".debug_info" 0 1 (replicate 8 0)] [("_start", dsym 0x12 1 0 1)] [].
Example C105_no_relocations_case : exists wd lo l U fuel, valid_orders lo /\ sound_inputs wd l /\ names_within wd l U /\ room U <= 2 ^ 32 /\ truthful wd l /\ (11 * (1 + length U) < fuel)%nat /\
  plain_libs wd l /\ plain_section_symbols wd l /\ short_tables wd lo l fuel /\ no_relocations wd l /\ (link wd lo l fuel).2 = Ok tt.
Proof.
  exists (world_of C105_obj), demo_lib_oracle, one_object, (demo_names [("a.o", C105_obj)] ["a.o"]), 45%nat. destruct (fits_hyps C105_obj) as (F1 & F2 & F3 & F4); [vm_compute; reflexivity|].
  split; [exact demo_orders|]. split; [apply demo_sound; vm_compute; reflexivity|]. split; [apply demo_within|]. split; [vm_compute; discriminate|].
  split; [exact F1|]. split; [vm_compute; lia|]. split; [exact F2|]. split; [exact F3|]. split; [exact F4|]. split; [|vm_compute; reflexivity].
  intros e idx rels He Hi. apply only_input in He as ->. exfalso; exact (not_elem_of_nil _ Hi).
Qed.
(** The PLT can be the place: an object with a section .plt of its own, shorter
    than the first PLT entry, and no relocations at all. The linker takes the
    first contents of the section for the PLT it made itself. *)
Definition C105_plt_obj : elf_obj := demo_obj [progbits ".text" 6 16 [0xc3]; progbits ".plt" 6 16 [0xc3]] [("_start", dsym 0x12 1 0 1)] [].
Theorem C105_plt_refuted : exists wd lo l U fuel, valid_orders lo /\ sound_inputs wd l /\ names_within wd l U /\ room U <= 2 ^ 32 /\ truthful wd l /\ (11 * (1 + length U) < fuel)%nat /\
  plain_libs wd l /\ plain_section_symbols wd l /\ short_tables wd lo l fuel /\ no_relocations wd l /\ (link wd lo l fuel).2 = Panic PIndex.
Proof.
  exists (world_of C105_plt_obj), demo_lib_oracle, one_object, (demo_names [("a.o", C105_plt_obj)] ["a.o"]), 45%nat. destruct (fits_hyps C105_plt_obj) as (F1 & F2 & F3 & F4); [vm_compute; reflexivity|].
  split; [exact demo_orders|]. split; [apply demo_sound; vm_compute; reflexivity|]. split; [apply demo_within|]. split; [vm_compute; discriminate|].
  split; [exact F1|]. split; [vm_compute; lia|]. split; [exact F2|]. split; [exact F3|]. split; [exact F4|]. split; [|vm_compute; reflexivity].
  intros e idx rels He Hi. apply only_input in He as ->. exfalso; exact (not_elem_of_nil _ Hi).
Qed.
Print Assumptions C105_plt_refuted.
