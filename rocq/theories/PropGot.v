(** Lazy binding, GOT and copy relocations of whole links (C24-C27). *)
From Verif Require Import ProofBase DemoLink PropLayout PropFile ProofBind.

(** Checking that the demo link is an ordinary one. *)
Local Instance sym_fits_dec s : Decision (sym_fits s).
Proof. unfold sym_fits. apply _. Defined.
Local Instance rela_eq_dec : EqDecision Rela.
Proof. solve_decision. Defined.
Definition good_b (w : writer) (secs : list section) : bool :=
  (stt_total_len (w_shstrtab w) <? 2^32) && (stt_total_len (w_strtab w) <? 2^32) && (stt_total_len (w_dynstr w) <? 2^32) &&
  forallb (fun s => addr s + memsz s <? 2^64) secs &&
  forallb (fun x => bool_decide (sym_fits (s_sym x.2))) (map_to_list (syt_symbols (w_symtab w))) &&
  forallb (fun x => bool_decide (sym_fits (s_sym x.2))) (map_to_list (syt_symbols (w_dynsym w))).
Definition libs_b (files : list (string * elf_obj)) : bool := forallb (fun f => forallb (fun y => negb (typ y =? 3)) (eo_dynsyms f.2)) files.
Lemma libs_plain files objs libs : libs_b files = true -> plain_libs (demo_world files []) (demo_linker objs libs).
Proof.
  unfold libs_b. rewrite forallb_forall. intros H path e sym He Hs. destruct He as [_ He]. simpl in He. destruct (ModelTables.assoc path files) as [e'|] eqn:E; [|discriminate He]. injection He as ->.
  assert (Hin : exists q, List.In (q, e) files).
  { clear -E. induction files as [|[q x] k IH]; [discriminate E|]. simpl in E. destruct (decide _) in E; [injection E as ->; exists q; by left|]. destruct (IH E) as [q' ?]. exists q'. by right. }
  destruct Hin as [q Hin]. specialize (H _ Hin). rewrite forallb_forall in H. apply elem_of_list_In in Hs. specialize (H _ Hs). simpl in H. intros E3. rewrite E3 in H. discriminate H.
Qed.
Lemma good_intro files objs libs w secs : links (demo_world files []) demo_lib_oracle (demo_linker objs libs) 10 w secs -> demo_plain_b files objs = true -> libs_b files = true ->
  good_b w secs = true -> good_link (demo_world files []) demo_lib_oracle (demo_linker objs libs) 10 w secs.
Proof.
  intros H HP HL HG. unfold good_b in HG. rewrite !andb_true_iff, !forallb_forall, !N.ltb_lt in HG. destruct HG as [[[[[G1 G2] G3] G4] G5] G6].
  split; [exact H|exact demo_valid|by apply demo_plain|by apply libs_plain|split_and!; assumption| |split].
  - intros s Hs. apply elem_of_list_In in Hs. specialize (G4 _ Hs). simpl in G4. by apply N.ltb_lt.
  - intros n s Hs. apply elem_of_map_to_list, elem_of_list_In in Hs. exact (bool_decide_eq_true_1 _ (G5 _ Hs)).
  - intros n s Hs. apply elem_of_map_to_list, elem_of_list_In in Hs. exact (bool_decide_eq_true_1 _ (G6 _ Hs)).
Qed.
Definition main_good (w : writer) (secs : list section) : Prop :=
  good_link (demo_world demo_files []) demo_lib_oracle (demo_linker ["a.o"] ["/l/libfoo.so"]) 10 w secs.
Lemma main_good_check f : demo_check demo_files ["a.o"] ["/l/libfoo.so"] (fun w secs => good_b w secs && f w secs) = true -> exists w secs, main_good w secs /\ f w secs = true.
Proof.
  intros H. destruct (main_check _ H) as (w & secs & HL & E). apply andb_true_iff in E as [E1 E2]. exists w, secs. split; [|exact E2].
  apply good_intro; [exact HL|vm_compute; reflexivity|vm_compute; reflexivity|exact E1].
Qed.

(** * C24 *)

(** .plt and .got.plt of a link: entry 0, then one entry per symbol that has a
    slot, each jumping through its own word of .got.plt, which at first points
    at the push behind the jump; the slots of the symbols are 0, 1, 2, ... *)
Theorem C24 : forall wd lo l fuel w secs, good_link wd lo l fuel w secs ->
  exists p g c, the_sec w secs ".plt" p /\ the_sec w secs ".got.plt" g /\ filesz p = 16 * (c + 1) /\ filesz g = 8 * (c + 3) /\ head_for p g /\
    (forall i, i < c -> exists n s k, syt_symbols (w_symtab w) !! n = Some s /\ s_in_plt s = Some i /\ s_in_got_plt s = Some (8 * (i + 3)) /\ k < c /\ stub_for p g i k) /\
    (forall n s, syt_symbols (w_symtab w) !! n = Some s -> is_Some (s_in_plt s) \/ is_Some (s_in_got_plt s) -> exists i, i < c /\ s_in_plt s = Some i /\ s_in_got_plt s = Some (8 * (i + 3)) /\
       forall n' s', syt_symbols (w_symtab w) !! n' = Some s' -> s_in_plt s' = Some i -> n' = n).
Proof. intros wd lo l fuel w secs G. exact (good_plt G). Qed.
Print Assumptions C24.

(** The order in which the .got.plt map is listed does not matter. *)
Theorem C24_any_order : forall entries entries' w w', entries ≡ₚ entries' -> NoDup entries.*2 ->
  (forall r off, (r, off) ∈ entries -> exists sym i, syt_get (w_symtab w) r = Some sym /\ s_in_plt sym = Some i /\ off = 8 * (i + 3)) ->
  patch_plt_and_got_plt_in entries w = Ok w' -> patch_plt_and_got_plt_in entries' w = Ok w'.
Proof.
  intros entries entries' w w' Hp ND Hs H. unfold patch_plt_and_got_plt_in in *.
  apply bind_Ok in H as (p & E1 & H). apply bind_Ok in H as (g & E2 & H). apply bind_Ok in H as (pc & E3 & H). apply bind_Ok in H as (pd & E4 & H).
  rewrite E1. cbn [mbind res_bind]. rewrite E2. cbn [mbind res_bind]. rewrite E3. cbn [mbind res_bind]. rewrite E4. cbn [mbind res_bind].
  destruct entries as [|e entries]; [apply Permutation_nil in Hp as ->; exact H|]. destruct entries' as [|e' entries']; [symmetry in Hp; by apply Permutation_nil in Hp|].
  apply bind_Ok in H as (gc & E5 & H). apply bind_Ok in H as ([pd' gd'] & E6 & H). rewrite E5. cbn [mbind res_bind].
  rewrite (plt_steps_perm _ _ _ _ _ _ _ Hp ND Hs E6). exact H.
Qed.
Print Assumptions C24_any_order.

(** Two functions called through the PLT, one of them and an object read
    through the GOT, and two objects of the library. *)
Definition duo_main : elf_obj := demo_obj
  [progbits ".text" 6 16 [0xe8; 0; 0; 0; 0; 0xe8; 0; 0; 0; 0; 0x48; 0x8b; 0x05; 0; 0; 0; 0; 0x48; 0x8b; 0x05; 0; 0; 0; 0; 0x48; 0x8b; 0x05; 0; 0; 0; 0; 0xc3]; relasec ".rela.text"]
  [("_start", dsym 0x12 1 0 13); ("foo", dsym 0x10 0 0 0); ("baz", dsym 0x10 0 0 0); ("bar", dsym 0x10 0 0 0); ("qux", dsym 0x10 0 0 0)]
  [(2, [mkGreloc 1 (Some (-4)%Z) 2 4; mkGreloc 6 (Some (-4)%Z) 3 4; mkGreloc 13 (Some (-4)%Z) 4 42; mkGreloc 20 (Some (-4)%Z) 5 42; mkGreloc 27 (Some (-4)%Z) 3 42])].
Definition duo_lib : elf_obj := demo_lib [("foo", dsym 0x12 7 0x1000 6); ("bar", dsym 0x11 8 0x2000 24); ("baz", dsym 0x12 7 0x1006 6); ("qux", dsym 0x11 8 0x2018 3)].
Definition duo_files : list (string * elf_obj) := [("a.o", duo_main); ("/l/libduo.so", duo_lib)].
Definition duo_good (w : writer) (secs : list section) : Prop :=
  good_link (demo_world duo_files []) demo_lib_oracle (demo_linker ["a.o"] ["/l/libduo.so"]) 10 w secs.
Lemma duo_check f : demo_check duo_files ["a.o"] ["/l/libduo.so"] (fun w secs => good_b w secs && f w secs) = true -> exists w secs, duo_good w secs /\ f w secs = true.
Proof.
  intros H. destruct (demo_links _ _ _ _ H) as (w & secs & HL & E). apply andb_true_iff in E as [E1 E2]. exists w, secs. split; [|exact E2].
  apply good_intro; [exact HL|vm_compute; reflexivity|vm_compute; reflexivity|exact E1].
Qed.
Definition plt_slots_of (w : writer) : list (N * option N * option N) :=
  (fun x : N * symbol => (x.1, s_in_plt x.2, s_in_got_plt x.2)) <$> filter (fun x => is_Some (s_in_plt x.2)) (map_to_list (syt_symbols (w_symtab w))).
Example C24_case : exists w secs p g, duo_good w secs /\ plt_slots_of w = [(8, Some 0, Some 24); (12, Some 1, Some 32)] /\ secs !! 13%nat = Some p /\ secs !! 10%nat = Some g /\
  sec_name w p = Some ".plt" /\ addr p = 2105376 /\ addr g = 2101280 /\ filesz p = 48 /\
  decode_at 2105376 (contents p) 32 = Some (JmpInd 2101312, 6) /\ decode_at 2105376 (contents p) 38 = Some (PushImm 1, 5) /\ decode_at 2105376 (contents p) 43 = Some (JmpRel 2105376, 5) /\
  rd 8 (contents g) 32 = Some 2105414.
Proof.
  destruct (duo_check (fun w secs => bool_decide (plt_slots_of w = [(8, Some 0, Some 24); (12, Some 1, Some 32)]) && match secs !! 13%nat, secs !! 10%nat with
    | Some p, Some g => bool_decide (sec_name w p = Some ".plt" /\ addr p = 2105376 /\ addr g = 2101280 /\ filesz p = 48 /\ rd 8 (contents g) 32 = Some 2105414) &&
        match decode_at 2105376 (contents p) 32, decode_at 2105376 (contents p) 38, decode_at 2105376 (contents p) 43 with
        | Some (JmpInd a, x), Some (PushImm b, y), Some (JmpRel c, z) => bool_decide (a = 2101312%Z /\ x = 6 /\ b = 1%Z /\ y = 5 /\ c = 2105376%Z /\ z = 5) | _, _, _ => false end
    | _, _ => false end)) as (w & secs & H & E); [vm_compute; reflexivity|].
  apply andb_true_iff in E as [E0 E]. apply bool_decide_eq_true_1 in E0. destruct (secs !! 13%nat) as [p|] eqn:Ep; [|discriminate E]. destruct (secs !! 10%nat) as [g|] eqn:Eg; [|discriminate E].
  apply andb_true_iff in E as [E1 E]. apply bool_decide_eq_true_1 in E1 as (A1 & A2 & A3 & A4 & A5). exists w, secs, p, g.
  destruct (decode_at 2105376 (contents p) 32) as [[[] x]|]; try discriminate E. destruct (decode_at 2105376 (contents p) 38) as [[[] y]|]; try discriminate E. destruct (decode_at 2105376 (contents p) 43) as [[[] z]|]; try discriminate E.
  apply bool_decide_eq_true_1 in E as (-> & -> & -> & -> & -> & ->). split; [exact H|]. split; [exact E0|]. split; [exact Ep|]. split; [exact Eg|]. split; [exact A1|]. split; [exact A2|]. split; [exact A3|]. split; [exact A4|].
  split; [reflexivity|]. split; [reflexivity|]. split; [reflexivity|]. exact A5.
Qed.
Definition same_listing (w : writer) (e : list (symref * N)) : bool :=
  bool_decide (NoDup e.*2) && forallb (fun x : symref * N => match syt_get (w_symtab w) x.1 with Some y => match s_in_plt y with Some i => x.2 =? 8 * (i + 3) | None => false end | None => false end) e.
Example C24_any_order_case : exists w secs e w', duo_good w secs /\ e = [(RNamed 8, 24); (RNamed 12, 32)] /\ NoDup e.*2 /\
  (forall r off, (r, off) ∈ e -> exists sym i, syt_get (w_symtab w) r = Some sym /\ s_in_plt sym = Some i /\ off = 8 * (i + 3)) /\ patch_plt_and_got_plt_in e w = Ok w'.
Proof.
  destruct (duo_check (fun w secs => same_listing w [(RNamed 8, 24); (RNamed 12, 32)] && match patch_plt_and_got_plt_in [(RNamed 8, 24); (RNamed 12, 32)] w with Ok _ => true | _ => false end)) as (w & secs & H & E); [vm_compute; reflexivity|].
  apply andb_true_iff in E as [E1 E2]. set (e := [(RNamed 8, 24); (RNamed 12, 32)]) in *. destruct (patch_plt_and_got_plt_in e w) as [w'| |] eqn:Ew; try discriminate E2. exists w, secs, e, w'. split; [exact H|]. split; [reflexivity|].
  unfold same_listing in E1. apply andb_true_iff in E1 as [E1 E3]. split; [exact (bool_decide_eq_true_1 _ E1)|]. split; [|exact Ew].
  intros r off Hin. rewrite forallb_forall in E3. apply elem_of_list_In in Hin. specialize (E3 _ Hin). cbn [fst snd] in E3. destruct (syt_get (w_symtab w) r) as [y|]; [|discriminate E3]. exists y.
  destruct (s_in_plt y) as [i|]; [|discriminate E3]. exists i. split; [reflexivity|]. split; [reflexivity|]. by apply N.eqb_eq.
Qed.

(** * C25 *)

(** The record of .rela.plt whose number a PLT entry pushes is a JUMP_SLOT (7)
    for exactly the word the entry jumps through and names that symbol in
    .dynsym; there are as many records as entries. *)
Theorem C25 : forall wd lo l fuel w secs, good_link wd lo l fuel w secs ->
  exists p g rp ss ds sd recs, the_sec w secs ".plt" p /\ the_sec w secs ".got.plt" g /\ the_sec w secs ".rela.plt" rp /\ the_sec w secs ".strtab" ss /\ the_sec w secs ".dynsym" ds /\ the_sec w secs ".dynstr" sd /\
    rd_relas (contents rp) = Some recs /\ filesz rp = 24 * blen recs /\ filesz p = 16 * (blen recs + 1) /\
    (forall n s i, syt_symbols (w_symtab w) !! n = Some s -> s_in_plt s = Some i -> exists k j, stub_for p g i k /\ recs !! N.to_nat k = Some (dyn_record (addr g + 8 * (i + 3)) j 7) /\
       rd_rela (contents rp) (24 * k) = Some (dyn_record (addr g + 8 * (i + 3)) j 7) /\ dyn_entry ss ds sd n j) /\
    (forall k r, recs !! k = Some r -> exists n s i, syt_symbols (w_symtab w) !! n = Some s /\ s_in_plt s = Some i /\ stub_for p g i (N.of_nat k)).
Proof. intros wd lo l fuel w secs G. exact (good_jump_slots G). Qed.
Print Assumptions C25.
Definition dyn_name (ds sd : section) (j : N) : option bytes := match rd_sym (contents ds) (24 * j) with Some d => cstr_at (contents sd) (st_name d) | None => None end.
Example C25_case : exists w secs rp ss ds sd, duo_good w secs /\ secs !! 3%nat = Some rp /\ secs !! 16%nat = Some ss /\ secs !! 1%nat = Some ds /\ secs !! 6%nat = Some sd /\
  rd_relas (contents rp) = Some [dyn_record 2101304 3 7; dyn_record 2101312 2 7] /\ cstr_at (contents ss) 8 = Some (string_bytes "foo") /\ dyn_name ds sd 3 = Some (string_bytes "foo") /\ dyn_name ds sd 2 = Some (string_bytes "baz").
Proof.
  destruct (duo_check (fun w secs => match secs !! 3%nat, secs !! 16%nat, secs !! 1%nat, secs !! 6%nat with
    | Some rp, Some ss, Some ds, Some sd => bool_decide (rd_relas (contents rp) = Some [dyn_record 2101304 3 7; dyn_record 2101312 2 7] /\ cstr_at (contents ss) 8 = Some (string_bytes "foo") /\
        dyn_name ds sd 3 = Some (string_bytes "foo") /\ dyn_name ds sd 2 = Some (string_bytes "baz"))
    | _, _, _, _ => false end)) as (w & secs & H & E); [vm_compute; reflexivity|].
  destruct (secs !! 3%nat) as [rp|] eqn:E1; [|discriminate E]. destruct (secs !! 16%nat) as [ss|] eqn:E2; [|discriminate E]. destruct (secs !! 1%nat) as [ds|] eqn:E3; [|discriminate E]. destruct (secs !! 6%nat) as [sd|] eqn:E4; [|discriminate E].
  apply bool_decide_eq_true_1 in E. exists w, secs, rp, ss, ds, sd. split; [exact H|]. split; [exact E1|]. split; [exact E2|]. split; [exact E3|]. split; [exact E4|]. exact E.
Qed.

(** * C26 *)

(** Each symbol of a shared library with a GOT slot has exactly one GLOB_DAT
    (6) record in .rela.dyn for its slot, naming it in .dynsym; the other
    records are COPY (5) records. *)
Theorem C26 : forall wd lo l fuel w secs, good_link wd lo l fuel w secs ->
  exists got rd ss ds sd recs, the_sec w secs ".got" got /\ the_sec w secs ".rela.dyn" rd /\ the_sec w secs ".strtab" ss /\ the_sec w secs ".dynsym" ds /\ the_sec w secs ".dynstr" sd /\
    rd_relas (contents rd) = Some recs /\ filesz rd = 24 * blen recs /\
    (forall n s off, syt_symbols (w_symtab w) !! n = Some s -> is_Some (s_dynamic s) -> s_in_got s = Some off -> off + 8 <= filesz got /\ exists j, dyn_entry ss ds sd n j /\
       filter (fun r => reloc_type r = 6 /\ r_offset r = addr got + off) recs = [dyn_record (addr got + off) j 6]) /\
    (forall r, r ∈ recs -> reloc_type r = 5 \/ reloc_type r = 6 /\ exists n s off, syt_symbols (w_symtab w) !! n = Some s /\ is_Some (s_dynamic s) /\ s_in_got s = Some off /\ r_offset r = addr got + off).
Proof. intros wd lo l fuel w secs G. exact (good_glob_dat G). Qed.
Print Assumptions C26.
Definition got_slots_of (w : writer) : list (N * option N) :=
  (fun x : N * symbol => (x.1, s_in_got x.2)) <$> filter (fun x => is_Some (s_in_got x.2) /\ is_Some (s_dynamic x.2)) (map_to_list (syt_symbols (w_symtab w))).
Example C26_case : exists w secs got rd, duo_good w secs /\ secs !! 9%nat = Some got /\ secs !! 2%nat = Some rd /\ addr got = 2101248 /\ got_slots_of w = [(16, Some 8); (12, Some 24); (20, Some 16)] /\
  rd_relas (contents rd) = Some [dyn_record 2101256 1 6; dyn_record 2101248 1 5; dyn_record 2101272 2 6; dyn_record 2101264 4 6; dyn_record 2101272 4 5].
Proof.
  destruct (duo_check (fun w secs => match secs !! 9%nat, secs !! 2%nat with
    | Some got, Some rd => bool_decide (addr got = 2101248 /\ got_slots_of w = [(16, Some 8); (12, Some 24); (20, Some 16)] /\
       rd_relas (contents rd) = Some [dyn_record 2101256 1 6; dyn_record 2101248 1 5; dyn_record 2101272 2 6; dyn_record 2101264 4 6; dyn_record 2101272 4 5])
    | _, _ => false end)) as (w & secs & H & E); [vm_compute; reflexivity|].
  destruct (secs !! 9%nat) as [got|] eqn:E1; [|discriminate E]. destruct (secs !! 2%nat) as [rd|] eqn:E2; [|discriminate E].
  apply bool_decide_eq_true_1 in E. exists w, secs, got, rd. split; [exact H|]. split; [exact E1|]. split; [exact E2|]. exact E.
Qed.

(** * C27 *)

(** The storage of a copied object may be that of another section: .copyrel
    gets its size after addresses are assigned. *)
Theorem C27_refuted : exists wd lo l fuel w secs ds j d b, good_link wd lo l fuel w secs /\ the_sec w secs ".dynsym" ds /\ rd_sym (contents ds) (24 * j) = Some d /\ typ d = 1 /\
  b ∈ secs /\ sec_name w b = Some ".got" /\ alloc b = true /\ st_value d < addr b + memsz b /\ addr b < st_value d + st_size d.
Proof.
  destruct (duo_check (fun w secs => match secs !! 1%nat, secs !! 9%nat with
    | Some ds, Some b => match rd_sym (contents ds) 24 with Some d => (typ d =? 1) && alloc b && bool_decide (sec_name w b = Some ".got") && bool_decide (sec_name w ds = Some ".dynsym") && (st_value d <? addr b + memsz b) && (addr b <? st_value d + st_size d) | None => false end
    | _, _ => false end)) as (w & secs & H & E); [vm_compute; reflexivity|].
  destruct (secs !! 1%nat) as [ds|] eqn:E1; [|discriminate E]. destruct (secs !! 9%nat) as [b|] eqn:E2; [|discriminate E]. destruct (rd_sym (contents ds) 24) as [d|] eqn:E3; [|discriminate E].
  rewrite !andb_true_iff, !N.ltb_lt, N.eqb_eq in E. destruct E as [[[[[A1 A2] A3] A4] A5] A6]. apply bool_decide_eq_true_1 in A3, A4.
  destruct (good_copy H) as (cr & rd & ds' & recs & _ & _ & (D1 & D2 & D3) & _). assert (ds = ds') as <- by (apply D3; [eapply elem_of_list_lookup_2; exact E1|exact A4]).
  eexists _, demo_lib_oracle, _, _, w, secs, ds, 1, d, b. split; [exact H|]. split; [split; [exact D1|split; [exact D2|exact D3]]|]. split; [exact E3|]. split; [exact A1|]. split; [eapply elem_of_list_lookup_2; exact E2|].
  split; [exact A3|]. split; [exact A2|]. split; [exact A5|exact A6].
Qed.
Print Assumptions C27_refuted.

(** What holds: every object of .dynsym has exactly one COPY record, for the
    address that is its value; the storage areas are disjoint and inside
    .copyrel; there are no other COPY records.  Missing: .copyrel is disjoint
    from the other sections (refuted above). *)
Theorem C27_partial : forall wd lo l fuel w secs, good_link wd lo l fuel w secs ->
  exists cr rd ds recs, the_sec w secs ".copyrel" cr /\ the_sec w secs ".rela.dyn" rd /\ the_sec w secs ".dynsym" ds /\ rd_relas (contents rd) = Some recs /\
    (forall j d, rd_sym (contents ds) (24 * j) = Some d -> typ d = 1 -> filter (fun r => reloc_type r = 5 /\ reloc_sym r = j) recs = [dyn_record (st_value d) j 5] /\
       addr cr <= st_value d /\ st_value d + st_size d <= addr cr + memsz cr) /\
    (forall j d j' d', rd_sym (contents ds) (24 * j) = Some d -> typ d = 1 -> rd_sym (contents ds) (24 * j') = Some d' -> typ d' = 1 -> j <> j' ->
       st_value d + st_size d <= st_value d' \/ st_value d' + st_size d' <= st_value d) /\
    (forall r, r ∈ recs -> reloc_type r = 6 \/ reloc_type r = 5 /\ exists d, rd_sym (contents ds) (24 * reloc_sym r) = Some d /\ typ d = 1).
Proof. intros wd lo l fuel w secs G. exact (good_copy G). Qed.
Print Assumptions C27_partial.
Definition value_of (ds : section) (j : N) : option (N * N * N) := match rd_sym (contents ds) (24 * j) with Some d => Some (typ d, st_value d, st_size d) | None => None end.
Example C27_case : exists w secs cr ds, duo_good w secs /\ secs !! 8%nat = Some cr /\ secs !! 1%nat = Some ds /\ addr cr = 2101248 /\ memsz cr = 27 /\
  value_of ds 1 = Some (1, 2101248, 24) /\ value_of ds 4 = Some (1, 2101272, 3).
Proof.
  destruct (duo_check (fun w secs => match secs !! 8%nat, secs !! 1%nat with
    | Some cr, Some ds => bool_decide (addr cr = 2101248 /\ memsz cr = 27 /\ value_of ds 1 = Some (1, 2101248, 24) /\ value_of ds 4 = Some (1, 2101272, 3))
    | _, _ => false end)) as (w & secs & H & E); [vm_compute; reflexivity|].
  destruct (secs !! 8%nat) as [cr|] eqn:E1; [|discriminate E]. destruct (secs !! 1%nat) as [ds|] eqn:E2; [|discriminate E].
  apply bool_decide_eq_true_1 in E. exists w, secs, cr, ds. split; [exact H|]. split; [exact E1|]. split; [exact E2|]. exact E.
Qed.
