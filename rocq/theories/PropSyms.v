(** Values of symbols after a link (C16, C41-C44, C46). *)
From Verif Require Import ProofBase DemoLink PropLayout PropFile PropGot PropMerge ProofSyms ProofArrays.

(** * C16 *)

(** What happens to a name defined in one section only: the entry of .symtab
    has the index of that section's output section and the value of the first
    of the strongest symbols of that name (definition or reference), plus the
    address of the contribution; for zero-fill, plus the address of the output
    section. *)
Theorem C16_placed : forall wd lo l fuel w secs es evs n x y off, good_link wd lo l fuel w secs -> loading wd lo l fuel es evs ->
  ordinary es n -> sole_home es n x -> winner n (all_syms es) = Some y -> offset_of es x off -> few_sections secs ->
  exists s sym, the_sec w secs (si_name x) s /\ symtab_entry w secs n sym /\ secs !! N.to_nat (st_shndx sym) = Some s /\
    st_info sym = st_info (yi_sym y) /\ st_size sym = st_size (yi_sym y) /\
    st_value sym = addr s + (if is_nobits s then 0 else off) + st_value (yi_sym y).
Proof. intros wd lo l fuel w secs es evs n x y off G L. exact (good_symbol G L n x y off). Qed.
Print Assumptions C16_placed.

(** So the claim holds if the definition itself is the first of the strongest
    symbols of its name, and it is not in zero-fill that follows other
    zero-fill of the same name. Missing: those cases, see [C16_refuted] and
    [C41_refuted], and names defined in several sections, see [C16_twice_refuted]. *)
Theorem C16_partial : forall wd lo l fuel w secs es evs n x y off, good_link wd lo l fuel w secs -> loading wd lo l fuel es evs ->
  ordinary es n -> sole_home es n x -> few_sections secs ->
  winner n (all_syms es) = Some y -> lies_in x y -> offset_of es x off -> (si_data x = None -> off = 0) ->
  exists s sym, the_sec w secs (si_name x) s /\ symtab_entry w secs n sym /\ secs !! N.to_nat (st_shndx sym) = Some s /\
    st_info sym = st_info (yi_sym y) /\ st_size sym = st_size (yi_sym y) /\ st_value sym = addr s + off + st_value (yi_sym y).
Proof.
  intros wd lo l fuel w secs es evs n x y off G L Ho Hh Hf Hw Hin Hoff Hz.
  destruct (good_symbol G L n x y off Ho Hh Hw Hoff Hf) as (s & sym & H1 & H2 & H3 & H4 & H5 & H6). exists s, sym.
  split_and!; try assumption. rewrite H6. destruct (is_nobits s) eqn:En; [|reflexivity]. rewrite Hz; [reflexivity|].
  destruct Hh as (Hx & Hxn & _). destruct (good_merge G L (si_name x) Hxn) as (s' & Hs' & _ & _ & _ & HC).
  { intros E. assert (H : x ∈ contribs (si_name x) (all_secs es)) by (by apply elem_contribs). rewrite E in H. by apply elem_of_nil in H. }
  assert (s' = s) as ->. { destruct H1 as (_ & _ & U). apply U; apply Hs'. }
  rewrite En in HC. apply HC. by apply elem_contribs.
Qed.
Print Assumptions C16_partial.

(** Deciding the hypotheses for given inputs. *)
Definition lies_b (x : sec_in) (y : sym_in) : bool :=
  (si_obj x =? yi_obj y)%nat && (N.of_nat (si_idx x) =? st_shndx (yi_sym y)) && negb (st_shndx (yi_sym y) =? 0xfff1).
Lemma lies_b_spec x y : lies_b x y = true <-> lies_in x y.
Proof. unfold lies_b, lies_in. rewrite !andb_true_iff, negb_true_iff, Nat.eqb_eq, N.eqb_eq, N.eqb_neq. tauto. Qed.
Definition sole_b (es : list (string * elf_obj)) (n : string) (i : nat) : bool :=
  match all_secs es !! i with
  | Some x => negb (String.eqb (si_name x) "") && existsb (lies_b x) (named n (all_syms es)) &&
      forallb (fun x' => if String.eqb (si_name x') "" then true else
        forallb (fun y => if lies_b x' y then bool_decide (sec_key x' = sec_key x) else true) (named n (all_syms es))) (all_secs es)
  | None => false
  end.
Lemma sole_intro es n i x : all_secs es !! i = Some x -> sole_b es n i = true -> sole_home es n x.
Proof.
  intros Hi H. unfold sole_b in H. rewrite Hi in H. rewrite !andb_true_iff, negb_true_iff, String.eqb_neq, existsb_exists, forallb_forall in H. destruct H as [[H1 (y & Hy & Hl)] H2].
  split; [by eapply elem_of_list_lookup_2|]. split; [done|]. split; [exists y; split; [by apply elem_of_list_In|by apply lies_b_spec]|].
  intros x' y' Hx' Hn' Hy' Hl'. apply elem_of_list_In in Hx' as Hx2. specialize (H2 x' Hx2). apply String.eqb_neq in Hn'. cbv beta in H2. rewrite Hn' in H2. rewrite forallb_forall in H2.
  apply elem_of_list_In in Hy'. specialize (H2 y' Hy'). apply lies_b_spec in Hl'. cbv beta in H2. rewrite Hl' in H2. apply bool_decide_eq_true_1 in H2. unfold sec_key in H2. injection H2 as E1 E2.
  eapply all_secs_same; [done|by eapply elem_of_list_lookup_2|done|done].
Qed.
Definition ordinary_b (es : list (string * elf_obj)) (n : string) : bool :=
  negb (String.eqb n "") && forallb (fun m => negb (String.eqb n m)) linker_names && forallb (fun y => bool_decide (is_Some (strength (binding (yi_sym y))))) (named n (all_syms es)) &&
  forallb (fun y => bool_decide (0 ∉ string_bytes (yi_name y))) (all_syms es).
Lemma ordinary_intro es n : ordinary_b es n = true -> ordinary es n.
Proof.
  unfold ordinary_b. rewrite !andb_true_iff, !forallb_forall, negb_true_iff, String.eqb_neq. intros [[[H1 H2] H3] H4]. split; [done|]. split.
  - intros H. apply elem_of_list_In in H. specialize (H2 _ H). cbv beta in H2. rewrite String.eqb_refl in H2. discriminate.
  - split; intros y Hy; apply elem_of_list_In in Hy; [exact (bool_decide_eq_true_1 _ (H3 _ Hy))|exact (bool_decide_eq_true_1 _ (H4 _ Hy))].
Qed.
Lemma offset_intro es i x j : all_secs es !! i = Some x -> contribs (si_name x) (all_secs es) !! j = Some x -> offset_of es x (ntotal (si_size <$> take j (contribs (si_name x) (all_secs es)))).
Proof. intros _ H. by exists j. Qed.
Definition few_b (w : writer) (secs : list section) : bool := N.of_nat (length secs) <=? 2^16.

(** [y] at offset 2 of the second .data section, the first being 2 bytes long. *)
Example C16_case : exists w secs evs x y s sym, twin_good w secs /\ loading twin_wd demo_lib_oracle twin_l 10 twin_files evs /\
  ordinary twin_files "y" /\ sole_home twin_files "y" x /\ few_sections secs /\ winner "y" (all_syms twin_files) = Some y /\ lies_in x y /\ offset_of twin_files x 2 /\ si_data x = Some [3; 4; 5] /\
  st_value (yi_sym y) = 2 /\ the_sec w secs ".data" s /\ symtab_entry w secs "y" sym /\ st_value sym = addr s + 4.
Proof.
  destruct (twin_check few_b) as (w & secs & evs & G & L & E); [vm_compute; reflexivity|]. apply N.leb_le in E.
  destruct (all_secs twin_files !! 5%nat) as [x|] eqn:Ex; [|exfalso; revert Ex; vm_compute; discriminate].
  assert (Hw : exists y, winner "y" (all_syms twin_files) = Some y) by (eexists; vm_compute; reflexivity). destruct Hw as [y Hw]. pose proof Hw as Ey.
  assert (Ho : ordinary twin_files "y") by (apply ordinary_intro; vm_compute; reflexivity).
  assert (Hs : sole_home twin_files "y" x) by (apply (sole_intro _ _ 5%nat); [exact Ex|vm_compute; reflexivity]).
  vm_compute in Ex. apply (inj Some) in Ex. vm_compute in Ey. apply (inj Some) in Ey.
  assert (Hl : lies_in x y) by (apply lies_b_spec; rewrite <- Ex, <- Ey; vm_compute; reflexivity).
  assert (Hf : offset_of twin_files x 2) by (exists 1%nat; rewrite <- Ex; split; vm_compute; reflexivity).
  destruct (C16_partial _ _ _ _ _ _ _ _ "y" x y 2 G L Ho Hs E Hw Hl Hf) as (s & sym & H1 & H2 & _ & _ & _ & H6); [rewrite <- Ex; discriminate|].
  exists w, secs, evs, x, y, s, sym. rewrite <- Ex in H1. rewrite <- Ey in H6. cbn in H6.
  split; [exact G|]. split; [exact L|]. split; [exact Ho|]. split; [exact Hs|]. split; [exact E|]. split; [exact Hw|]. split; [exact Hl|]. split; [exact Hf|].
  split; [rewrite <- Ex; reflexivity|]. split; [rewrite <- Ey; reflexivity|]. split; [exact H1|]. split; [exact H2|]. rewrite H6. lia.
Qed.

(** [f] is defined at offset 1 of the second .text section but referenced
    before: the reference counts, so the offset is lost. *)
Theorem C16_refuted : exists wd lo l fuel w secs es evs n x y off s sym, good_link wd lo l fuel w secs /\ loading wd lo l fuel es evs /\
  ordinary es n /\ sole_home es n x /\ few_sections secs /\ y ∈ named n (all_syms es) /\ lies_in x y /\ offset_of es x off /\ si_data x <> None /\
  the_sec w secs (si_name x) s /\ symtab_entry w secs n sym /\ st_value sym <> addr s + off + st_value (yi_sym y).
Proof.
  destruct (twin_check few_b) as (w & secs & evs & G & L & E); [vm_compute; reflexivity|]. apply N.leb_le in E.
  destruct (all_secs twin_files !! 6%nat) as [x|] eqn:Ex; [|exfalso; revert Ex; vm_compute; discriminate].
  assert (Hw : exists y, winner "f" (all_syms twin_files) = Some y) by (eexists; vm_compute; reflexivity). destruct Hw as [y Hw]. pose proof Hw as Ey.
  destruct (named "f" (all_syms twin_files) !! 1%nat) as [z|] eqn:Ez; [|exfalso; revert Ez; vm_compute; discriminate].
  assert (Ho : ordinary twin_files "f") by (apply ordinary_intro; vm_compute; reflexivity).
  assert (Hs : sole_home twin_files "f" x) by (apply (sole_intro _ _ 6%nat); [exact Ex|vm_compute; reflexivity]).
  assert (Hz : z ∈ named "f" (all_syms twin_files)) by (by eapply elem_of_list_lookup_2).
  vm_compute in Ex. apply (inj Some) in Ex. vm_compute in Ey. apply (inj Some) in Ey. vm_compute in Ez. apply (inj Some) in Ez.
  assert (Hl : lies_in x z) by (apply lies_b_spec; rewrite <- Ex, <- Ez; vm_compute; reflexivity).
  assert (Hf : offset_of twin_files x 7) by (exists 1%nat; rewrite <- Ex; split; vm_compute; reflexivity).
  assert (Hd : si_data x <> None) by (rewrite <- Ex; discriminate).
  destruct (C16_placed _ _ _ _ _ _ _ _ "f" x y 7 G L Ho Hs Hw Hf E) as (s & sym & H1 & H2 & _ & _ & _ & H6).
  exists twin_wd, demo_lib_oracle, twin_l, 10%nat, w, secs, twin_files, evs, "f", x, z, 7, s, sym.
  split; [exact G|]. split; [exact L|]. split; [exact Ho|]. split; [exact Hs|]. split; [exact E|]. split; [exact Hz|]. split; [exact Hl|]. split; [exact Hf|].
  split; [exact Hd|]. split; [exact H1|]. split; [exact H2|]. rewrite H6, <- Ey, <- Ez. cbn [yi_sym st_value]. 
  destruct (is_nobits s); lia.
Qed.
Print Assumptions C16_refuted.

(** The entries of .symtab with a name, for given outputs. *)
Definition entry_is (w : writer) (secs : list section) (n : string) (sym : Sym) : Prop :=
  exists t st i, t ∈ secs /\ sec_name w t = Some ".symtab" /\ st ∈ secs /\ sec_name w st = Some ".strtab" /\
    rd_sym (contents t) (24 * i) = Some sym /\ cstr_at (contents st) (st_name sym) = Some (string_bytes n).
Definition entry_b (w : writer) (secs : list section) (n : string) (f : Sym -> bool) : bool :=
  any secs (fun t => if bool_decide (sec_name w t = Some ".symtab") then any secs (fun st => if bool_decide (sec_name w st = Some ".strtab") then
    any (seq 0 (length (contents t) / 24)) (fun i => match rd_sym (contents t) (24 * N.of_nat i) with
      | Some sym => if bool_decide (cstr_at (contents st) (st_name sym) = Some (string_bytes n)) then f sym else false | None => false end) else false) else false).
Lemma entry_intro w secs n f : entry_b w secs n f = true -> exists sym, entry_is w secs n sym /\ f sym = true.
Proof.
  unfold entry_b. intros H. apply any_spec in H as (t & Ht & H). case_bool_decide as H1; [|discriminate]. apply any_spec in H as (st & Hst & H). case_bool_decide as H2; [|discriminate].
  apply any_spec in H as (i & Hi & H). destruct (rd_sym _ _) as [sym|] eqn:Es; [|discriminate]. case_bool_decide as H3; [|discriminate]. exists sym. split; [|done]. exists t, st, (N.of_nat i). done.
Qed.
(** A weak and a strong definition: both sections' addresses are added. *)
Definition wk_a : elf_obj := demo_obj [progbits ".text" 6 4 [0xc3]; progbits ".data" 3 1 [1; 2]] [("_start", dsym 0x12 1 0 1); ("g", dsym 0x21 2 1 1)] [].
Definition wk_b : elf_obj := demo_obj [progbits ".data" 3 1 [3; 4; 5]] [("g", dsym 0x11 1 2 1)] [].
Definition wk_files : list (string * elf_obj) := [("a.o", wk_a); ("b.o", wk_b)].
Theorem C16_twice_refuted : exists wd lo l fuel w secs es evs n s sym, valid_oracle (lo_writer lo) /\ links wd lo l fuel w secs /\ loading wd lo l fuel es evs /\
  ordinary es n /\ s ∈ secs /\ sec_name w s = Some ".data" /\ (forall x y, y ∈ named n (all_syms es) -> x ∈ all_secs es -> lies_in x y -> si_name x = ".data") /\
  entry_is w secs n sym /\ addr s + memsz s <= st_value sym.
Proof.
  destruct (demo_links wk_files ["a.o"; "b.o"] [] (fun w secs => any secs (fun s => bool_decide (sec_name w s = Some ".data") && entry_b w secs "g" (fun sym => addr s + memsz s <=? st_value sym)))) as (w & secs & H & E); [vm_compute; reflexivity|].
  apply any_spec in E as (s & Hs & E). apply andb_true_iff in E as [E1 E2]. apply bool_decide_eq_true_1 in E1. apply entry_intro in E2 as (sym & E2 & E3). apply N.leb_le in E3.
  destruct (demo_loading _ _ _ _ _ H) as (evs & L). eexists _, demo_lib_oracle, _, _, w, secs, _, evs, "g", s, sym. split; [exact demo_valid|]. split; [exact H|]. split; [exact L|].
  split; [apply ordinary_intro; vm_compute; reflexivity|]. split; [exact Hs|]. split; [exact E1|]. split; [|split; [exact E2|exact E3]].
  assert (K : forallb (fun x => forallb (fun y => if lies_b x y then String.eqb (si_name x) ".data" else true) (named "g" (all_syms wk_files))) (all_secs wk_files) = true) by (vm_compute; reflexivity).
  intros x y Hy Hx Hl. rewrite forallb_forall in K. apply elem_of_list_In in Hx. specialize (K x Hx). cbv beta in K. rewrite forallb_forall in K. apply elem_of_list_In in Hy. specialize (K y Hy). cbv beta in K.
  apply lies_b_spec in Hl. rewrite Hl in K. by apply String.eqb_eq in K.
Qed.
Print Assumptions C16_twice_refuted.

(** * C41 *)

(** Zero-fill sections of the same name are all at the address of the output
    section, so symbols of different objects are told apart by their own
    offsets only. *)
Theorem C41_same_base : forall wd lo l fuel w secs es evs n x y off, good_link wd lo l fuel w secs -> loading wd lo l fuel es evs ->
  ordinary es n -> sole_home es n x -> few_sections secs -> winner n (all_syms es) = Some y -> si_data x = None -> offset_of es x off ->
  exists s sym, the_sec w secs (si_name x) s /\ symtab_entry w secs n sym /\ st_value sym = addr s + st_value (yi_sym y).
Proof.
  intros wd lo l fuel w secs es evs n x y off G L Ho Hh Hf Hw Hd Hoff. destruct (good_symbol G L n x y off Ho Hh Hw Hoff Hf) as (s & sym & H1 & H2 & _ & _ & _ & H6).
  exists s, sym. split; [done|]. split; [done|]. rewrite H6. destruct Hh as (Hx & Hxn & _). pose proof (good_kind G L x s Hxn Hx H1) as K. destruct (is_nobits s); [lia|done].
Qed.
Print Assumptions C41_same_base.

(** Symbols within different sections do not overlap, unless both are zero-fill
    of the same name. Missing: that case, see [C41_refuted]. *)
Theorem C41_partial : forall wd lo l fuel w secs es evs n n' x x' y y' off off', good_link wd lo l fuel w secs -> loading wd lo l fuel es evs -> few_sections secs ->
  ordinary es n -> sole_home es n x -> winner n (all_syms es) = Some y -> lies_in x y -> offset_of es x off -> (si_data x = None -> off = 0) ->
  ordinary es n' -> sole_home es n' x' -> winner n' (all_syms es) = Some y' -> lies_in x' y' -> offset_of es x' off' -> (si_data x' = None -> off' = 0) ->
  st_value (yi_sym y) + st_size (yi_sym y) <= si_size x -> st_value (yi_sym y') + st_size (yi_sym y') <= si_size x' -> x <> x' ->
  (si_name x = si_name x' -> si_data x <> None) ->
  exists s s' sym sym', the_sec w secs (si_name x) s /\ the_sec w secs (si_name x') s' /\ symtab_entry w secs n sym /\ symtab_entry w secs n' sym' /\
    (alloc s = true -> alloc s' = true -> st_value sym + st_size sym <= st_value sym' \/ st_value sym' + st_size sym' <= st_value sym).
Proof.
  intros wd lo l fuel w secs es evs n n' x x' y y' off off' G L Hf Ho Hh Hw Hin Hoff Hz Ho' Hh' Hw' Hin' Hoff' Hz' Hb Hb' Hne Hk.
  destruct (C16_partial _ _ _ _ _ _ _ _ n x y off G L Ho Hh Hf Hw Hin Hoff Hz) as (s & sym & H1 & H2 & _ & _ & H5 & H6).
  destruct (C16_partial _ _ _ _ _ _ _ _ n' x' y' off' G L Ho' Hh' Hf Hw' Hin' Hoff' Hz') as (s' & sym' & H1' & H2' & _ & _ & H5' & H6').
  exists s, s', sym, sym'. split_and!; try assumption. intros La La'. rewrite H5, H6, H5', H6'. destruct (decide (si_name x = si_name x')) as [En|En].
  - assert (s' = s) as ->. { destruct H1 as (_ & _ & U). rewrite En in U. apply U; apply H1'. }
    destruct (offsets_apart es x x' off off' En Hne Hoff Hoff'); [left|right]; lia.
  - assert (Hs : s <> s'). { intros <-. apply En. destruct H1 as (_ & E1 & _), H1' as (_ & E2 & _). congruence. }
    destruct Hh as (Hx & Hxn & _), Hh' as (Hx' & Hxn' & _). pose proof (good_within G L x s off Hxn Hx H1 Hoff). pose proof (good_within G L x' s' off' Hxn' Hx' H1' Hoff').
    assert (Hc : contribs (si_name x) (all_secs es) <> []) by (intros E; destruct Hoff as (j & Hj & _); by rewrite E in Hj).
    assert (Hc' : contribs (si_name x') (all_secs es) <> []) by (intros E; destruct Hoff' as (j & Hj & _); by rewrite E in Hj).
    pose proof (good_plain G L _ s Hxn Hc H1) as Hp. pose proof (good_plain G L _ s' Hxn' Hc' H1') as Hp'.
    pose proof (proj1 H1) as [i Hi]%elem_of_list_lookup. pose proof (proj1 H1') as [i' Hi']%elem_of_list_lookup.
    destruct (Nat.lt_trichotomy i i') as [Hlt|[->|Hlt]]; [|congruence|].
    + left. destruct (C29_partial _ _ _ _ _ _ i i' s s' (gl_oracle _ _ _ _ _ _ G) (gl_links _ _ _ _ _ _ G) Hlt Hi Hi' La La') as [_ K]. rewrite Hp in K. specialize (K ltac:(discriminate)). lia.
    + right. destruct (C29_partial _ _ _ _ _ _ i' i s' s (gl_oracle _ _ _ _ _ _ G) (gl_links _ _ _ _ _ _ G) Hlt Hi' Hi La' La) as [_ K]. rewrite Hp' in K. specialize (K ltac:(discriminate)). lia.
Qed.
Print Assumptions C41_partial.

(** Two objects: an array of one function, zero-fill in both. *)
Definition arr_a : elf_obj := demo_obj [progbits ".text" 6 4 [0xc3]; mkDsec ".init_array" 14 3 8 8 [1; 0; 0; 0; 0; 0; 0; 0]; nobits ".bss" 3 4 4]
  [("_start", dsym 0x12 1 0 1); ("__init_array_start", dsym 0x10 0 0 0); ("__init_array_end", dsym 0x10 0 0 0); ("_GLOBAL_OFFSET_TABLE_", dsym 0x10 0 0 0); ("u", dsym 0x11 3 0 4)] [].
Definition arr_b : elf_obj := demo_obj [nobits ".bss" 3 4 8] [("v", dsym 0x11 1 0 4)] [].
(** Another object with an array of two functions. *)
Definition arr_c : elf_obj := demo_obj [mkDsec ".init_array" 14 3 16 8 [2; 0; 0; 0; 0; 0; 0; 0; 3; 0; 0; 0; 0; 0; 0; 0]] [("__init_array_end", dsym 0x10 0 0 0)] [].
Definition arr_files : list (string * elf_obj) := [("a.o", arr_a); ("b.o", arr_b)].
Definition arr2_files : list (string * elf_obj) := [("a.o", arr_a); ("c.o", arr_c)].
Lemma good_demo files objs libs f : demo_check files objs libs (fun w secs => good_b w secs && f w secs) = true -> demo_plain_b files objs = true -> libs_b files = true ->
  exists w secs evs, good_link (demo_world files []) demo_lib_oracle (demo_linker objs libs) 10 w secs /\
    loading (demo_world files []) demo_lib_oracle (demo_linker objs libs) 10 (cmd_objs (demo_world files []) (demo_linker objs libs)) evs /\ f w secs = true.
Proof.
  intros H HP HL. destruct (demo_links _ _ _ _ H) as (w & secs & Hl & E). apply andb_true_iff in E as [E1 E2].
  destruct (demo_loading _ _ _ _ _ Hl) as (evs & Hv). exists w, secs, evs. split; [by apply good_intro|]. split; [exact Hv|exact E2].
Qed.
Definition arr_wd : world := demo_world arr_files [].
Definition arr_l : linker := demo_linker ["a.o"; "b.o"] [].
Lemma arr_check f : demo_check arr_files ["a.o"; "b.o"] [] (fun w secs => good_b w secs && f w secs) = true ->
  exists w secs evs, good_link arr_wd demo_lib_oracle arr_l 10 w secs /\ loading arr_wd demo_lib_oracle arr_l 10 arr_files evs /\ f w secs = true.
Proof. intros H. apply (good_demo _ _ _ _ H); vm_compute; reflexivity. Qed.
Definition arr2_wd : world := demo_world arr2_files [].
Definition arr2_l : linker := demo_linker ["a.o"; "c.o"] [].
Lemma arr2_check f : demo_check arr2_files ["a.o"; "c.o"] [] (fun w secs => good_b w secs && f w secs) = true ->
  exists w secs evs, good_link arr2_wd demo_lib_oracle arr2_l 10 w secs /\ loading arr2_wd demo_lib_oracle arr2_l 10 arr2_files evs /\ f w secs = true.
Proof. intros H. apply (good_demo _ _ _ _ H); vm_compute; reflexivity. Qed.

(** Symbols of two objects' zero-fill at the same address. *)
Theorem C41_refuted : exists wd lo l fuel w secs es evs n n' x x' y y' s sym sym', good_link wd lo l fuel w secs /\ loading wd lo l fuel es evs /\ few_sections secs /\
  ordinary es n /\ sole_home es n x /\ winner n (all_syms es) = Some y /\ lies_in x y /\ ordinary es n' /\ sole_home es n' x' /\ winner n' (all_syms es) = Some y' /\ lies_in x' y' /\
  st_value (yi_sym y) + st_size (yi_sym y) <= si_size x /\ st_value (yi_sym y') + st_size (yi_sym y') <= si_size x' /\ si_obj x <> si_obj x' /\ si_name x = ".bss" /\ si_name x' = ".bss" /\
  the_sec w secs ".bss" s /\ alloc s = true /\ symtab_entry w secs n sym /\ symtab_entry w secs n' sym' /\ 0 < st_size sym /\ 0 < st_size sym' /\ st_value sym = st_value sym'.
Proof.
  destruct (arr_check (fun w secs => few_b w secs && forallb (fun s => if bool_decide (sec_name w s = Some ".bss") then alloc s else true) secs)) as (w & secs & evs & G & L & E); [vm_compute; reflexivity|].
  apply andb_true_iff in E as [E Ea]. apply N.leb_le in E.
  destruct (all_secs arr_files !! 3%nat) as [x|] eqn:Ex; [|exfalso; revert Ex; vm_compute; discriminate].
  destruct (all_secs arr_files !! 5%nat) as [x'|] eqn:Ex'; [|exfalso; revert Ex'; vm_compute; discriminate].
  assert (Hw : exists y, winner "u" (all_syms arr_files) = Some y) by (eexists; vm_compute; reflexivity). destruct Hw as [y Hw]. pose proof Hw as Ey.
  assert (Hw' : exists y, winner "v" (all_syms arr_files) = Some y) by (eexists; vm_compute; reflexivity). destruct Hw' as [y' Hw']. pose proof Hw' as Ey'.
  assert (Ho : ordinary arr_files "u") by (apply ordinary_intro; vm_compute; reflexivity).
  assert (Ho' : ordinary arr_files "v") by (apply ordinary_intro; vm_compute; reflexivity).
  assert (Hs : sole_home arr_files "u" x) by (apply (sole_intro _ _ 3%nat); [exact Ex|vm_compute; reflexivity]).
  assert (Hs' : sole_home arr_files "v" x') by (apply (sole_intro _ _ 5%nat); [exact Ex'|vm_compute; reflexivity]).
  vm_compute in Ex. apply (inj Some) in Ex. vm_compute in Ey. apply (inj Some) in Ey. vm_compute in Ex'. apply (inj Some) in Ex'. vm_compute in Ey'. apply (inj Some) in Ey'.
  assert (Hl : lies_in x y) by (apply lies_b_spec; rewrite <- Ex, <- Ey; vm_compute; reflexivity).
  assert (Hl' : lies_in x' y') by (apply lies_b_spec; rewrite <- Ex', <- Ey'; vm_compute; reflexivity).
  assert (Hf : offset_of arr_files x 0) by (exists 0%nat; rewrite <- Ex; split; vm_compute; reflexivity).
  assert (Hf' : offset_of arr_files x' 4) by (exists 1%nat; rewrite <- Ex'; split; vm_compute; reflexivity).
  assert (Hd : si_data x = None) by (rewrite <- Ex; reflexivity). assert (Hd' : si_data x' = None) by (rewrite <- Ex'; reflexivity).
  assert (Hn : si_name x = ".bss") by (rewrite <- Ex; reflexivity). assert (Hn' : si_name x' = ".bss") by (rewrite <- Ex'; reflexivity).
  destruct (C16_placed _ _ _ _ _ _ _ _ "u" x y 0 G L Ho Hs Hw Hf E) as (s & sym & H1 & H2 & _ & _ & H5 & H6).
  destruct (C16_placed _ _ _ _ _ _ _ _ "v" x' y' 4 G L Ho' Hs' Hw' Hf' E) as (s' & sym' & H1' & H2' & _ & _ & H5' & H6').
  rewrite Hn in H1. rewrite Hn' in H1'. assert (s' = s) as ->. { destruct H1 as (_ & _ & U). apply U; apply H1'. }
  assert (Eb : is_nobits s = true). { pose proof (good_kind G L x s) as K. rewrite Hn in K. specialize (K ltac:(discriminate) (proj1 Hs) H1). rewrite Hd in K. destruct (is_nobits s); [reflexivity|]. exfalso. by apply K. }
  rewrite Eb in H6, H6'.
  exists arr_wd, demo_lib_oracle, arr_l, 10%nat, w, secs, arr_files, evs, "u", "v", x, x', y, y', s, sym, sym'.
  split; [exact G|]. split; [exact L|]. split; [exact E|]. split; [exact Ho|]. split; [exact Hs|]. split; [exact Hw|]. split; [exact Hl|]. split; [exact Ho'|]. split; [exact Hs'|]. split; [exact Hw'|]. split; [exact Hl'|].
  split; [rewrite <- Ex, <- Ey; vm_compute; discriminate|]. split; [rewrite <- Ex', <- Ey'; vm_compute; discriminate|]. split; [rewrite <- Ex, <- Ex'; vm_compute; discriminate|].
  split; [exact Hn|]. split; [exact Hn'|]. split; [exact H1|]. split.
  { rewrite forallb_forall in Ea. destruct H1 as (Hs1 & Hs2 & _). apply elem_of_list_In in Hs1. specialize (Ea _ Hs1). cbv beta in Ea. rewrite bool_decide_eq_true_2 in Ea by exact Hs2. exact Ea. }
  split; [exact H2|]. split; [exact H2'|]. split; [rewrite H5, <- Ey; reflexivity|]. split; [rewrite H5', <- Ey'; reflexivity|]. rewrite H6, H6', <- Ey, <- Ey'. reflexivity.
Qed.
Print Assumptions C41_refuted.

(** Two symbols of different objects for which it holds: offset 0 of the first
    .data section and offset 2 of the second. *)
Example C41_case : exists w secs evs x x' y y' sym sym', twin_good w secs /\ loading twin_wd demo_lib_oracle twin_l 10 twin_files evs /\ sole_home twin_files "x" x /\ sole_home twin_files "y" x' /\
  winner "x" (all_syms twin_files) = Some y /\ winner "y" (all_syms twin_files) = Some y' /\ x <> x' /\ si_name x = si_name x' /\
  symtab_entry w secs "x" sym /\ symtab_entry w secs "y" sym' /\ 0 < st_size sym /\ st_value sym + st_size sym <= st_value sym'.
Proof.
  destruct (twin_check (fun w secs => few_b w secs && forallb (fun s => if bool_decide (sec_name w s = Some ".data") then alloc s else true) secs)) as (w & secs & evs & G & L & E); [vm_compute; reflexivity|].
  apply andb_true_iff in E as [E Ea]. apply N.leb_le in E.
  destruct (all_secs twin_files !! 2%nat) as [x|] eqn:Ex; [|exfalso; revert Ex; vm_compute; discriminate].
  destruct (all_secs twin_files !! 5%nat) as [x'|] eqn:Ex'; [|exfalso; revert Ex'; vm_compute; discriminate].
  assert (Hw : exists y, winner "x" (all_syms twin_files) = Some y) by (eexists; vm_compute; reflexivity). destruct Hw as [y Hw]. pose proof Hw as Ey.
  assert (Hw' : exists y, winner "y" (all_syms twin_files) = Some y) by (eexists; vm_compute; reflexivity). destruct Hw' as [y' Hw']. pose proof Hw' as Ey'.
  assert (Ho : ordinary twin_files "x") by (apply ordinary_intro; vm_compute; reflexivity).
  assert (Ho' : ordinary twin_files "y") by (apply ordinary_intro; vm_compute; reflexivity).
  assert (Hs : sole_home twin_files "x" x) by (apply (sole_intro _ _ 2%nat); [exact Ex|vm_compute; reflexivity]).
  assert (Hs' : sole_home twin_files "y" x') by (apply (sole_intro _ _ 5%nat); [exact Ex'|vm_compute; reflexivity]).
  vm_compute in Ex. apply (inj Some) in Ex. vm_compute in Ey. apply (inj Some) in Ey. vm_compute in Ex'. apply (inj Some) in Ex'. vm_compute in Ey'. apply (inj Some) in Ey'.
  assert (Hl : lies_in x y) by (apply lies_b_spec; rewrite <- Ex, <- Ey; vm_compute; reflexivity).
  assert (Hl' : lies_in x' y') by (apply lies_b_spec; rewrite <- Ex', <- Ey'; vm_compute; reflexivity).
  assert (Hf : offset_of twin_files x 0) by (exists 0%nat; rewrite <- Ex; split; vm_compute; reflexivity).
  assert (Hf' : offset_of twin_files x' 2) by (exists 1%nat; rewrite <- Ex'; split; vm_compute; reflexivity).
  assert (Hne : x <> x') by (rewrite <- Ex, <- Ex'; discriminate). assert (Hn : si_name x = ".data") by (rewrite <- Ex; reflexivity). assert (Hn' : si_name x' = ".data") by (rewrite <- Ex'; reflexivity).
  assert (Hz : si_data x <> None) by (rewrite <- Ex; discriminate). assert (Hz' : si_data x' <> None) by (rewrite <- Ex'; discriminate).
  assert (Hb : st_value (yi_sym y) + st_size (yi_sym y) <= si_size x) by (rewrite <- Ex, <- Ey; vm_compute; discriminate).
  assert (Hb' : st_value (yi_sym y') + st_size (yi_sym y') <= si_size x') by (rewrite <- Ex', <- Ey'; vm_compute; discriminate).
  destruct (C16_partial _ _ _ _ _ _ _ _ "x" x y 0 G L Ho Hs E Hw Hl Hf) as (s & sym & H1 & H2 & _ & _ & H5 & H6); [intros ?; contradiction|].
  destruct (C16_partial _ _ _ _ _ _ _ _ "y" x' y' 2 G L Ho' Hs' E Hw' Hl' Hf') as (s' & sym' & H1' & H2' & _ & _ & H5' & H6'); [intros ?; contradiction|].
  rewrite Hn in H1. rewrite Hn' in H1'. assert (s' = s) as ->. { destruct H1 as (_ & _ & U). apply U; apply H1'. }
  exists w, secs, evs, x, x', y, y', sym, sym'. split; [exact G|]. split; [exact L|]. split; [exact Hs|]. split; [exact Hs'|]. split; [exact Hw|]. split; [exact Hw'|]. split; [exact Hne|].
  split; [rewrite Hn, Hn'; reflexivity|]. split; [exact H2|]. split; [exact H2'|]. split; [rewrite H5, <- Ey; reflexivity|].
  rewrite H5, H6, H6', <- Ey, <- Ey'. cbn [yi_sym st_value st_size]. lia.
Qed.

(** * C42 *)

Definition no_nul (es : list (string * elf_obj)) : Prop := forall y, y ∈ all_syms es -> nonul (yi_name y).
Lemma array_marks_kind a s e : (a, s, e) ∈ array_marks -> exists kd, a = array_name kd /\ s = start_of kd /\ e = end_of kd.
Proof. unfold array_marks. rewrite !elem_of_cons, elem_of_nil. intros [[= -> -> ->]|[[= -> -> ->]|[]]]; [exists true|exists false]; done. Qed.

(** What happens to the boundary symbols if objects only refer to them: the
    start symbol is the address of the array plus the value of the first of
    the strongest references; the end symbol is the address of the array plus
    its size plus the sizes of all contributions but the last. *)
Theorem C42_start : forall wd lo l fuel w secs es evs a st en y, good_link wd lo l fuel w secs -> loading wd lo l fuel es evs -> no_nul es -> few_sections secs ->
  (a, st, en) ∈ array_marks -> contribs a (all_secs es) <> [] -> only_referenced es st -> all_standard st (all_syms es) -> winner st (all_syms es) = Some y ->
  exists s sym, the_sec w secs a s /\ symtab_entry w secs st sym /\ secs !! N.to_nat (st_shndx sym) = Some s /\ st_value sym = addr s + st_value (yi_sym y).
Proof.
  intros wd lo l fuel w secs es evs a st en y G L Hnn Hf Ha Hc Hu Hst Hw. apply array_marks_kind in Ha as (kd & -> & -> & ->). exact (good_start G L Hnn kd y Hc Hu Hst Hw Hf).
Qed.
Print Assumptions C42_start.
Theorem C42_end : forall wd lo l fuel w secs es evs a st en, good_link wd lo l fuel w secs -> loading wd lo l fuel es evs -> no_nul es -> few_sections secs ->
  (a, st, en) ∈ array_marks -> contribs a (all_secs es) <> [] -> only_referenced es en -> all_standard en (all_syms es) ->
  exists s sym, the_sec w secs a s /\ symtab_entry w secs en sym /\ secs !! N.to_nat (st_shndx sym) = Some s /\
    st_value sym = addr s + if is_nobits s then 0 else memsz s + ntotal (si_size <$> take (length (contribs a (all_secs es)) - 1) (contribs a (all_secs es))).
Proof.
  intros wd lo l fuel w secs es evs a st en G L Hnn Hf Ha Hc Hu Hst. apply array_marks_kind in Ha as (kd & -> & -> & ->). exact (good_end G L Hnn kd Hc Hu Hst Hf).
Qed.
Print Assumptions C42_end.

(** So the claim holds for an array made of one input section, with its
    contents in the file. Missing: arrays of several sections, see
    [C42_refuted]. *)
Theorem C42_partial : forall wd lo l fuel w secs es evs a st en x, good_link wd lo l fuel w secs -> loading wd lo l fuel es evs -> no_nul es -> few_sections secs ->
  (a, st, en) ∈ array_marks -> contribs a (all_secs es) = [x] -> si_data x <> None ->
  only_referenced es st -> all_standard st (all_syms es) -> (forall y, y ∈ named st (all_syms es) -> st_value (yi_sym y) = 0) ->
  only_referenced es en -> all_standard en (all_syms es) ->
  exists s sym sym', the_sec w secs a s /\ symtab_entry w secs st sym /\ secs !! N.to_nat (st_shndx sym) = Some s /\ st_value sym = addr s /\
    symtab_entry w secs en sym' /\ secs !! N.to_nat (st_shndx sym') = Some s /\ st_value sym' = addr s + memsz s.
Proof.
  intros wd lo l fuel w secs es evs a st en x G L Hnn Hf Ha Hc Hd Hu Hst Hv Hu' Hst'.
  assert (Hne : contribs a (all_secs es) <> []) by (rewrite Hc; discriminate).
  assert (Hw : exists y, winner st (all_syms es) = Some y).
  { destruct (links_outcome _ _ _ _ _ _ (gl_links _ _ _ _ _ _ G)) as (w0 & wr & ws & w1 & extra & null & rest & rest' & st' & w3 & w4 & w5 & w6 & w7 & null' & out & O).
    destruct L as (wr' & Hr & R). rewrite (oc_resolve O) in Hr. injection Hr as <-.
    destruct (table_wr O (gl_names _ _ _ _ _ _ G) R st) as (s0 & y & _ & Hw & _); [|exact (proj1 Hu)|exact Hst|by exists y].
    apply array_marks_kind in Ha as (kd & _ & -> & _). by destruct kd. }
  destruct Hw as [y Hw]. destruct (C42_start _ _ _ _ _ _ _ _ _ _ _ y G L Hnn Hf Ha Hne Hu Hst Hw) as (s & sym & H1 & H2 & H3 & H4).
  destruct (C42_end _ _ _ _ _ _ _ _ _ _ _ G L Hnn Hf Ha Hne Hu' Hst') as (s' & sym' & H1' & H2' & H3' & H4').
  assert (s' = s) as ->. { destruct H1 as (_ & _ & U). apply U; apply H1'. }
  assert (Ey : st_value (yi_sym y) = 0).
  { apply Hv. unfold winner in Hw. destruct (filter _ _) as [|z zs] eqn:Ef; [discriminate|]. injection Hw as ->. assert (Hz : y ∈ filter (fun y => rank (yi_sym y) = top_rank st (all_syms es)) (named st (all_syms es))) by (rewrite Ef; by left).
    by apply elem_of_list_filter in Hz as [_ Hz]. }
  assert (Hx : x ∈ contribs a (all_secs es)) by (rewrite Hc; by left). apply elem_contribs in Hx as [Hxn Hx].
  assert (Hb : is_nobits s = false).
  { assert (Han : a <> "") by (apply array_marks_kind in Ha as (kd & -> & _); by destruct kd). rewrite <- Hxn in Han, H1. pose proof (good_kind G L x s Han Hx H1) as K. destruct (is_nobits s); [done|reflexivity]. }
  rewrite Hb, Hc in H4'. change (ntotal (si_size <$> take (length [x] - 1) [x])) with 0 in H4'. rewrite N.add_0_r in H4'. rewrite Ey, N.add_0_r in H4.
  exists s, sym, sym'. done.
Qed.
Print Assumptions C42_partial.

(** Deciding the hypotheses. *)
Definition ref_only_b (es : list (string * elf_obj)) (n : string) : bool :=
  negb (bool_decide (named n (all_syms es) = [])) && forallb (fun y => bool_decide (is_Some (strength (binding (yi_sym y)))) && (st_value (yi_sym y) =? 0)) (named n (all_syms es)) &&
  forallb (fun x => if String.eqb (si_name x) "" then true else forallb (fun y => negb (lies_b x y)) (named n (all_syms es))) (all_secs es).
Lemma ref_only_intro es n : ref_only_b es n = true -> only_referenced es n /\ all_standard n (all_syms es) /\ forall y, y ∈ named n (all_syms es) -> st_value (yi_sym y) = 0.
Proof.
  unfold ref_only_b. rewrite !andb_true_iff, !forallb_forall, negb_true_iff, bool_decide_eq_false. intros [[H1 H2] H3]. split.
  - split; [exact H1|]. intros x y Hx Hn Hy Hl. apply elem_of_list_In in Hx, Hy. specialize (H3 x Hx). cbv beta in H3. apply String.eqb_neq in Hn. rewrite Hn in H3. rewrite forallb_forall in H3.
    specialize (H3 y Hy). cbv beta in H3. apply lies_b_spec in Hl. rewrite Hl in H3. discriminate.
  - split; intros y Hy; apply elem_of_list_In in Hy; specialize (H2 y Hy); cbv beta in H2; apply andb_true_iff in H2 as [H2 H2']; [exact (bool_decide_eq_true_1 _ H2)|by apply N.eqb_eq].
Qed.
Definition no_nul_b (es : list (string * elf_obj)) : bool := forallb (fun y => bool_decide (0 ∉ string_bytes (yi_name y))) (all_syms es).
Lemma no_nul_intro es : no_nul_b es = true -> no_nul es.
Proof. unfold no_nul_b. rewrite forallb_forall. intros H y Hy. apply elem_of_list_In in Hy. exact (bool_decide_eq_true_1 _ (H y Hy)). Qed.

Example C42_case : exists w secs evs x s sym sym', good_link arr_wd demo_lib_oracle arr_l 10 w secs /\ loading arr_wd demo_lib_oracle arr_l 10 arr_files evs /\
  contribs ".init_array" (all_secs arr_files) = [x] /\ si_size x = 8 /\ the_sec w secs ".init_array" s /\ symtab_entry w secs "__init_array_start" sym /\ symtab_entry w secs "__init_array_end" sym' /\
  0 < st_value sym /\ st_value sym' = st_value sym + 8.
Proof.
  destruct (arr_check (fun w secs => few_b w secs && forallb (fun s => if bool_decide (sec_name w s = Some ".init_array") then (0 <? addr s) && (memsz s =? 8) else true) secs)) as (w & secs & evs & G & L & E); [vm_compute; reflexivity|].
  apply andb_true_iff in E as [E Ea]. apply N.leb_le in E.
  assert (Hc : exists x, contribs ".init_array" (all_secs arr_files) = [x]) by (eexists; vm_compute; reflexivity). destruct Hc as [x Hc]. pose proof Hc as Ex. vm_compute in Ex. apply (inj2 cons) in Ex as [Ex _].
  destruct (ref_only_intro arr_files "__init_array_start") as (A1 & A2 & A3); [vm_compute; reflexivity|]. destruct (ref_only_intro arr_files "__init_array_end") as (B1 & B2 & _); [vm_compute; reflexivity|].
  destruct (C42_partial _ _ _ _ _ _ _ _ ".init_array" "__init_array_start" "__init_array_end" x G L) as (s & sym & sym' & H1 & H2 & _ & H4 & H5 & _ & H7);
    [apply no_nul_intro; vm_compute; reflexivity|exact E|by left|exact Hc|rewrite <- Ex; discriminate|exact A1|exact A2|exact A3|exact B1|exact B2|].
  rewrite forallb_forall in Ea. pose proof H1 as (Hs1 & Hs2 & _). apply elem_of_list_In in Hs1. specialize (Ea _ Hs1). cbv beta in Ea. rewrite bool_decide_eq_true_2 in Ea by exact Hs2.
  apply andb_true_iff in Ea as [Ea1 Ea2]. apply N.ltb_lt in Ea1. apply N.eqb_eq in Ea2.
  exists w, secs, evs, x, s, sym, sym'. split; [exact G|]. split; [exact L|]. split; [exact Hc|]. split; [rewrite <- Ex; reflexivity|]. split; [exact H1|]. split; [exact H2|]. split; [exact H5|].
  rewrite H4, H7, Ea2. split; [exact Ea1|reflexivity].
Qed.

(** Two contributions, of 8 and 16 bytes: the end symbol is 8 bytes too far. *)
Theorem C42_refuted : exists wd lo l fuel w secs es evs s sym, good_link wd lo l fuel w secs /\ loading wd lo l fuel es evs /\ no_nul es /\ few_sections secs /\
  contribs ".init_array" (all_secs es) <> [] /\ only_referenced es "__init_array_end" /\ all_standard "__init_array_end" (all_syms es) /\
  the_sec w secs ".init_array" s /\ symtab_entry w secs "__init_array_end" sym /\ st_value sym = addr s + memsz s + 8.
Proof.
  destruct (arr2_check (fun w secs => few_b w secs && forallb (fun s => if bool_decide (sec_name w s = Some ".init_array") then negb (is_nobits s) else true) secs)) as (w & secs & evs & G & L & E); [vm_compute; reflexivity|].
  apply andb_true_iff in E as [E Ea]. apply N.leb_le in E. destruct (ref_only_intro arr2_files "__init_array_end") as (B1 & B2 & _); [vm_compute; reflexivity|].
  assert (Hnn : no_nul arr2_files) by (apply no_nul_intro; vm_compute; reflexivity).
  assert (Hc : contribs ".init_array" (all_secs arr2_files) <> []) by (vm_compute; discriminate).
  assert (Ht : ntotal (si_size <$> take (length (contribs ".init_array" (all_secs arr2_files)) - 1) (contribs ".init_array" (all_secs arr2_files))) = 8) by (vm_compute; reflexivity).
  destruct (C42_end _ _ _ _ _ _ _ _ ".init_array" "__init_array_start" "__init_array_end" G L Hnn E) as (s & sym & H1 & H2 & _ & H4); [by left|exact Hc|exact B1|exact B2|]. rewrite Ht in H4.
  rewrite forallb_forall in Ea. pose proof H1 as (Hs1 & Hs2 & _). apply elem_of_list_In in Hs1. specialize (Ea _ Hs1). cbv beta in Ea. rewrite bool_decide_eq_true_2 in Ea by exact Hs2. apply negb_true_iff in Ea. rewrite Ea in H4.
  exists arr2_wd, demo_lib_oracle, arr2_l, 10%nat, w, secs, arr2_files, evs, s, sym. split; [exact G|]. split; [exact L|]. split; [exact Hnn|]. split; [exact E|]. split; [exact Hc|]. split; [exact B1|]. split; [exact B2|].
  split; [exact H1|]. split; [exact H2|]. rewrite H4. lia.
Qed.
Print Assumptions C42_refuted.

(** * C43 *)

Theorem C43_got_symbol : forall wd lo l fuel w secs es evs, good_link wd lo l fuel w secs -> loading wd lo l fuel es evs -> no_nul es -> few_sections secs ->
  only_referenced es "_GLOBAL_OFFSET_TABLE_" -> all_standard "_GLOBAL_OFFSET_TABLE_" (all_syms es) ->
  exists s sym, the_sec w secs ".got.plt" s /\ symtab_entry w secs "_GLOBAL_OFFSET_TABLE_" sym /\ secs !! N.to_nat (st_shndx sym) = Some s /\ st_value sym = addr s.
Proof. intros wd lo l fuel w secs es evs G L Hnn Hf Hu Hst. exact (good_got G L Hnn Hu Hst Hf). Qed.
Print Assumptions C43_got_symbol.
Example C43_case : exists w secs evs s sym, good_link arr_wd demo_lib_oracle arr_l 10 w secs /\ loading arr_wd demo_lib_oracle arr_l 10 arr_files evs /\ only_referenced arr_files "_GLOBAL_OFFSET_TABLE_" /\
  the_sec w secs ".got.plt" s /\ symtab_entry w secs "_GLOBAL_OFFSET_TABLE_" sym /\ st_value sym = addr s /\ 0 < addr s.
Proof.
  destruct (arr_check (fun w secs => few_b w secs && forallb (fun s => if bool_decide (sec_name w s = Some ".got.plt") then 0 <? addr s else true) secs)) as (w & secs & evs & G & L & E); [vm_compute; reflexivity|].
  apply andb_true_iff in E as [E Ea]. apply N.leb_le in E. destruct (ref_only_intro arr_files "_GLOBAL_OFFSET_TABLE_") as (B1 & B2 & _); [vm_compute; reflexivity|].
  destruct (C43_got_symbol _ _ _ _ _ _ _ _ G L) as (s & sym & H1 & H2 & _ & H4); [apply no_nul_intro; vm_compute; reflexivity|exact E|exact B1|exact B2|].
  rewrite forallb_forall in Ea. pose proof H1 as (Hs1 & Hs2 & _). apply elem_of_list_In in Hs1. specialize (Ea _ Hs1). cbv beta in Ea. rewrite bool_decide_eq_true_2 in Ea by exact Hs2. apply N.ltb_lt in Ea.
  exists w, secs, evs, s, sym. split; [exact G|]. split; [exact L|]. split; [exact B1|]. split; [exact H1|]. split; [exact H2|]. split; [exact H4|exact Ea].
Qed.

(** * C44 *)

(** The entry point is the value of the entry of .symtab named _start; if no
    input symbol has that name it is 0. *)
Theorem C44_entry : forall wd lo l fuel w secs es evs, good_link wd lo l fuel w secs -> loading wd lo l fuel es evs -> no_nul es ->
  ((exists y, y ∈ all_syms es /\ yi_name y = "_start") -> exists sym, symtab_entry w secs "_start" sym /\ e_entry (w_eh w) = st_value sym) /\
  ((forall y, y ∈ all_syms es -> yi_name y <> "_start") -> e_entry (w_eh w) = 0).
Proof.
  intros wd lo l fuel w secs es evs G L Hnn. pose proof (good_entry G L Hnn) as H. case_decide as D; (split; intros Hy).
  - exact H.
  - exfalso. apply Exists_exists in D as (y & H1 & H2). by apply (Hy y).
  - exfalso. destruct Hy as (y & H1 & H2). apply D. apply Exists_exists. by exists y.
  - exact H.
Qed.
Print Assumptions C44_entry.

(** With C36, what is in the file; with C16, where _start is. *)
Theorem C44_start : forall wd lo l fuel w secs es evs x y off, good_link wd lo l fuel w secs -> loading wd lo l fuel es evs ->
  ordinary es "_start" -> sole_home es "_start" x -> few_sections secs -> winner "_start" (all_syms es) = Some y -> lies_in x y -> offset_of es x off -> (si_data x = None -> off = 0) ->
  exists s, the_sec w secs (si_name x) s /\ e_entry (w_eh w) = addr s + off + st_value (yi_sym y).
Proof.
  intros wd lo l fuel w secs es evs x y off G L Ho Hh Hf Hw Hl Hoff Hz. destruct (C16_partial _ _ _ _ _ _ _ _ "_start" x y off G L Ho Hh Hf Hw Hl Hoff Hz) as (s & sym & H1 & H2 & _ & _ & _ & H6).
  destruct (C44_entry _ _ _ _ _ _ _ _ G L (proj2 (proj2 (proj2 Ho)))) as [HE _].
  destruct HE as (sym' & H2' & H6'). { destruct Hh as (_ & _ & (z & Hz' & _) & _). apply elem_of_list_filter in Hz' as [[_ Hz'] Hin]. by exists z. }
  exists s. split; [exact H1|]. rewrite H6', <- H6. destruct H2 as (t & st & i & T1 & T2 & T3 & T4 & T5), H2' as (t' & st' & i' & T1' & T2' & T3' & T4' & T5').
  assert (t' = t) as -> by (destruct T1 as (_ & _ & U); apply U; apply T1'). assert (st' = st) as -> by (destruct T2 as (_ & _ & U); apply U; apply T2').
  pose proof (T5 _ _ T3' T4') as ->. congruence.
Qed.
Print Assumptions C44_start.
Example C44_case : exists w secs evs s, twin_good w secs /\ loading twin_wd demo_lib_oracle twin_l 10 twin_files evs /\ the_sec w secs ".text" s /\ 0 < addr s /\ e_entry (w_eh w) = addr s.
Proof.
  destruct (twin_check (fun w secs => few_b w secs && forallb (fun s => if bool_decide (sec_name w s = Some ".text") then 0 <? addr s else true) secs)) as (w & secs & evs & G & L & E); [vm_compute; reflexivity|].
  apply andb_true_iff in E as [E Ea]. apply N.leb_le in E.
  destruct (all_secs twin_files !! 1%nat) as [x|] eqn:Ex; [|exfalso; revert Ex; vm_compute; discriminate].
  assert (Hw : exists y, winner "_start" (all_syms twin_files) = Some y) by (eexists; vm_compute; reflexivity). destruct Hw as [y Hw]. pose proof Hw as Ey.
  assert (Ho : ordinary twin_files "_start") by (apply ordinary_intro; vm_compute; reflexivity).
  assert (Hs : sole_home twin_files "_start" x) by (apply (sole_intro _ _ 1%nat); [exact Ex|vm_compute; reflexivity]).
  vm_compute in Ex. apply (inj Some) in Ex. vm_compute in Ey. apply (inj Some) in Ey.
  assert (Hl : lies_in x y) by (apply lies_b_spec; rewrite <- Ex, <- Ey; vm_compute; reflexivity).
  assert (Hf : offset_of twin_files x 0) by (exists 0%nat; rewrite <- Ex; split; vm_compute; reflexivity).
  destruct (C44_start _ _ _ _ _ _ _ _ x y 0 G L Ho Hs E Hw Hl Hf) as (s & H1 & H2); [reflexivity|].
  assert (Hn : si_name x = ".text") by (rewrite <- Ex; reflexivity). rewrite Hn in H1.
  rewrite forallb_forall in Ea. pose proof H1 as (Hs1 & Hs2 & _). apply elem_of_list_In in Hs1. specialize (Ea _ Hs1). cbv beta in Ea. rewrite bool_decide_eq_true_2 in Ea by exact Hs2. apply N.ltb_lt in Ea.
  exists w, secs, evs, s. split; [exact G|]. split; [exact L|]. split; [exact H1|]. split; [exact Ea|]. rewrite H2, <- Ey. cbn [yi_sym st_value]. lia.
Qed.
Definition lone_files : list (string * elf_obj) := [("b.o", arr_b)].
Example C44_none : exists w secs evs, good_link (demo_world lone_files []) demo_lib_oracle (demo_linker ["b.o"] []) 10 w secs /\
  loading (demo_world lone_files []) demo_lib_oracle (demo_linker ["b.o"] []) 10 lone_files evs /\ e_entry (w_eh w) = 0.
Proof.
  destruct (good_demo lone_files ["b.o"] [] (fun _ _ => true)) as (w & secs & evs & G & L & _); [vm_compute; reflexivity..|].
  change (cmd_objs (demo_world lone_files []) (demo_linker ["b.o"] [])) with lone_files in L.
  exists w, secs, evs. split; [exact G|]. split; [exact L|]. apply (C44_entry _ _ _ _ _ _ _ _ G L); [apply no_nul_intro; vm_compute; reflexivity|].
  assert (K : forallb (fun y => negb (String.eqb (yi_name y) "_start")) (all_syms lone_files) = true) by (vm_compute; reflexivity).
  intros y Hy. rewrite forallb_forall in K. apply elem_of_list_In in Hy. specialize (K y Hy). cbv beta in K. apply negb_true_iff, String.eqb_neq in K. exact K.
Qed.

(** * C46 *)

(** After a link every name of a global or weak symbol is defined by an object
    or by the linker, or is the name of a dynamic symbol of a library. Missing:
    that this dynamic symbol is a definition, see [C46_refuted]. *)
Theorem C46_partial : forall wd lo l fuel w secs es evs n y, good_link wd lo l fuel w secs -> loading wd lo l fuel es evs ->
  n <> "" -> all_standard n (all_syms es) -> y ∈ named n (all_syms es) -> binding (yi_sym y) <> 0 ->
  object_defines es n \/ linker_defines es n \/ exists sym, library_lists wd l n sym.
Proof. intros wd lo l fuel w secs es evs n y G L Hn Hst Hy Hb. exact (good_settled G L n y Hn Hy Hst Hb). Qed.
Print Assumptions C46_partial.

(** A reference to a name that the library only refers to itself. *)
Definition und_a : elf_obj := demo_obj [progbits ".text" 6 4 [0xc3]] [("_start", dsym 0x12 1 0 1); ("ext", dsym 0x10 0 0 0)] [].
Definition und_files : list (string * elf_obj) := [("a.o", und_a); ("/l/libu.so", demo_lib [("ext", dsym 0x12 0 0 0)])].
Definition und_wd : world := demo_world und_files [].
Definition und_l : linker := demo_linker ["a.o"] ["/l/libu.so"].
Definition und_objs : list (string * elf_obj) := [("a.o", und_a)].
Theorem C46_refuted : exists wd lo l fuel w secs es evs n y, good_link wd lo l fuel w secs /\ loading wd lo l fuel es evs /\
  n <> "" /\ all_standard n (all_syms es) /\ y ∈ named n (all_syms es) /\ binding (yi_sym y) <> 0 /\
  ~ object_defines es n /\ ~ linker_defines es n /\ forall sym, library_lists wd l n sym -> ~ defined sym.
Proof.
  destruct (good_demo und_files ["a.o"] ["/l/libu.so"] (fun _ _ => true)) as (w & secs & evs & G & L & _); [vm_compute; reflexivity..|].
  change (cmd_objs (demo_world und_files []) (demo_linker ["a.o"] ["/l/libu.so"])) with und_objs in L.
  destruct (ref_only_intro und_objs "ext") as (B1 & B2 & _); [vm_compute; reflexivity|].
  assert (Hy : exists y, named "ext" (all_syms und_objs) !! 0%nat = Some y /\ binding (yi_sym y) = 1) by (eexists; split; vm_compute; reflexivity). destruct Hy as (y & Hy & Hb).
  exists und_wd, demo_lib_oracle, und_l, 10%nat, w, secs, und_objs, evs, "ext", y. split; [exact G|]. split; [exact L|]. split; [discriminate|]. split; [exact B2|]. split; [by eapply elem_of_list_lookup_2|].
  split; [rewrite Hb; discriminate|]. split; [|split].
  - intros (z & Hz & [Hd|(x & Hx & Hn & Hl)]); [|exact (proj2 B1 x z Hx Hn Hz Hl)].
    assert (K : forallb (fun z => st_shndx (yi_sym z) =? 0) (named "ext" (all_syms und_objs)) = true) by (vm_compute; reflexivity).
    rewrite forallb_forall in K. apply elem_of_list_In in Hz. specialize (K z Hz). cbv beta in K. apply N.eqb_eq in K. exact (Hd K).
  - intros [H|(a & s & e & Ha & Hn & _)]; [discriminate|]. apply array_marks_kind in Ha as ([] & -> & -> & ->); cbn in Hn; rewrite !elem_of_cons, elem_of_nil in Hn; destruct Hn as [Hn|[Hn|[]]]; discriminate.
  - intros sym (path & e & [Hp He] & Hs & _) Hd. cbn in Hp. apply elem_of_list_singleton in Hp as ->. cbn in He. apply (inj Some), (inj Some) in He as <-.
    cbn in Hs. rewrite !elem_of_cons, elem_of_nil in Hs. destruct Hs as [-> |[-> |[]]]; apply Hd; reflexivity.
Qed.
Print Assumptions C46_refuted.

(** A name settled by a library, one by the linker and one by an object. *)
Example C46_case : exists w secs evs, main_good w secs /\ loading (demo_world demo_files []) demo_lib_oracle (demo_linker ["a.o"] ["/l/libfoo.so"]) 10 [("a.o", demo_main)] evs /\
  (exists y, y ∈ named "foo" (all_syms [("a.o", demo_main)]) /\ binding (yi_sym y) <> 0) /\ ~ object_defines [("a.o", demo_main)] "foo" /\ ~ linker_defines [("a.o", demo_main)] "foo" /\
  exists sym, library_lists (demo_world demo_files []) (demo_linker ["a.o"] ["/l/libfoo.so"]) "foo" sym /\ defined sym.
Proof.
  destruct (good_demo demo_files ["a.o"] ["/l/libfoo.so"] (fun _ _ => true)) as (w & secs & evs & G & L & _); [vm_compute; reflexivity..|].
  change (cmd_objs (demo_world demo_files []) (demo_linker ["a.o"] ["/l/libfoo.so"])) with [("a.o", demo_main)] in L.
  destruct (ref_only_intro [("a.o", demo_main)] "foo") as (B1 & B2 & _); [vm_compute; reflexivity|].
  assert (Hy : exists y, named "foo" (all_syms [("a.o", demo_main)]) !! 0%nat = Some y /\ binding (yi_sym y) = 1) by (eexists; split; vm_compute; reflexivity). destruct Hy as (y & Hy & Hb).
  exists w, secs, evs. split; [exact G|]. split; [exact L|]. split; [exists y; split; [by eapply elem_of_list_lookup_2|rewrite Hb; discriminate]|].
  assert (Hod : ~ object_defines [("a.o", demo_main)] "foo").
  { intros (z & Hz & [Hd|(x & Hx & Hn & Hl)]); [|exact (proj2 B1 x z Hx Hn Hz Hl)].
    assert (K : forallb (fun z => st_shndx (yi_sym z) =? 0) (named "foo" (all_syms [("a.o", demo_main)])) = true) by (vm_compute; reflexivity).
    rewrite forallb_forall in K. apply elem_of_list_In in Hz. specialize (K z Hz). cbv beta in K. apply N.eqb_eq in K. exact (Hd K). }
  assert (Hld : ~ linker_defines [("a.o", demo_main)] "foo").
  { intros [H|(a & s & e & Ha & Hn & _)]; [discriminate|]. apply array_marks_kind in Ha as ([] & -> & -> & ->); cbn in Hn; rewrite !elem_of_cons, elem_of_nil in Hn; destruct Hn as [Hn|[Hn|[]]]; discriminate. }
  split; [exact Hod|]. split; [exact Hld|].
  destruct (C46_partial _ _ _ _ _ _ _ _ "foo" y G L) as [H|[H|(sym & H)]]; [discriminate|exact B2|by eapply elem_of_list_lookup_2|rewrite Hb; discriminate|contradiction|contradiction|].
  exists sym. split; [exact H|]. destruct H as (path & e & [Hp He] & Hs & Hn). cbn in Hp. apply elem_of_list_singleton in Hp as ->. cbn in He. apply (inj Some), (inj Some) in He as <-.
  cbn in Hs. rewrite !elem_of_cons, elem_of_nil in Hs. destruct Hs as [-> |[-> |[-> |[]]]]; [cbn in Hn; discriminate|discriminate|discriminate].
Qed.
