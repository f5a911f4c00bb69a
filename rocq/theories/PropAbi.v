(** Groups, excluded sections, visibility, indirect functions and arrays run
    before all others (C91-C95). *)
From Verif Require Import SpecAbi DemoLink PropLayout PropFile PropGot PropMerge PropSyms PropFields PropExec PropBound PropLimits ProofMerge ProofFields ProofBind.

(** * C91 and C95 *)

Lemma ntotal_app' k1 k2 : ntotal (k1 ++ k2) = ntotal k1 + ntotal k2.
Proof. induction k1 as [|a k1 IH]; [reflexivity|]. cbn [app ntotal foldr] in *. unfold ntotal in *. cbn [foldr]. lia. Qed.
Lemma sublist_total (kept l : list sec_in) : sublist kept l -> ntotal (si_size <$> kept) <= ntotal (si_size <$> l).
Proof. induction 1 as [|a k1 k2 H IH|a k1 k2 H IH]; [reflexivity|..]; rewrite ?fmap_cons; unfold ntotal in *; cbn [foldr]; lia. Qed.
Lemma sublist_less (kept l : list sec_in) x : sublist kept l -> x ∈ l -> x ∉ kept -> ntotal (si_size <$> kept) + si_size x <= ntotal (si_size <$> l).
Proof.
  induction 1 as [|a k1 k2 H IH|a k1 k2 H IH]; intros Hx Hn; [by apply elem_of_nil in Hx|..].
  - apply not_elem_of_cons in Hn as [Hne Hn]. apply elem_of_cons in Hx as [->|Hx]; [done|]. specialize (IH Hx Hn). rewrite !fmap_cons. unfold ntotal in *. cbn [foldr]. lia.
  - rewrite fmap_cons. apply elem_of_cons in Hx as [->|Hx].
    + pose proof (sublist_total _ _ H). unfold ntotal in *. cbn [foldr]. lia.
    + specialize (IH Hx Hn). unfold ntotal in *. cbn [foldr]. lia.
Qed.
(** No section of an input is ever left out: its bytes are in the output. *)
Theorem C91_kept : forall wd lo l fuel w secs es evs x, good_link wd lo l fuel w secs -> loading wd lo l fuel es evs -> x ∈ all_secs es -> si_name x <> "" -> si_size x <> 0 ->
  ~ left_out w secs es x /\ exists s, the_sec w secs (si_name x) s.
Proof.
  intros wd lo l fuel w secs es evs x G L Hx Hn Hz. assert (Hc : x ∈ contribs (si_name x) (all_secs es)) by (apply elem_contribs; split; [reflexivity|exact Hx]).
  assert (Hne : contribs (si_name x) (all_secs es) <> []) by (intros E; rewrite E in Hc; by apply elem_of_nil in Hc).
  destruct (C40_partial _ _ _ _ _ _ _ _ _ G L Hn Hne) as (s & T & Hm & _). split; [|exists s; exact T].
  intros K. destruct (K s T) as (kept & Hk & Hxk & E). pose proof (sublist_less _ _ _ Hk Hc Hxk) as Q. lia.
Qed.
Print Assumptions C91_kept.
Theorem C91_always_refuted : forall wd lo l fuel w secs es evs x, good_link wd lo l fuel w secs -> loading wd lo l fuel es evs -> x ∈ all_secs es -> si_name x <> "" -> si_size x <> 0 ->
  superseded es x -> ~ left_out w secs es x.
Proof. intros wd lo l fuel w secs es evs x G L Hx Hn Hz _. exact (proj1 (C91_kept _ _ _ _ _ _ _ _ _ G L Hx Hn Hz)). Qed.
Print Assumptions C91_always_refuted.
Theorem C95_always_refuted : forall wd lo l fuel w secs es evs x, good_link wd lo l fuel w secs -> loading wd lo l fuel es evs -> x ∈ all_secs es -> si_name x <> "" -> si_size x <> 0 ->
  excluded x -> ~ left_out w secs es x /\ exists s, the_sec w secs (si_name x) s.
Proof. intros wd lo l fuel w secs es evs x G L Hx Hn Hz _. exact (C91_kept _ _ _ _ _ _ _ _ _ G L Hx Hn Hz). Qed.
Print Assumptions C95_always_refuted.

(** ** The same inline function in two objects *)
Definition with_info (i : N) (e : elf_obj) : elf_obj :=
  mkElfObj (eo_is_object e) (eo_data e) ((fun sh => if sh_type sh =? 17 then sh <| sh_info := i |> else sh) <$> eo_shdrs e) (eo_shstr e) (eo_syms e) (eo_strtab e) (eo_dynsyms e) (eo_dynstr e) (eo_relocs e).
Definition cd_a : elf_obj := with_info 2 (demo_obj [progbits ".text" 6 16 [0xe8; 0; 0; 0; 0; 0xc3]; relasec ".rela.text"; mkDsec ".group" 17 0 8 4 [1; 0; 0; 0; 4; 0; 0; 0]; progbits ".text.f" 6 1 [0x90; 0xc3]]
  [("_start", dsym 0x12 1 0 6); ("f", dsym 0x22 4 0 2)] [(2, [mkGreloc 1 (Some (-4)%Z) 2 4])]).
Definition cd_b : elf_obj := with_info 1 (demo_obj [mkDsec ".group" 17 0 8 4 [1; 0; 0; 0; 2; 0; 0; 0]; progbits ".text.f" 6 1 [0x90; 0xc3]] [("f", dsym 0x22 2 0 2)] []).
Definition cd_files : list (string * elf_obj) := [("a.o", cd_a); ("b.o", cd_b)].
Lemma comdat_intro e sig ms i : match eo_shdrs e !! i with
    | Some sh => (sh_type sh =? 17) && match file_data (eo_data e) sh, eo_syms e !! N.to_nat (sh_info sh) with
        | Some bs, Some y => bool_decide (group_words bs = Some (1 :: ms)) && bool_decide (eo_strtab e (st_name y) = Some sig) | _, _ => false end
    | None => false end = true -> comdat e sig ms.
Proof.
  destruct (eo_shdrs e !! i) as [sh|] eqn:Hi; [|discriminate]. rewrite andb_true_iff, N.eqb_eq. intros [H1 H]. destruct (file_data (eo_data e) sh) as [bs|] eqn:Hb; [|discriminate H]. destruct (eo_syms e !! N.to_nat (sh_info sh)) as [y|] eqn:Hy; [|discriminate H].
  apply andb_true_iff in H as [H2 H3]. apply bool_decide_eq_true_1 in H2, H3. exists sh, bs, 1, y. split; [eapply elem_of_list_lookup_2; exact Hi|]. split; [exact H1|]. split; [exact Hb|]. split; [exact H2|]. split; [reflexivity|]. split; [exact Hy|exact H3].
Qed.
(** Both copies are in the output, and the call of the function ends at an
    address at which there is nothing: the two addresses are added (C87). *)
Theorem C91_refuted : exists wd lo l fuel w secs data es evs env x q off p p' s c c', runnable wd lo l fuel w secs data /\ loading wd lo l fuel es evs /\
  (exists x', x' ∈ all_secs es /\ superseded es x' /\ ~ left_out w secs es x') /\
  rel_site es x q off /\ rel_against es q "f" /\ rel_type (ri_rel q) = 4 /\ rel_addend q = (-4)%Z /\ opcode es x q 0xe8 /\ proper env (w_program_headers w) /\ start env data = Some p /\
  the_sec w secs (si_name x) s /\ code s /\ ip c = addr s + field_off off q - 1 /\ goes env (p, c) (p', c') /\ ip c' <> en_resolver env /\ pr_mem p' (ip c') = None /\ execute p' c' = None.
Proof.
  destruct (runnable_demo cd_files ["a.o"; "b.o"] [] (fun w secs data => negb (can_run (w_program_headers w) (en_resolver run_env)) && match start run_env data with
    | Some p => only_b w secs ".text" (fun s => code_b s && match ticks run_env 1 (p, mkCpu (addr s + (0 + 1) - 1) [] (fun _ => 0)) with
      | Some (p', c') => negb (ip c' =? en_resolver run_env) && bool_decide (pr_mem p' (ip c') = None) && match execute p' c' with None => true | _ => false end | None => false end)
    | None => false end)) as (w & secs & evs & data & R & L & E); [vm_compute; reflexivity|vm_compute; reflexivity|vm_compute; reflexivity|].
  change (cmd_objs (demo_world cd_files []) (demo_linker ["a.o"; "b.o"] [])) with cd_files in L. rewrite andb_true_iff in E; destruct E as [E0 E]; apply run_proper in E0.
  destruct (start run_env data) as [p|] eqn:Ep; [|discriminate E]. apply only_intro in E as (s & Ts & E). apply andb_true_iff in E as [Ec E]. apply code_intro in Ec.
  destruct (ticks _ _ _) as [[p' c']|] eqn:Et; [|discriminate E]. apply ticks_goes in Et. rewrite !andb_true_iff, !negb_true_iff in E. destruct E as [[Eb Em] Ex]. apply N.eqb_neq in Eb. apply bool_decide_eq_true_1 in Em.
  destruct (execute p' c') eqn:Ee; [discriminate Ex|].
  assert (Q : match all_secs cd_files !! 1%nat, all_rels cd_files !! 0%nat with
    | Some x, Some q => site_b cd_files x q 0 0 0 && String.eqb (si_name x) ".text" && against_b cd_files q "f" && (rel_type (ri_rel q) =? 4) && (gr_offset (ri_rel q) =? 1) && (rel_addend q =? -4)%Z && opcode_b cd_files x q 0xe8
    | _, _ => false end = true) by (vm_compute; reflexivity).
  destruct (all_secs cd_files !! 1%nat) as [x|] eqn:Hx; [|discriminate Q]. destruct (all_rels cd_files !! 0%nat) as [q|] eqn:Hq; [|discriminate Q]. rewrite !andb_true_iff, String.eqb_eq, !N.eqb_eq, Z.eqb_eq in Q.
  destruct Q as [[[[[[Q1 Q2] Q3] Q4] Q5] Q6] Q7].
  assert (X : match all_secs cd_files !! 6%nat with Some x => (si_obj x =? 1)%nat && (si_idx x =? 2)%nat && String.eqb (si_name x) ".text.f" && (si_size x =? 2) | None => false end = true) by (vm_compute; reflexivity).
  destruct (all_secs cd_files !! 6%nat) as [x'|] eqn:Hx'; [|discriminate X]. rewrite !andb_true_iff, String.eqb_eq, !Nat.eqb_eq, N.eqb_eq in X. destruct X as [[[X1 X2] X3] X4]. pose proof (elem_of_list_lookup_2 _ _ _ Hx') as Hin.
  assert (S : superseded cd_files x').
  { exists 0%nat, "b.o", cd_b, "a.o", cd_a, "f", [2], [4]. rewrite X1, X2. split; [reflexivity|]. split; [reflexivity|]. split; [lia|]. split; [apply (comdat_intro _ _ _ 1%nat); vm_compute; reflexivity|]. split; [left|].
    apply (comdat_intro _ _ _ 3%nat). vm_compute. reflexivity. }
  eexists _, _, _, _, w, secs, data, cd_files, evs, run_env, x, q, 0, p, p', s, (mkCpu (addr s + (0 + 1) - 1) [] (fun _ => 0)), c'.
  split; [exact R|]. split; [exact L|]. split; [exists x'; split; [exact Hin|split; [exact S|]]|].
  { apply (C91_always_refuted _ _ _ _ _ _ _ _ _ (rn_good _ _ _ _ _ _ _ R) L Hin); [rewrite X3; discriminate|rewrite X4; discriminate|exact S]. }
  split; [eapply site_intro; [exact Hx|exact Hq|exact Q1]|]. split; [by apply against_intro|]. split; [exact Q4|]. split; [exact Q6|]. split; [by apply opcode_intro|]. split; [exact E0|]. split; [exact Ep|]. rewrite Q2. split; [exact Ts|]. split; [exact Ec|].
  split; [unfold field_off; rewrite Q5; reflexivity|]. split; [exact Et|]. split; [exact Eb|]. split; [exact Em|exact Ee].
Qed.
Print Assumptions C91_refuted.

(** ** A section not for the output *)
Definition ex_a : elf_obj := demo_obj [progbits ".text" 6 16 [0xc3]; progbits ".llvm_addrsig" 0x80000000 1 [1; 2; 3]] [("_start", dsym 0x12 1 0 1)] [].
Theorem C95_refuted : exists wd lo l fuel w secs es evs x s, good_link wd lo l fuel w secs /\ loading wd lo l fuel es evs /\ x ∈ all_secs es /\ excluded x /\ the_sec w secs (si_name x) s /\ contents s = si_bytes x /\ contents s <> [].
Proof.
  destruct (good_demo [("a.o", ex_a)] ["a.o"] [] (fun w secs => only_b w secs ".llvm_addrsig" (fun s => bool_decide (contents s = [1; 2; 3])))) as (w & secs & evs & G & L & E); [vm_compute; reflexivity..|].
  change (cmd_objs (demo_world [("a.o", ex_a)] []) (demo_linker ["a.o"] [])) with [("a.o", ex_a)] in L. apply only_intro in E as (s & Ts & E). apply bool_decide_eq_true_1 in E.
  assert (X : match all_secs [("a.o", ex_a)] !! 2%nat with Some x => String.eqb (si_name x) ".llvm_addrsig" && bool_decide (si_bytes x = [1; 2; 3]) && N.testbit (sh_flags (si_sh x)) 31 | None => false end = true) by (vm_compute; reflexivity).
  destruct (all_secs [("a.o", ex_a)] !! 2%nat) as [x|] eqn:Hx; [|discriminate X]. rewrite !andb_true_iff, String.eqb_eq in X. destruct X as [[X1 X2] X3]. apply bool_decide_eq_true_1 in X2.
  eexists _, _, _, _, w, secs, _, evs, x, s. split; [exact G|]. split; [exact L|]. split; [eapply elem_of_list_lookup_2; exact Hx|]. split; [exact X3|]. rewrite X1, X2. split; [exact Ts|]. split; [exact E|rewrite E; discriminate].
Qed.
Print Assumptions C95_refuted.

(** * C92: hidden names *)

(** A hidden name that nothing in the program defines is left to the libraries,
    like any other: it is in .dynsym whenever the link is finished. *)
Theorem C92_always_refuted : forall wd lo l fuel w secs es evs n y, good_link wd lo l fuel w secs -> loading wd lo l fuel es evs -> no_nuls es ->
  n <> "" -> y ∈ named n (all_syms es) -> all_standard n (all_syms es) -> binding (yi_sym y) <> 0 -> hidden (yi_sym y) -> ~ object_defines es n -> ~ linker_defines es n ->
  exists j d, dynsym_entry w secs n j d.
Proof. intros wd lo l fuel w secs es evs n y G L Hnn Hn Hy Hst Hb _ Hod Hld. exact (C76_listed _ _ _ _ _ _ _ _ _ _ G L Hnn Hn Hy Hst Hb Hod Hld). Qed.
Print Assumptions C92_always_refuted.
Definition hid_sym : Sym := dsym 0x10 0 0 0 <| st_other := 2 |>.
Definition hid_a : elf_obj := demo_obj [progbits ".text" 6 16 [0xe8; 0; 0; 0; 0; 0xc3]; relasec ".rela.text"] [("_start", dsym 0x12 1 0 6); ("f", hid_sym)] [(2, [mkGreloc 1 (Some (-4)%Z) 2 4])].
Definition hid_files : list (string * elf_obj) := [("a.o", hid_a); ("/l/libf.so", wf_lib)].
Theorem C92_refuted : exists wd lo l fuel w secs es evs n y j d, good_link wd lo l fuel w secs /\ loading wd lo l fuel es evs /\ n <> "" /\ y ∈ named n (all_syms es) /\ hidden (yi_sym y) /\ ~ object_defines es n /\ ~ linker_defines es n /\ dynsym_entry w secs n j d.
Proof.
  destruct (good_demo hid_files ["a.o"] ["/l/libf.so"] (fun _ _ => true)) as (w & secs & evs & G & L & _); [vm_compute; reflexivity..|].
  change (cmd_objs (demo_world hid_files []) (demo_linker ["a.o"] ["/l/libf.so"])) with [("a.o", hid_a)] in L. assert (Hnn : no_nuls [("a.o", hid_a)]) by (apply no_nul_intro; vm_compute; reflexivity).
  assert (Q : match all_rels [("a.o", hid_a)] !! 0%nat, named "f" (all_syms [("a.o", hid_a)]) !! 0%nat with
    | Some q, Some y => left_b [("a.o", hid_a)] q "f" && (binding (yi_sym y) =? 1) && (st_other (yi_sym y) mod 4 =? 2) | _, _ => false end = true) by (vm_compute; reflexivity).
  destruct (all_rels [("a.o", hid_a)] !! 0%nat) as [q|]; [|discriminate Q]. destruct (named "f" (all_syms [("a.o", hid_a)]) !! 0%nat) as [y|] eqn:Hy; [|discriminate Q]. rewrite !andb_true_iff, !N.eqb_eq in Q. destruct Q as [[Q1 Q2] Q3].
  apply left_intro in Q1 as (H1 & H2 & _ & H4 & H5). apply elem_of_list_lookup_2 in Hy. assert (B : binding (yi_sym y) <> 0) by (rewrite Q2; discriminate).
  destruct (C92_always_refuted _ _ _ _ _ _ _ _ _ _ G L Hnn H1 Hy H2 B (or_intror Q3) H4 H5) as (j & d & Hd).
  eexists _, _, _, _, w, secs, _, evs, "f", y, j, d. split; [exact G|]. split; [exact L|]. split; [exact H1|]. split; [exact Hy|]. split; [right; exact Q3|]. split; [exact H4|]. split; [exact H5|exact Hd].
Qed.
Print Assumptions C92_refuted.

(** * C93: indirect functions *)

(** No output has an IRELATIVE record. *)
Theorem C93_always_refuted : forall wd lo l fuel w secs, good_link wd lo l fuel w secs -> ~ resolved_at_start w secs.
Proof.
  intros wd lo l fuel w secs G (s & r & recs & Hs & Hr & Hin & Hty). destruct Hs as [Hs|Hs].
  - destruct (C26 _ _ _ _ _ _ G) as (got & rd' & _ & _ & _ & recs' & _ & T & _ & _ & _ & Hr' & _ & _ & K). rewrite (the_one _ _ _ _ _ Hs T) in Hr'. rewrite Hr in Hr'. injection Hr' as <-.
    destruct (K r Hin) as [Hk|Hk]; [|apply proj1 in Hk]; rewrite Hk in Hty; discriminate Hty.
  - destruct (C25 _ _ _ _ _ _ G) as (pl & g & rp & ss & ds & sd & recs' & _ & _ & T & _ & _ & _ & Hr' & _ & _ & K1 & K2). rewrite (the_one _ _ _ _ _ Hs T) in Hr'. rewrite Hr in Hr'. injection Hr' as <-.
    apply elem_of_list_lookup in Hin as [k Hk]. destruct (K2 k r Hk) as (n & sy & i & Hn & Hi & St). destruct (K1 n sy i Hn Hi) as (k' & j & St' & Hk' & _).
    destruct St as (_ & St & _), St' as (_ & St' & _). rewrite St in St'. assert (k' = N.of_nat k) as -> by (injection St'; lia). rewrite Nat2N.id, Hk in Hk'. injection Hk' as ->.
    rewrite record_type in Hty by reflexivity. discriminate Hty.
Qed.
Print Assumptions C93_always_refuted.
(** f is an indirect function: its code, mov-free here, returns the address of
    the function to use. The call runs that code instead. *)
Definition ifn_a : elf_obj := demo_obj [progbits ".text" 6 16 [0xe8; 0; 0; 0; 0; 0xc3; 0x90; 0xc3]; relasec ".rela.text"] [("_start", dsym 0x12 1 0 6); ("f", dsym 0x1a 1 6 2)] [(2, [mkGreloc 1 (Some (-4)%Z) 2 4])].
Definition ifn_files : list (string * elf_obj) := [("a.o", ifn_a)].
Theorem C93_refuted : exists wd lo l fuel w secs data es evs env x q off x' off' y p p' s s' c c', runnable wd lo l fuel w secs data /\ loading wd lo l fuel es evs /\ ~ resolved_at_start w secs /\
  rel_site es x q off /\ rel_against es q "f" /\ rel_type (ri_rel q) = 4 /\ rel_addend q = (-4)%Z /\ opcode es x q 0xe8 /\ defined_in es "f" x' off' y /\ typ (yi_sym y) = 10 /\
  proper env (w_program_headers w) /\ start env data = Some p /\ the_sec w secs (si_name x) s /\ code s /\ ip c = addr s + field_off off q - 1 /\ the_sec w secs (si_name x') s' /\
  goes env (p, c) (p', c') /\ ip c' = addr s' + off' + st_value (yi_sym y).
Proof.
  destruct (runnable_demo ifn_files ["a.o"] [] (fun w secs data => negb (can_run (w_program_headers w) (en_resolver run_env)) && match start run_env data with
    | Some p => only_b w secs ".text" (fun s => code_b s && match ticks run_env 1 (p, mkCpu (addr s + (0 + 1) - 1) [] (fun _ => 0)) with
      | Some (p', c') => ip c' =? addr s + 0 + 6 | None => false end)
    | None => false end)) as (w & secs & evs & data & R & L & E); [vm_compute; reflexivity|vm_compute; reflexivity|vm_compute; reflexivity|].
  change (cmd_objs (demo_world ifn_files []) (demo_linker ["a.o"] [])) with ifn_files in L. rewrite andb_true_iff in E; destruct E as [E0 E]; apply run_proper in E0.
  destruct (start run_env data) as [p|] eqn:Ep; [|discriminate E]. apply only_intro in E as (s & Ts & E). apply andb_true_iff in E as [Ec E]. apply code_intro in Ec.
  destruct (ticks _ _ _) as [[p' c']|] eqn:Et; [|discriminate E]. apply ticks_goes in Et. apply N.eqb_eq in E.
  assert (Q : match all_secs ifn_files !! 1%nat, all_rels ifn_files !! 0%nat with
    | Some x, Some q => site_b ifn_files x q 0 0 0 && String.eqb (si_name x) ".text" && against_b ifn_files q "f" && (rel_type (ri_rel q) =? 4) && (gr_offset (ri_rel q) =? 1) && (rel_addend q =? -4)%Z && opcode_b ifn_files x q 0xe8
    | _, _ => false end = true) by (vm_compute; reflexivity).
  assert (D : exists x y, all_secs ifn_files !! 1%nat = Some x /\ contribs ".text" (all_secs ifn_files) !! 0%nat = Some x /\ winner "f" (all_syms ifn_files) = Some y /\
    typ (yi_sym y) = 10 /\ lies_b x y = true /\ st_value (yi_sym y) = 6 /\ si_name x = ".text" /\ si_size x = 8 /\ bool_decide (is_Some (si_data x)) = true)
    by (eexists _, _; split; [vm_compute; reflexivity|]; split; [vm_compute; reflexivity|]; split; [vm_compute; reflexivity|]; vm_compute; repeat split).
  destruct D as (x' & y & Hx' & Hc & Hy & Hb & Hl & Hv & Hn & Hz & Hd). apply bool_decide_eq_true_1 in Hd. rewrite <- Hn in Hc. pose proof (offset_intro _ _ _ _ Hx' Hc) as Ho. change (offset_of ifn_files x' 0) in Ho.
  destruct (all_secs ifn_files !! 1%nat) as [x|] eqn:Hx; [|discriminate Q]. destruct (all_rels ifn_files !! 0%nat) as [q|] eqn:Hq; [|discriminate Q]. rewrite !andb_true_iff, String.eqb_eq, !N.eqb_eq, Z.eqb_eq in Q.
  destruct Q as [[[[[[Q1 Q2] Q3] Q4] Q5] Q6] Q7].
  eexists _, _, _, _, w, secs, data, ifn_files, evs, run_env, x, q, 0, x', 0, y, p, p', s, s, (mkCpu (addr s + (0 + 1) - 1) [] (fun _ => 0)), c'.
  split; [exact R|]. split; [exact L|]. split; [exact (C93_always_refuted _ _ _ _ _ _ (rn_good _ _ _ _ _ _ _ R))|].
  split; [eapply site_intro; [exact Hx|exact Hq|exact Q1]|]. split; [by apply against_intro|]. split; [exact Q4|]. split; [exact Q6|]. split; [by apply opcode_intro|].
  split. { split; [apply ordinary_intro; vm_compute; reflexivity|]. split; [apply (sole_intro _ _ 1%nat); [rewrite Hx; exact Hx'|vm_compute; reflexivity]|]. split; [exact Hy|]. split; [apply lies_b_spec; exact Hl|]. split; [exact Ho|].
    split; [intros K; rewrite K in Hd; by apply is_Some_None in Hd|]. rewrite Hv, Hz. discriminate. }
  split; [exact Hb|]. split; [exact E0|]. split; [exact Ep|]. rewrite Q2, Hn. split; [exact Ts|]. split; [exact Ec|]. split; [unfold field_off; rewrite Q5; reflexivity|]. split; [exact Ts|]. split; [exact Et|]. rewrite Hv. exact E.
Qed.
Print Assumptions C93_refuted.

(** * C94: .preinit_array *)

(** .dynamic never says where it is. *)
Theorem C94_always_refuted : forall wd lo l fuel w secs, valid_oracle (lo_writer lo) -> links wd lo l fuel w secs -> plain_inputs wd l -> stt_total_len (w_shstrtab w) < 2^32 -> headers_fit w secs -> ~ preinit_found secs.
Proof.
  intros wd lo l fuel w secs V L P Ht HF (d & es & v & Hd & Hty & Hr & Hin). destruct (C38 _ _ _ _ _ _ V L P Ht HF) as (d' & needed & facts & _ & _ & U & Hr' & _ & Hn & Hs & _).
  rewrite (U d Hd Hty) in Hr. rewrite Hr' in Hr. injection Hr as <-. apply elem_of_app in Hin as [Hin|Hin]; [pose proof (proj1 (Forall_forall _ _) Hn _ Hin) as K; discriminate K|].
  apply elem_of_app in Hin as [Hin|Hin]; [|apply elem_of_list_singleton in Hin; discriminate Hin]. destruct (Hs _ Hin) as (s & _ & St). exact St.
Qed.
Print Assumptions C94_always_refuted.
Definition pre_a : elf_obj := demo_obj [progbits ".text" 6 16 [0xc3; 0xc3]; mkDsec ".preinit_array" 16 3 8 8 (zeros 8); relasec ".rela.preinit_array"] [("_start", dsym 0x12 1 0 1); ("c1", dsym 0x12 1 1 1)] [(3, [mkGreloc 0 (Some 0%Z) 2 1])].
Local Instance headers_fit_dec2 w secs : Decision (headers_fit w secs).
Proof. unfold headers_fit, ehdr_fits, phdr_fits, shdr_fits. apply _. Defined.
Theorem C94_refuted : exists wd lo l fuel w secs es evs x s, good_link wd lo l fuel w secs /\ loading wd lo l fuel es evs /\ x ∈ all_secs es /\ sh_type (si_sh x) = 16 /\ the_sec w secs (si_name x) s /\ alloc s = true /\ sh_type (sc_sh s) = 16 /\ memsz s = 8 /\ ~ preinit_found secs.
Proof.
  destruct (good_demo [("a.o", pre_a)] ["a.o"] [] (fun w secs => usual w secs && bool_decide (headers_fit w secs) && only_b w secs ".preinit_array" (fun s => alloc s && (sh_type (sc_sh s) =? 16) && (memsz s =? 8)))) as (w & secs & evs & G & L & E); [vm_compute; reflexivity..|].
  change (cmd_objs (demo_world [("a.o", pre_a)] []) (demo_linker ["a.o"] [])) with [("a.o", pre_a)] in L. rewrite !andb_true_iff in E. destruct E as [[E1 E2] E]. apply usual_spec in E1 as (_ & Ht & _). apply bool_decide_eq_true_1 in E2. apply only_intro in E as (s & Ts & E).
  rewrite !andb_true_iff, !N.eqb_eq in E. destruct E as [[Ea Et] Em].
  assert (X : match all_secs [("a.o", pre_a)] !! 2%nat with Some x => String.eqb (si_name x) ".preinit_array" && (sh_type (si_sh x) =? 16) | None => false end = true) by (vm_compute; reflexivity).
  destruct (all_secs [("a.o", pre_a)] !! 2%nat) as [x|] eqn:Hx; [|discriminate X]. rewrite !andb_true_iff, String.eqb_eq, N.eqb_eq in X. destruct X as [X1 X2].
  eexists _, _, _, _, w, secs, _, evs, x, s. split; [exact G|]. split; [exact L|]. split; [eapply elem_of_list_lookup_2; exact Hx|]. split; [exact X2|]. rewrite X1. split; [exact Ts|]. split; [exact Ea|]. split; [exact Et|]. split; [exact Em|].
  exact (C94_always_refuted _ _ _ _ _ _ (gl_oracle _ _ _ _ _ _ G) (gl_links _ _ _ _ _ _ G) (gl_inputs _ _ _ _ _ _ G) Ht E2).
Qed.
Print Assumptions C94_refuted.

(** * C96: relocations without a symbol *)

(** They are not applied: the field has the bytes of the input. *)
Theorem C96_kept : forall wd lo l fuel w secs es evs x r k, good_link wd lo l fuel w secs -> loading wd lo l fuel es evs -> x ∈ all_secs es -> si_name x <> "" -> si_data x <> None -> symbolless es x r ->
  gr_offset r + k < si_size x -> unrelocated es x (gr_offset r + k) ->
  exists s off, the_sec w secs (si_name x) s /\ offset_of es x off /\ contents s !! N.to_nat (off + (gr_offset r + k)) = si_bytes x !! N.to_nat (gr_offset r + k).
Proof.
  intros wd lo l fuel w secs es evs x r k G L Hx Hn Hd _ Hk Hu. assert (Hc : x ∈ contribs (si_name x) (all_secs es)) by (apply elem_contribs; split; [reflexivity|exact Hx]). apply elem_of_list_lookup in Hc as [j Hj].
  destruct (C45_partial _ _ _ _ _ _ _ _ _ _ _ G L Hn Hj Hd) as (s & T & H). exists s, (ntotal (si_size <$> take j (contribs (si_name x) (all_secs es)))). split; [exact T|]. split; [exists j; split; [exact Hj|reflexivity]|]. exact (H _ Hk Hu).
Qed.
Print Assumptions C96_kept.
Definition sl_a : elf_obj := demo_obj [progbits ".text" 6 16 [0xc3]; progbits ".data" 3 8 (zeros 8); relasec ".rela.data"] [("_start", dsym 0x12 1 0 1)] [(3, [mkGreloc 0 (Some 0x1234%Z) 0 1])].
Theorem C96_refuted : exists wd lo l fuel w secs es evs x r, good_link wd lo l fuel w secs /\ loading wd lo l fuel es evs /\ x ∈ all_secs es /\ symbolless es x r /\ rel_type r = 1 /\ gr_offset r + 8 <= si_size x /\
  (forall k, k < 8 -> unrelocated es x (gr_offset r + k)) /\ ~ holds_addend w secs es x r.
Proof.
  destruct (good_demo [("a.o", sl_a)] ["a.o"] [] (fun w secs => only_b w secs ".data" (fun s => bool_decide (rd 8 (contents s) (0 + 0) = Some 0)))) as (w & secs & evs & G & L & E); [vm_compute; reflexivity..|].
  change (cmd_objs (demo_world [("a.o", sl_a)] []) (demo_linker ["a.o"] [])) with [("a.o", sl_a)] in L. apply only_intro in E as (s & Ts & E). apply bool_decide_eq_true_1 in E.
  assert (X : exists x, all_secs [("a.o", sl_a)] !! 2%nat = Some x /\ contribs ".data" (all_secs [("a.o", sl_a)]) !! 0%nat = Some x /\ si_name x = ".data" /\ si_obj x = 0%nat /\ si_idx x = 2%nat /\ si_size x = 8 /\ all_rels [("a.o", sl_a)] = [])
    by (eexists; split; [vm_compute; reflexivity|]; split; [vm_compute; reflexivity|]; vm_compute; repeat split). destruct X as (x & Hx & Hc & X1 & X2 & X3 & X4 & X5).
  rewrite <- X1 in Hc. pose proof (offset_intro _ _ _ _ Hx Hc) as Ho. change (offset_of [("a.o", sl_a)] x 0) in Ho.
  eexists _, _, _, _, w, secs, _, evs, x, (mkGreloc 0 (Some 0x1234%Z) 0 1). split; [exact G|]. split; [exact L|]. split; [eapply elem_of_list_lookup_2; exact Hx|].
  split. { exists "a.o", sl_a, 3, [mkGreloc 0 (Some 0x1234%Z) 0 1]. rewrite X2, X3. split; [reflexivity|]. split; [left|]. split; [reflexivity|]. split; [left|reflexivity]. }
  split; [reflexivity|]. split; [rewrite X4; discriminate|]. split; [intros k _ r Hr; rewrite X5 in Hr; by apply elem_of_nil in Hr|].
  intros K. rewrite <- X1 in Ts. specialize (K s 0 Ts Ho). cbn [gr_offset] in K. rewrite E in K. vm_compute in K. discriminate K.
Qed.
Print Assumptions C96_refuted.
