(** Iteration orders of hash sets and maps (C56, C68). *)
From Verif Require Import ProofBase DemoLink PropLayout PropFile PropGot PropSyms SpecFields SpecOrder ProofOrder.

(** The order in which the symbols of each chunk are listed does not matter
    for the symbol values given by patching. *)
Theorem C56_patch : forall s s' t, relisted_sec s s' -> patch_symbol_values s' t = patch_symbol_values s t.
Proof. exact patch_relisted. Qed.
Print Assumptions C56_patch.
(** Nor, after layout, for anything in the file. *)
Theorem C56_file : forall o w w', relisted w w' -> after_layout o w' = after_layout o w.
Proof. exact after_relisted. Qed.
Print Assumptions C56_file.
(** A finished link ends that way. *)
Theorem C56_ends : forall o w w1, assign_section_addresses o w = Ok w1 ->
  (w' ← compute_sections o w; write_to_disk o w') = after_layout o w1.
Proof.
  intros o w w1 H. unfold compute_sections, after_layout. rewrite H. cbn [mbind res_bind]. destruct (handle_special_symbols w1) as [w2| |]; [|reflexivity..]. cbn [mbind res_bind].
  destruct (handle_relocations w2) as [w3| |]; [|reflexivity..]. cbn [mbind res_bind]. by destruct (finish_header (compute_tables w3)).
Qed.
Print Assumptions C56_ends.
(** PLT and .got.plt: the order in which the map of entries is listed. *)
Theorem C56_plt : forall entries entries' w w', entries ≡ₚ entries' -> NoDup entries.*2 ->
  (forall r off, (r, off) ∈ entries -> exists sym i, syt_get (w_symtab w) r = Some sym /\ s_in_plt sym = Some i /\ off = 8 * (i + 3)) ->
  patch_plt_and_got_plt_in entries w = Ok w' -> patch_plt_and_got_plt_in entries' w = Ok w'.
Proof. exact C24_any_order. Qed.
Print Assumptions C56_plt.

(** Four symbols in one chunk, listed in two orders. *)
Definition or_files : list (string * elf_obj) := [("a.o", demo_obj [progbits ".text" 6 4 [0xc3; 0xc3; 0xc3]; progbits ".data" 3 4 [1; 2; 3; 4]]
  [("_start", dsym 0x12 1 0 1); ("f", dsym 0x12 1 1 1); ("g", dsym 0x12 1 2 1); ("x", dsym 0x11 2 0 4); ("y", dsym 0x11 2 2 2)] [])].
Definition rev_sets (s : section) : section := s <| sc_chunks := (fun c => c <| c_symbols := rev (c_symbols c) |>) <$> sc_chunks s |>.
Lemma rev_relisted s : relisted_sec s (rev_sets s).
Proof.
  unfold relisted_sec, rev_sets. cbn. split_and!; try reflexivity. induction (sc_chunks s) as [|c cs IH]; [constructor|]. rewrite fmap_cons. constructor; [|exact IH]. unfold relisted_chunk. cbn. split_and!; try reflexivity.
  symmetry. apply Permutation_rev.
Qed.
Example C56_case : exists w w', demo_run or_files ["a.o"] [] = Ok w /\ relisted w w' /\ w_sections w' <> w_sections w /\
  (exists s c, s ∈ w_sections w /\ c ∈ sc_chunks s /\ length (c_symbols c) = 3%nat).
Proof.
  destruct (demo_links or_files ["a.o"] [] (fun w _ => any (w_sections w) (fun s => any (sc_chunks s) (fun c => (length (c_symbols c) =? 3)%nat)) &&
    any (w_sections w) (fun s => any (sc_chunks s) (fun c => bool_decide (rev (c_symbols c) <> c_symbols c))))) as (w & secs & [H _] & E); [vm_compute; reflexivity|].
  apply andb_true_iff in E as [E1 E2]. exists w, (w <| w_sections := rev_sets <$> w_sections w |>). split; [exact H|]. split; [|split].
  - split; [reflexivity|]. cbn. induction (w_sections w) as [|s l IH]; [constructor|]. rewrite fmap_cons. constructor; [apply rev_relisted|].
    clear -l. induction l as [|s l IH]; [constructor|]. rewrite fmap_cons. constructor; [apply rev_relisted|exact IH].
  - apply any_spec in E2 as (s & Hs & E2). apply any_spec in E2 as (c & Hc & E2). apply bool_decide_eq_true_1 in E2. cbn. intros Heq. apply E2.
    apply elem_of_list_lookup in Hs as [i Hi]. apply (f_equal (fun l => l !! i)) in Heq. rewrite list_lookup_fmap, Hi in Heq. cbn in Heq. apply (inj Some) in Heq.
    apply elem_of_list_lookup in Hc as [j Hj]. apply (f_equal (fun s => sc_chunks s !! j)) in Heq. unfold rev_sets in Heq. cbn in Heq. rewrite list_lookup_fmap, Hj in Heq. cbn in Heq. apply (inj Some) in Heq. by apply (f_equal c_symbols) in Heq.
  - apply any_spec in E1 as (s & Hs & E1). apply any_spec in E1 as (c & Hc & E1). apply Nat.eqb_eq in E1. exists s, c. split; [exact Hs|]. split; [exact Hc|exact E1].
Qed.

(** * C68 *)

(** Beyond patching the order does matter: copied objects get their addresses
    in the order in which the symbol table's map is listed. *)
Definition other_oracle : lib_oracle := mkLibOracle (mkOracle (@rev N) id (o_sort demo_oracle)) (fun _ => id) (fun _ _ => id).
Lemma other_valid : valid_oracle (lo_writer other_oracle).
Proof. destruct demo_valid as [_ _ H]. split; [intros k; cbn; symmetry; apply Permutation_rev|intros k; reflexivity|exact H]. Qed.
Definition cp_files : list (string * elf_obj) := [("a.o", demo_obj [progbits ".text" 6 4 [0x8b; 0x05; 0; 0; 0; 0; 0x8b; 0x05; 0; 0; 0; 0; 0xc3]; relasec ".rela.text"]
  [("_start", dsym 0x12 1 0 13); ("x", dsym 0x10 0 0 0); ("y", dsym 0x10 0 0 0)] [(2, [mkGreloc 2 (Some (-4)%Z) 2 2; mkGreloc 8 (Some (-4)%Z) 3 2])]);
  ("/l/lib.so", demo_lib [("x", dsym 0x11 8 0x2000 4); ("y", dsym 0x11 8 0x2004 8)])].
Definition dynsym_is (w : writer) (secs : list section) (n : string) (d : Sym) : Prop :=
  exists t st i, t ∈ secs /\ sec_name w t = Some ".dynsym" /\ st ∈ secs /\ sec_name w st = Some ".dynstr" /\ rd_sym (contents t) (24 * i) = Some d /\ cstr_at (contents st) (st_name d) = Some (string_bytes n).
Definition dynsym_b (w : writer) (secs : list section) (n : string) (f : Sym -> bool) : bool :=
  any secs (fun t => if bool_decide (sec_name w t = Some ".dynsym") then any secs (fun st => if bool_decide (sec_name w st = Some ".dynstr") then
    any (seq 0 (length (contents t) / 24)) (fun i => match rd_sym (contents t) (24 * N.of_nat i) with
      | Some sym => if bool_decide (cstr_at (contents st) (st_name sym) = Some (string_bytes n)) then f sym else false | None => false end) else false) else false).
Lemma dynsym_intro w secs n f : dynsym_b w secs n f = true -> exists sym, dynsym_is w secs n sym /\ f sym = true.
Proof.
  unfold dynsym_b. intros H. apply any_spec in H as (t & Ht & H). case_bool_decide as H1; [|discriminate]. apply any_spec in H as (st & Hst & H). case_bool_decide as H2; [|discriminate].
  apply any_spec in H as (i & Hi & H). destruct (rd_sym _ _) as [sym|] eqn:Es; [|discriminate]. case_bool_decide as H3; [|discriminate]. exists sym. split; [|done]. exists t, st, (N.of_nat i). done.
Qed.
Definition both_b : bool :=
  match link_writer (demo_world cp_files []) demo_lib_oracle (demo_linker ["a.o"] ["/l/lib.so"]) 10, link_writer (demo_world cp_files []) other_oracle (demo_linker ["a.o"] ["/l/lib.so"]) 10 with
  | Ok w, Ok w' => match mapM_res (sec_finalize (lo_writer demo_lib_oracle) w) (w_sections w), mapM_res (sec_finalize (lo_writer other_oracle) w') (w_sections w') with
    | Ok secs, Ok secs' => dynsym_b w secs "x" (fun d => dynsym_b w' secs' "x" (fun d' => negb (st_value d =? st_value d')))
    | _, _ => false end
  | _, _ => false end.
Theorem C68_refuted : exists wd lo lo' l fuel w secs w' secs' n d d', valid_oracle (lo_writer lo) /\ valid_oracle (lo_writer lo') /\
  o_dyn (lo_writer lo') = o_dyn (lo_writer lo) /\ o_sort (lo_writer lo') = o_sort (lo_writer lo) /\
  links wd lo l fuel w secs /\ links wd lo' l fuel w' secs' /\ dynsym_is w secs n d /\ dynsym_is w' secs' n d' /\ st_value d' <> st_value d.
Proof.
  assert (E : both_b = true) by (vm_compute; reflexivity). unfold both_b in E.
  destruct (link_writer (demo_world cp_files []) demo_lib_oracle (demo_linker ["a.o"] ["/l/lib.so"]) 10) as [w| |] eqn:E1; [|discriminate E..].
  destruct (link_writer (demo_world cp_files []) other_oracle (demo_linker ["a.o"] ["/l/lib.so"]) 10) as [w'| |] eqn:E2; [|discriminate E..].
  destruct (mapM_res (sec_finalize (lo_writer demo_lib_oracle) w) (w_sections w)) as [secs| |] eqn:E3; [|discriminate E..].
  destruct (mapM_res (sec_finalize (lo_writer other_oracle) w') (w_sections w')) as [secs'| |] eqn:E4; [|discriminate E..].
  apply dynsym_intro in E as (d & Hd & E). apply dynsym_intro in E as (d' & Hd' & E). apply negb_true_iff, N.eqb_neq in E.
  exists (demo_world cp_files []), demo_lib_oracle, other_oracle, (demo_linker ["a.o"] ["/l/lib.so"]), 10%nat, w, secs, w', secs', "x", d, d'.
  split; [exact demo_valid|]. split; [exact other_valid|]. split; [reflexivity|]. split; [reflexivity|]. split; [split; [exact E1|exact E3]|]. split; [split; [exact E2|exact E4]|]. split; [exact Hd|]. split; [exact Hd'|]. intros K. exact (E (eq_sym K)).
Qed.
Print Assumptions C68_refuted.
