(** C10-C15, C63: symbol tables (src/elf/symbol_table.rs, src/symbol.rs). *)
From Verif Require Import ProofSym.

(** * C10 *)

(** The emitted order: first all locals, then all others. *)
Theorem C10_locals_first : forall ord t, exists ls gs,
  syt_sorted ord t = ls ++ gs /\
  Forall (fun s => binding (s_sym s) = 0) ls /\ Forall (fun s => binding (s_sym s) <> 0) gs.
Proof. exact locals_first. Qed.
Print Assumptions C10_locals_first.

(** Full statement: the counter written to sh_info is the index of the first
    non-local symbol. It is false: a name first seen as a local and then as a
    global one stays counted. *)
Definition C10_local_then_global : list sym_event :=
  [mkEvent (mkSym 1 0x00 0 5 0 0) 7 7 "a.o"; mkEvent (mkSym 1 0x12 0 6 8 4) 7 7 "b.o"].
Theorem C10_sh_info_refuted : exists l t,
  add_events (syt_new false) l = Some t /\ Forall (fun e => standard (ev_sym e)) l /\
  forall ord, (forall k, ord k ≡ₚ k) -> N.of_nat (count_locals (syt_sorted ord t)) <> syt_num_locals t.
Proof.
  exists C10_local_then_global. eexists. split; [by vm_compute|]. split.
  - repeat constructor; eexists; by vm_compute.
  - intros ord Hord. rewrite (count_locals_perm _ _ (sorted_perm ord _ Hord)). by vm_compute.
Qed.
Print Assumptions C10_sh_info_refuted.

(** What holds: the counter is never too small, and exact when no local name
    is later seen with another binding. Missing: the overridden locals. *)
Theorem C10_sh_info_partial : forall d l t ord ls gs,
  add_events (syt_new d) l = Some t -> Forall (fun e => standard (ev_sym e)) l ->
  Forall (fun e => about 0 e -> binding (ev_sym e) = 0) l -> (forall k, ord k ≡ₚ k) ->
  syt_sorted ord t = ls ++ gs ->
  Forall (fun s => binding (s_sym s) = 0) ls -> Forall (fun s => binding (s_sym s) <> 0) gs ->
  N.of_nat (length ls) <= syt_num_locals t /\ (no_override l -> syt_num_locals t = N.of_nat (length ls)).
Proof.
  intros d l t ord ls gs H Hst H0 Hord Hs Hl Hg.
  rewrite (locals_first_count ord t ls gs Hs Hl Hg).
  rewrite (count_locals_perm _ _ (sorted_perm ord t Hord)), count_locals_map.
  by apply (num_locals_spec d l t).
Qed.
Print Assumptions C10_sh_info_partial.

Example C10_case :
  let l := [mkEvent (mkSym 1 0x00 0 5 0 0) 7 9 "a.o"; mkEvent (mkSym 5 0x12 0 6 8 4) 8 2 "a.o";
            mkEvent (mkSym 9 0x01 0 6 8 4) 8 3 "b.o"; mkEvent (mkSym 5 0x20 0 0 0 0) 8 2 "b.o"] in
  exists t, add_events (syt_new false) l = Some t /\ syt_num_locals t = 3 /\
    ((fun s => (st_name (s_sym s), binding (s_sym s))) <$> syt_sorted id t) = [(0, 0); (9, 0); (1, 0); (5, 1)].
Proof. eexists. split; [by vm_compute|]. split; by vm_compute. Qed.

(** * C11 *)

(** One step: refused exactly when a strong definition meets a strong definition. *)
Theorem C11_step_iff : forall t e, add_event t e = None <->
  is_named e /\ exists old, syt_symbols t !! st_name (ev_sym e) = Some old /\
    binding (s_sym old) = 1 /\ binding (ev_sym e) = 1 /\ defined (s_sym old) /\ defined (ev_sym e).
Proof. exact add_refused_iff. Qed.
Print Assumptions C11_step_iff.

(** Whole histories: two strong definitions of a name are refused wherever
    they occur and whatever comes before, between and after. *)
Theorem C11_two_strong_rejected : forall t0 l1 e1 l2 e2 l3,
  is_named e1 -> is_named e2 -> st_name (ev_sym e1) = st_name (ev_sym e2) ->
  binding (ev_sym e1) = 1 -> binding (ev_sym e2) = 1 -> defined (ev_sym e1) -> defined (ev_sym e2) ->
  syt_symbols t0 !! st_name (ev_sym e1) = None ->
  Forall (fun e => standard (ev_sym e)) (l1 ++ e1 :: l2) ->
  add_events t0 (l1 ++ e1 :: l2 ++ e2 :: l3) = None.
Proof. exact two_strong_refused. Qed.
Print Assumptions C11_two_strong_rejected.

(** "And only those" is false for histories: a global reference, a weak
    definition and one strong definition are refused, because the reference
    has taken the section of the weak definition but kept its binding. *)
Theorem C11_only_those_refuted : exists l,
  add_events (syt_new false) l = None /\ Forall (fun e => standard (ev_sym e)) l /\
  ~ (exists i j e1 e2, i <> j /\ l !! i = Some e1 /\ l !! j = Some e2 /\
       binding (ev_sym e1) = 1 /\ binding (ev_sym e2) = 1 /\ defined (ev_sym e1) /\ defined (ev_sym e2)).
Proof.
  exists [mkEvent (mkSym 1 0x10 0 0 0 0) 7 7 "a.o"; mkEvent (mkSym 1 0x22 0 6 8 4) 7 7 "b.o";
          mkEvent (mkSym 1 0x12 0 9 0 4) 7 7 "c.o"].
  split; [by vm_compute|]. split; [repeat constructor; eexists; by vm_compute|].
  intros (i & j & e1 & e2 & Hij & Hi & Hj & H1 & H2 & D1 & D2).
  destruct i as [|[|[|i]]], j as [|[|[|j]]]; simpl in *; simplify_eq; done.
Qed.
Print Assumptions C11_only_those_refuted.

(** What holds: without weak or local definitions of the name, a history is
    refused only if the name has two strong definitions. Missing: histories
    with weak or local definitions of a name referenced before. *)
Theorem C11_only_those_partial : forall d l,
  add_events (syt_new d) l = None ->
  Forall (fun e => defined (ev_sym e) -> binding (ev_sym e) = 1) l ->
  exists l1 e1 l2 e2 l3, l = l1 ++ e1 :: l2 ++ e2 :: l3 /\ is_named e1 /\ is_named e2 /\
    st_name (ev_sym e1) = st_name (ev_sym e2) /\ binding (ev_sym e1) = 1 /\ binding (ev_sym e2) = 1 /\
    defined (ev_sym e1) /\ defined (ev_sym e2).
Proof. exact refused_only_two_strong. Qed.
Print Assumptions C11_only_those_partial.

(** Full statement: the file in the error is the one of the first definition.
    It is false: it is the file that first mentioned the name. *)
Theorem C11_error_file_refuted : exists l t e p,
  add_events (syt_new false) l = Some t /\
  syt_add_symbol t (ev_sym e) (ev_hash e) (ev_gnu e) (ev_file e) = inr p /\
  Forall (fun e' => defined (ev_sym e') -> ev_file e' <> p) l.
Proof.
  exists [mkEvent (mkSym 1 0x10 0 0 0 0) 7 7 "a.o"; mkEvent (mkSym 1 0x12 0 6 8 4) 7 7 "b.o"].
  eexists _, (mkEvent (mkSym 1 0x12 0 9 0 4) 7 7 "c.o"), "a.o".
  split; [by vm_compute|]. split; [by vm_compute|]. repeat constructor; simpl; [|done]. intros []; done.
Qed.
Print Assumptions C11_error_file_refuted.

(** What holds: it is a file that mentions the name, the first to do so; so it
    is the defining one whenever the definition is seen first. *)
Theorem C11_error_file_partial : forall t0 l t e p, syt_symbols t0 !! st_name (ev_sym e) = None ->
  add_events t0 l = Some t ->
  syt_add_symbol t (ev_sym e) (ev_hash e) (ev_gnu e) (ev_file e) = inr p ->
  first_file (st_name (ev_sym e)) l = Some p.
Proof.
  intros t0 l t e p H0 H Hp. rewrite <- (remembered_file t0 _ l t H0 H).
  apply add_refused_file in Hp as (old & -> & ->). done.
Qed.
Print Assumptions C11_error_file_partial.

Example C11_case :
  let d f := mkEvent (mkSym 1 0x12 0 6 8 4) 7 7 f in
  let r := mkEvent (mkSym 1 0x10 0 0 0 0) 7 7 "r.o" in
  let w := mkEvent (mkSym 1 0x22 0 3 0 0) 7 7 "w.o" in
  add_events (syt_new false) [w; d "a.o"; r; d "b.o"] = None /\
  is_Some (add_events (syt_new false) [w; r; w; r]) /\ is_Some (add_events (syt_new false) [w; d "a.o"; r; w]).
Proof. split; [by vm_compute|]. split; [eexists; by vm_compute|eexists; by vm_compute]. Qed.

(** * C12 *)
Theorem C12_strongest_wins : forall t0 n l t, syt_symbols t0 !! n = None ->
  Forall (fun e => about n e -> standard (ev_sym e)) l ->
  add_events t0 l = Some t ->
  match syt_symbols t !! n with
  | None => filter (about n) l = []
  | Some s => filter (about n) l <> [] /\ standard (s_sym s) /\ rank (s_sym s) = max_rank n l
  end.
Proof. exact strongest_wins. Qed.
Print Assumptions C12_strongest_wins.

Theorem C12_stronger_replaces : forall t e t' old, add_event t e = Some t' -> is_named e ->
  syt_symbols t !! st_name (ev_sym e) = Some old ->
  standard (s_sym old) -> standard (ev_sym e) -> rank (s_sym old) < rank (ev_sym e) ->
  exists s, syt_symbols t' !! st_name (ev_sym e) = Some s /\ def_of (s_sym s) = def_of (ev_sym e)
            /\ st_name (s_sym s) = st_name (s_sym old).
Proof. exact stronger_replaces. Qed.
Print Assumptions C12_stronger_replaces.

Theorem C12_weaker_keeps : forall t e t' old, add_event t e = Some t' ->
  standard (s_sym old) -> standard (ev_sym e) ->
  syt_symbols t !! st_name (ev_sym e) = Some old -> defined (s_sym old) ->
  rank (ev_sym e) <= rank (s_sym old) ->
  syt_symbols t' = syt_symbols t.
Proof. exact weaker_keeps. Qed.
Print Assumptions C12_weaker_keeps.

Example C12_case :
  let w := mkEvent (mkSym 1 0x21 0 3 0x10 4) 7 7 "w.o" in
  let g := mkEvent (mkSym 1 0x12 0 6 0x28 9) 7 7 "g.o" in
  (exists t s, add_events (syt_new false) [w; g] = Some t /\ syt_symbols t !! 1 = Some s /\ s_sym s = ev_sym g) /\
  (exists t s, add_events (syt_new false) [g; w] = Some t /\ syt_symbols t !! 1 = Some s /\ s_sym s = ev_sym g).
Proof. split; (eexists _, _; split; [by vm_compute|]; split; by vm_compute). Qed.

(** * C13 *)

(** Full statement: for every strong definition [e], after a strong reference
    to the same name, the symbol has [e]'s value, size and type. It is false:
    only the section is taken. *)
Theorem C13_ref_before_def_refuted : exists r e t s,
  ~ defined (ev_sym r) /\ defined (ev_sym e) /\ binding (ev_sym r) = 1 /\ binding (ev_sym e) = 1 /\
  add_events (syt_new false) [r; e] = Some t /\ syt_symbols t !! st_name (ev_sym e) = Some s /\
  st_value (s_sym s) <> st_value (ev_sym e) /\ st_size (s_sym s) <> st_size (ev_sym e) /\
  typ (s_sym s) <> typ (ev_sym e).
Proof.
  exists (mkEvent (mkSym 1 0x10 0 0 0 0) 7 7 "a.o"), (mkEvent (mkSym 1 0x12 0 6 0x20 9) 7 7 "b.o").
  eexists _, _. split; [by intros []|]. split; [done|]. split; [done|]. split; [done|].
  split; [by vm_compute|]. split; [by vm_compute|]. by vm_compute.
Qed.
Print Assumptions C13_ref_before_def_refuted.

(** What holds: the symbol ends up defined, in the section of the definition
    and with its binding; everything else is right when the reference is
    weaker than the definition, or when the definition is at offset 0 without
    size and type. *)
Theorem C13_ref_before_def_partial : forall t0 r e t1 t2, is_named r -> is_named e ->
  st_name (ev_sym r) = st_name (ev_sym e) -> syt_symbols t0 !! st_name (ev_sym e) = None ->
  ~ defined (ev_sym r) -> defined (ev_sym e) -> standard (ev_sym r) -> standard (ev_sym e) ->
  add_event t0 r = Some t1 -> add_event t1 e = Some t2 ->
  exists s, syt_symbols t2 !! st_name (ev_sym e) = Some s /\ st_shndx (s_sym s) = st_shndx (ev_sym e) /\
    (rank (ev_sym r) < rank (ev_sym e) -> def_of (s_sym s) = def_of (ev_sym e)) /\
    (rank (ev_sym e) <= rank (ev_sym r) ->
       st_value (s_sym s) = st_value (ev_sym r) /\ st_size (s_sym s) = st_size (ev_sym r) /\
       st_info (s_sym s) = st_info (ev_sym r)).
Proof. exact ref_then_def. Qed.
Print Assumptions C13_ref_before_def_partial.

Example C13_case :
  let r := mkEvent (mkSym 1 0x20 0 0 0 0) 7 7 "a.o" in
  let e := mkEvent (mkSym 1 0x12 0 6 0x20 9) 7 7 "b.o" in
  exists t s, add_events (syt_new false) [r; e] = Some t /\ syt_symbols t !! 1 = Some s /\ s_sym s = ev_sym e.
Proof. eexists _, _. split; [by vm_compute|]. split; by vm_compute. Qed.

(** * C14 *)
Theorem C14_references_keep : forall t n s l t',
  syt_symbols t !! n = Some s -> defined (s_sym s) -> standard (s_sym s) ->
  Forall (fun e => about n e -> ~ defined (ev_sym e) /\ standard (ev_sym e) /\ rank (ev_sym e) <= rank (s_sym s)) l ->
  add_events t l = Some t' -> syt_symbols t' !! n = Some s.
Proof. exact references_keep. Qed.
Print Assumptions C14_references_keep.

(** ... and no reference is ever refused. *)
Theorem C14_reference_accepted : forall t e, ~ defined (ev_sym e) -> is_Some (add_event t e).
Proof. exact reference_accepted. Qed.
Print Assumptions C14_reference_accepted.

Example C14_case :
  let d := mkEvent (mkSym 1 0x12 0 6 0x20 9) 7 7 "b.o" in
  let g := mkEvent (mkSym 1 0x10 0 0 0 0) 7 7 "a.o" in
  let w := mkEvent (mkSym 1 0x20 0 0 0 0) 7 7 "a.o" in
  exists t s, add_events (syt_new false) [d; g; w; g] = Some t /\ syt_symbols t !! 1 = Some s /\ s_sym s = ev_sym d.
Proof. eexists _, _. split; [by vm_compute|]. split; by vm_compute. Qed.

(** * C15 *)

(** The bytes hold exactly one record per name, and nothing else. *)
Theorem C15_each_name_once : forall d l t ord, (forall k, ord k ≡ₚ k) ->
  add_events (syt_new d) l = Some t -> Forall (fun e => sym_fits (ev_sym e)) l ->
  blen (syt_chunk_data ord t) = 24 * N.of_nat (size (syt_symbols t)) /\
  syt_total_len t = blen (syt_chunk_data ord t) /\
  (forall n s, syt_symbols t !! n = Some s ->
     exists i : nat, rd_sym (syt_chunk_data ord t) (24 * N.of_nat i) = Some (s_sym s) /\
       forall (j : nat) s', rd_sym (syt_chunk_data ord t) (24 * N.of_nat j) = Some s' -> st_name s' = n -> j = i) /\
  (forall (i : nat) s', rd_sym (syt_chunk_data ord t) (24 * N.of_nat i) = Some s' ->
     exists s, syt_symbols t !! st_name s' = Some s /\ s_sym s = s') /\
  (forall n, is_Some (syt_symbols t !! n) <-> n = 0 \/ exists e, e ∈ l /\ about n e).
Proof.
  intros d l t ord Hord H Hf.
  assert (Hk : keyed t) by (eapply add_events_keyed; [done|apply keyed_new]).
  assert (Ha : all_fit t) by (eapply add_events_fits; [done|done|apply all_fit_new]).
  split; [by apply chunk_data_len|]. split.
  { rewrite chunk_data_len by done. unfold syt_total_len, SYM_SIZE. lia. }
  split; [intros; by apply emitted_once|]. split; [intros; by eapply emitted_only|].
  intros n. by apply (add_events_dom d l t).
Qed.
Print Assumptions C15_each_name_once.

(** Positions do not move when symbols are patched in place. *)
Theorem C15_index_stable : forall ord t t' i s, patched t t' ->
  syt_sorted ord t !! i = Some s ->
  exists s', syt_sorted ord t' !! i = Some s' /\ st_name (s_sym s') = st_name (s_sym s).
Proof.
  intros ord t t' i s H Hi. destruct (Forall2_lookup_l _ _ _ _ _ (patched_sorted ord t t' H) Hi) as (s' & Hs' & Hk & _).
  eauto.
Qed.
Print Assumptions C15_index_stable.

Example C15_case :
  let l := [mkEvent (mkSym 1 0x12 0 5 0 0) 7 9 "a.o"; mkEvent (mkSym 5 0x12 0 6 8 4) 8 2 "a.o"] in
  exists t, add_events (syt_new true) l = Some t /\
    rd_sym (syt_chunk_data id t) 24 = Some (mkSym 5 0x12 0 6 8 4) /\
    rd_sym (syt_chunk_data id t) 48 = Some (mkSym 1 0x12 0 5 0 0) /\ rd_sym (syt_chunk_data id t) 72 = None.
Proof. eexists. split; [by vm_compute|]. split; [by vm_compute|]. split; by vm_compute. Qed.

(** * C63 *)

(** Full statement: a local symbol of one file is invisible to other files. It
    is false: a global reference in one file is satisfied by a local symbol of
    another one (it ends up global, in the section of the local one). *)
Theorem C63_local_private_refuted : exists r e t s,
  ev_file r <> ev_file e /\ ~ defined (ev_sym r) /\ binding (ev_sym r) = 1 /\
  defined (ev_sym e) /\ binding (ev_sym e) = 0 /\
  add_events (syt_new false) [r; e] = Some t /\ syt_symbols t !! st_name (ev_sym r) = Some s /\
  binding (s_sym s) = 1 /\ st_shndx (s_sym s) = st_shndx (ev_sym e).
Proof.
  exists (mkEvent (mkSym 1 0x10 0 0 0 0) 7 7 "a.o"), (mkEvent (mkSym 1 0x02 0 6 0x20 9) 7 7 "b.o").
  eexists _, _. split; [done|]. split; [by intros []|]. split; [done|]. split; [done|]. split; [done|].
  split; [by vm_compute|]. split; [by vm_compute|]. by vm_compute.
Qed.
Print Assumptions C63_local_private_refuted.

(** Two locals of the same name in different files share one entry. *)
Theorem C63_locals_merged_refuted : exists e1 e2 t,
  ev_file e1 <> ev_file e2 /\ binding (ev_sym e1) = 0 /\ binding (ev_sym e2) = 0 /\
  defined (ev_sym e1) /\ defined (ev_sym e2) /\ st_value (ev_sym e1) <> st_value (ev_sym e2) /\
  add_events (syt_new false) [e1; e2] = Some t /\
  forall n s, syt_symbols t !! n = Some s -> st_value (s_sym s) <> st_value (ev_sym e2).
Proof.
  exists (mkEvent (mkSym 1 0x01 0 5 0x10 4) 7 7 "a.o"), (mkEvent (mkSym 1 0x01 0 6 0x20 4) 7 7 "b.o").
  eexists. split; [done|]. split; [done|]. split; [done|]. split; [done|]. split; [done|]. split; [done|].
  split; [by vm_compute|]. intros n s Hs. apply elem_of_map_to_list in Hs.
  match type of Hs with _ ∈ ?l => let l' := eval vm_compute in l in replace l with l' in Hs by (by vm_compute) end.
  rewrite !elem_of_cons, elem_of_nil in Hs. destruct Hs as [[= -> ->]|[[= -> ->]|[]]]; done.
Qed.
Print Assumptions C63_locals_merged_refuted.

(** What holds: a name used by one file only, as locals are meant to be, is
    not affected by the symbols of other names in any file. *)
Theorem C63_other_names_partial : forall t n s l t', syt_symbols t !! n = Some s ->
  Forall (fun e => ~ about n e) l -> add_events t l = Some t' -> syt_symbols t' !! n = Some s.
Proof. exact other_names. Qed.
Print Assumptions C63_other_names_partial.
