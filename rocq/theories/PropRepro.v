(** Repeating a link (C68). *)
From Verif Require Import ProofBase DemoLink PropFile SpecRepro ProofRepro PropOrder.

(** Without libraries and archives the file is the same up to the order of the
    records of .symtab, whatever the iteration orders. Sorting looks at headers
    alone and is the same algorithm in both runs. Missing: links with libraries
    or archives, see [C68_refuted]. *)
Theorem C68_partial : forall wd lo lo' l fuel w secs data, valid_orders lo -> valid_orders lo' -> o_sort (lo_writer lo') = o_sort (lo_writer lo) -> by_headers (o_sort (lo_writer lo)) ->
  opt_shared_libs (lk_options l) = [] -> lk_archives l = [] -> plain_inputs wd l -> links wd lo l fuel w secs -> stt_total_len (w_shstrtab w) < 2^32 -> link_bytes wd lo l fuel = Ok data ->
  exists data' s pre post syms syms', link_bytes wd lo' l fuel = Ok data' /\ s ∈ secs /\ sec_name w s = Some ".symtab" /\ contents s = syms ≫= sym_record /\
    data = pre ++ (syms ≫= sym_record) ++ post /\ data' = pre ++ (syms' ≫= sym_record) ++ post /\ syms' ≡ₚ syms.
Proof.
  intros wd lo lo' l fuel w secs data W W' Eo Hb HL HA P L Ht HD. destruct (repeated_bytes _ _ _ _ _ _ _ _ W W' Eo Hb HL HA P L HD) as (b & pre & post & K1 & K2 & K3 & K4 & K5).
  eexists _, b, pre, post, _, _. split; [exact K5|]. split; [exact K1|]. split; [exact (K2 Ht)|]. split; [exact K3|]. split; [exact K4|]. split; [reflexivity|].
  apply Permutation_map. rewrite (sorted_perm _ _ (vo_sym _ (proj1 W))), (sorted_perm _ _ (vo_sym _ (proj1 W'))). reflexivity.
Qed.
Print Assumptions C68_partial.

(** If no two symbol names have the same GNU hash, and none has hash zero, the
    file is the same. Missing: as above. *)
Theorem C68_exact_partial : forall wd lo lo' l fuel w secs data, valid_orders lo -> valid_orders lo' -> o_sort (lo_writer lo') = o_sort (lo_writer lo) -> by_headers (o_sort (lo_writer lo)) ->
  opt_shared_libs (lk_options l) = [] -> lk_archives l = [] -> plain_inputs wd l -> distinct_hashes wd l -> links wd lo l fuel w secs -> link_bytes wd lo l fuel = Ok data ->
  link_bytes wd lo' l fuel = Ok data.
Proof.
  intros wd lo lo' l fuel w secs data W W' Eo Hb HL HA P D L HD. destruct (repeated_bytes _ _ _ _ _ _ _ _ W W' Eo Hb HL HA P L HD) as (b & pre & post & _ & _ & _ & -> & K5).
  by rewrite K5, (sorted_once _ _ _ _ _ _ _ W W' HL D L).
Qed.
Print Assumptions C68_exact_partial.

(** Sorting by the comparison of the program is a matter of headers. *)
Lemma sort_by_map {A B} (f : A -> B) le (le2 : B -> B -> bool) l : (forall a b, le2 (f a) (f b) = le a b) -> f <$> sort_by le l = sort_by le2 (f <$> l).
Proof.
  intros H. induction l as [|x l IH]; [reflexivity|]. rewrite fmap_cons. change (sort_by le (x :: l)) with (sort_insert le x (sort_by le l)). change (sort_by le2 (f x :: (f <$> l))) with (sort_insert le2 (f x) (sort_by le2 (f <$> l))). rewrite <- IH. generalize (sort_by le l). intros k. induction k as [|y k IHk]; [reflexivity|]. cbn [sort_insert]. rewrite fmap_cons. cbn [sort_insert]. rewrite H.
  destruct (le x y); [reflexivity|]. by rewrite fmap_cons, IHk.
Qed.
Lemma sorted_by_headers : by_headers (sort_by demo_le).
Proof.
  intros k k' E. set (le2 := fun x y : nat * section => demo_le x.2 y.2).
  assert (R : Forall2 (fun x y : nat * section => y.1 = x.1 /\ sc_sh y.2 = sc_sh x.2) (sort_by le2 (imap pair k)) (sort_by le2 (imap pair k'))).
  { apply sort_by_rel.
    - intros a a' b b' [_ H1] [_ H2]. unfold le2, demo_le, section_cmp. by rewrite H1, H2.
    - apply Forall2_same_length_lookup_2; [rewrite !imap_length; apply (f_equal length) in E; by rewrite !fmap_length in E|]. intros i x y Hx Hy. rewrite list_lookup_imap in Hx, Hy.
      destruct (k !! i) as [a|] eqn:Ea; [|discriminate Hx]. destruct (k' !! i) as [b|] eqn:Eb; [|discriminate Hy]. injection Hx as <-. injection Hy as <-. split; [reflexivity|]. cbn.
      apply (f_equal (fun l => l !! i)) in E. rewrite !list_lookup_fmap, Ea, Eb in E. cbn in E. by apply (inj Some) in E. }
  assert (G : forall l, Forall2 (fun i s => l !! i = Some s) (sort_by le2 (imap pair l)).*1 (sort_by demo_le l)).
  { intros l. assert (ES : sort_by demo_le l = (sort_by le2 (imap pair l)).*2).
    { rewrite (sort_by_map snd le2 demo_le) by reflexivity. f_equal. apply list_eq. intros i. rewrite list_lookup_fmap, list_lookup_imap. by destruct (l !! i). }
    rewrite ES. assert (HA : forall x, x ∈ sort_by le2 (imap pair l) -> l !! x.1 = Some x.2).
    { intros [i s] Hx. rewrite (sort_by_perm le2) in Hx. apply elem_of_lookup_imap in Hx as (j & y & [= -> ->] & H). exact H. }
    revert HA. generalize (sort_by le2 (imap pair l)). intros z HA. induction z as [|x z IH]; [constructor|]. rewrite !fmap_cons. constructor; [apply HA; left|]. apply IH. intros y Hy. apply HA. by right. }
  exists (sort_by le2 (imap pair k)).*1. split; [apply G|]. assert (EP : (sort_by le2 (imap pair k)).*1 = (sort_by le2 (imap pair k')).*1).
  { clear -R. induction R as [|x y l l' [H _] _ IH]; [reflexivity|]. by rewrite !fmap_cons, H, IH. }
  rewrite EP. apply G.
Qed.
(** Two names with the same hash, listed forwards and backwards: different files. *)
Definition rp_files : list (string * elf_obj) := [("a.o", demo_obj [progbits ".text" 6 4 [0xc3; 0xc3; 0xc3]] [("_start", dsym 0x12 1 0 1); ("ab", dsym 0x12 1 1 1); ("bA", dsym 0x12 1 2 1)] [])].
Definition repro_b : bool :=
  match link_writer (demo_world rp_files []) demo_lib_oracle (demo_linker ["a.o"] []) 10 with
  | Ok w => match mapM_res (sec_finalize demo_oracle w) (w_sections w), link_bytes (demo_world rp_files []) demo_lib_oracle (demo_linker ["a.o"] []) 10, link_bytes (demo_world rp_files []) other_oracle (demo_linker ["a.o"] []) 10 with
    | Ok _, Ok d, Ok d' => (stt_total_len (w_shstrtab w) <? 2^32) && bool_decide (d <> d')
    | _, _, _ => false end
  | _ => false end.
Lemma other_orders : valid_orders other_oracle.
Proof. split; [exact other_valid|]. split; intros; reflexivity. Qed.
Lemma rp_plain : plain_inputs (demo_world rp_files []) (demo_linker ["a.o"] []).
Proof. apply demo_plain; vm_compute; reflexivity. Qed.
Example C68_case : exists w secs data data', valid_orders demo_lib_oracle /\ valid_orders other_oracle /\ o_sort (lo_writer other_oracle) = o_sort (lo_writer demo_lib_oracle) /\ by_headers (o_sort (lo_writer demo_lib_oracle)) /\
  plain_inputs (demo_world rp_files []) (demo_linker ["a.o"] []) /\ links (demo_world rp_files []) demo_lib_oracle (demo_linker ["a.o"] []) 10 w secs /\ stt_total_len (w_shstrtab w) < 2^32 /\
  link_bytes (demo_world rp_files []) demo_lib_oracle (demo_linker ["a.o"] []) 10 = Ok data /\ link_bytes (demo_world rp_files []) other_oracle (demo_linker ["a.o"] []) 10 = Ok data' /\ data' <> data.
Proof.
  assert (E : repro_b = true) by (vm_compute; reflexivity). unfold repro_b in E.
  destruct (link_writer (demo_world rp_files []) demo_lib_oracle (demo_linker ["a.o"] []) 10) as [w| |] eqn:E1; [|discriminate E..].
  destruct (mapM_res (sec_finalize demo_oracle w) (w_sections w)) as [secs| |] eqn:E2; [|discriminate E..].
  destruct (link_bytes (demo_world rp_files []) demo_lib_oracle (demo_linker ["a.o"] []) 10) as [d| |] eqn:E3; [|discriminate E..].
  destruct (link_bytes (demo_world rp_files []) other_oracle (demo_linker ["a.o"] []) 10) as [d'| |] eqn:E4; [|discriminate E..].
  apply andb_true_iff in E as [E5 E6]. apply N.ltb_lt in E5. apply bool_decide_eq_true_1 in E6.
  exists w, secs, d, d'. split; [split; [exact demo_valid|split; intros; reflexivity]|]. split; [exact other_orders|]. split; [reflexivity|]. split; [exact sorted_by_headers|]. split; [exact rp_plain|].
  split; [split; [exact E1|exact E2]|]. split; [exact E5|]. split; [reflexivity|]. split; [reflexivity|]. intros K. exact (E6 (eq_sym K)).
Qed.
(** Five names with hashes of their own. *)
Definition apart_b : bool := match or_files with
  | (_, e) :: _ => let names := eo_syms e ≫= (fun s => match eo_strtab e (st_name s) with Some n => [n] | None => [] end) in
      forallb (fun n => negb (elf_gnu_hash n =? 0) && forallb (fun n' => if elf_gnu_hash n =? elf_gnu_hash n' then (n =? n')%string else true) names) names
  | [] => false end.
Lemma or_apart : distinct_hashes (demo_world or_files []) (demo_linker ["a.o"] []).
Proof.
  assert (E : apart_b = true) by (vm_compute; reflexivity). unfold apart_b in E. destruct or_files as [|[p e] k] eqn:Ef; [discriminate E|]. injection Ef as <- Ee <-.
  assert (HI : forall n, symbol_input (demo_world [("a.o", e)] []) (demo_linker ["a.o"] []) n -> In n (eo_syms e ≫= (fun s => match eo_strtab e (st_name s) with Some n => [n] | None => [] end))).
  { intros n (e' & sym & [(p & Hp & He)|(p & ar & m & Hp & _)] & Hs & Hn); [|by apply elem_of_nil in Hp]. apply elem_of_list_singleton in Hp as ->. injection He as <-. apply elem_of_list_In, elem_of_list_bind. exists sym. split; [|exact Hs]. rewrite Hn. left. }
  rewrite forallb_forall in E. split.
  - intros n n' H H' K. apply HI in H, H'. specialize (E n H). apply andb_true_iff in E as [_ E]. rewrite forallb_forall in E. specialize (E n' H'). rewrite K, N.eqb_refl in E. by apply String.eqb_eq.
  - intros n H. specialize (E n (HI n H)). apply andb_true_iff in E as [E _]. apply negb_true_iff, N.eqb_neq in E. exact E.
Qed.
Definition same_b : bool :=
  match link_writer (demo_world or_files []) demo_lib_oracle (demo_linker ["a.o"] []) 10 with
  | Ok w => match mapM_res (sec_finalize demo_oracle w) (w_sections w), link_bytes (demo_world or_files []) demo_lib_oracle (demo_linker ["a.o"] []) 10 with
    | Ok _, Ok d => bool_decide ((s_gnu_hash <$> hm_values (o_sym (lo_writer other_oracle)) (syt_symbols (w_symtab w))) <> (s_gnu_hash <$> hm_values (o_sym demo_oracle) (syt_symbols (w_symtab w))))
    | _, _ => false end
  | _ => false end.
Example C68_exact_case : distinct_hashes (demo_world or_files []) (demo_linker ["a.o"] []) /\ exists w secs data, links (demo_world or_files []) demo_lib_oracle (demo_linker ["a.o"] []) 10 w secs /\
  link_bytes (demo_world or_files []) demo_lib_oracle (demo_linker ["a.o"] []) 10 = Ok data /\ (s_gnu_hash <$> hm_values (o_sym (lo_writer other_oracle)) (syt_symbols (w_symtab w))) <> (s_gnu_hash <$> hm_values (o_sym demo_oracle) (syt_symbols (w_symtab w))).
Proof.
  split; [exact or_apart|]. assert (E : same_b = true) by (vm_compute; reflexivity). unfold same_b in E.
  destruct (link_writer (demo_world or_files []) demo_lib_oracle (demo_linker ["a.o"] []) 10) as [w| |] eqn:E1; [|discriminate E..].
  destruct (mapM_res (sec_finalize demo_oracle w) (w_sections w)) as [secs| |] eqn:E2; [|discriminate E..].
  destruct (link_bytes (demo_world or_files []) demo_lib_oracle (demo_linker ["a.o"] []) 10) as [d| |] eqn:E3; [|discriminate E..].
  apply bool_decide_eq_true_1 in E. exists w, secs, d. split; [split; [exact E1|exact E2]|]. split; [reflexivity|exact E].
Qed.
