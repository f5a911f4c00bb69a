(** What the command line and the inputs ask for beyond the sections (C83-C86). *)
From Verif Require Import ProofBase DemoLink PropLayout PropFile PropGot PropMerge PropHeaders SpecHeaders ProofSyms.

(** * C83, C84: kinds of program headers *)

(** Every program header is a load segment, PT_DYNAMIC, PT_INTERP or PT_PHDR. *)
Lemma header_kinds wd lo l fuel w secs ph : links wd lo l fuel w secs -> ph ∈ w_program_headers w -> p_type ph ∈ [1; 2; 3; 6].
Proof.
  intros H Hph. destruct (links_outcome _ _ _ _ _ _ H) as (w0&wr&ws&w1&extra&null&rest&rest'&st&w3&w4&w5&w6&w7&null'&out&O).
  destruct (final_headers O) as (p0 & E & E0 & _). rewrite E in Hph. apply elem_of_cons in Hph as [->|Hph]; [rewrite E0; apply (elem_of_list_lookup_2 _ 3%nat); reflexivity|].
  destruct (decide (is_load ph)) as [Hl|Hl]; [rewrite Hl; left|]. assert (Hn : ph ∈ nonloads (ly_phs st)) by (apply elem_of_list_filter; split; [exact Hl|exact Hph]).
  pose proof (spec_inv_all _ _ _ _ _ _ _ (oc_layout O)) as SI. apply elem_of_list_lookup in Hn as [i Hi].
  destruct (Forall2_lookup_l _ _ _ _ _ (si_list _ _ _ _ SI) Hi) as (x & _ & (D & _) & _). rewrite D. unfold special_type. destruct (_ =? _); [apply (elem_of_list_lookup_2 _ 1%nat)|apply (elem_of_list_lookup_2 _ 2%nat)]; reflexivity.
Qed.

(** No output has a PT_TLS header, so the loader gives no thread its
    thread-local data. *)
Theorem C83_always_refuted : forall wd lo l fuel w secs ph, links wd lo l fuel w secs -> ph ∈ w_program_headers w -> p_type ph <> 7.
Proof. intros wd lo l fuel w secs ph H Hph E. pose proof (header_kinds _ _ _ _ _ _ _ H Hph) as K. rewrite E in K. by repeat (apply elem_of_cons in K as [K|K]; [discriminate K|]); apply elem_of_nil in K. Qed.
Print Assumptions C83_always_refuted.

(** A section with thread-local data: SHF_TLS (0x400), SHF_ALLOC. *)
Definition thread_local (s : section) : Prop := alloc s = true /\ N.testbit (flags s) 10 = true /\ memsz s > 0.
(** Such a program links. *)
Definition tls_files : list (string * elf_obj) := [("a.o", demo_obj [progbits ".text" 6 4 [0xc3]; progbits ".tdata" 0x403 4 [7; 0; 0; 0]] [("_start", dsym 0x12 1 0 1); ("t", dsym 0x16 2 0 4)] [])].
Theorem C83_refuted : exists wd lo l fuel w secs s, valid_oracle (lo_writer lo) /\ links wd lo l fuel w secs /\ s ∈ secs /\ thread_local s /\ forall ph, ph ∈ w_program_headers w -> p_type ph <> 7.
Proof.
  destruct (demo_links tls_files ["a.o"] [] (fun w secs => any secs (fun s => if alloc s then N.testbit (flags s) 10 && (0 <? memsz s) else false))) as (w & secs & L & E); [vm_compute; reflexivity|].
  apply any_spec in E as (s & Hs & E). destruct (alloc s) eqn:Ea; [|discriminate E]. apply andb_true_iff in E as [E1 E2]. apply N.ltb_lt in E2.
  exists (demo_world tls_files []), demo_lib_oracle, (demo_linker ["a.o"] []), 10%nat, w, secs, s. split; [exact demo_valid|]. split; [exact L|]. split; [exact Hs|]. split; [split; [exact Ea|split; [exact E1|lia]]|].
  intros ph Hph. exact (C83_always_refuted _ _ _ _ _ _ _ L Hph).
Qed.
Print Assumptions C83_refuted.

(** The stack of the process, by the rule of the kernel for x86-64: executable
    unless PT_GNU_STACK says otherwise. *)
Definition stack_executable (phs : list Phdr) : bool :=
  match filter (fun ph => p_type ph = 0x6474e551) phs with ph :: _ => N.testbit (p_flags ph) 0 | [] => true end.
(** It always is, for the program headers a consumer reads from the file. *)
Theorem C84_always_refuted : forall wd lo l fuel w secs effs path data phs, valid_oracle (lo_writer lo) -> links wd lo l fuel w secs -> plain_inputs wd l ->
  (forall s, s ∈ secs -> ¬ lone_write s) -> stt_total_len (w_shstrtab w) < 2^32 -> headers_fit w secs ->
  link wd lo l fuel = (effs, Ok tt) -> EWrite path data ∈ effs ->
  rd_table rd_phdr (e_phentsize (w_eh w)) (N.to_nat (e_phnum (w_eh w))) data (e_phoff (w_eh w)) = Some phs -> stack_executable phs = true.
Proof.
  intros wd lo l fuel w secs effs path data phs V H P HW Ht HF HL He Hr. destruct (C36_partial _ _ _ _ _ _ _ _ _ V H P HW Ht HF HL He) as (_ & _ & R & _). rewrite R in Hr. injection Hr as <-.
  unfold stack_executable. destruct (filter _ _) as [|ph k] eqn:Ef; [reflexivity|]. exfalso. assert (Hph : ph ∈ filter (fun ph => p_type ph = 0x6474e551) (w_program_headers w)) by (rewrite Ef; left).
  apply elem_of_list_filter in Hph as [E Hph]. pose proof (header_kinds _ _ _ _ _ _ _ H Hph) as K. rewrite E in K. by repeat (apply elem_of_cons in K as [K|K]; [discriminate K|]); apply elem_of_nil in K.
Qed.
Print Assumptions C84_always_refuted.
(** An object that asks for a stack without execution rights: an empty
    .note.GNU-stack section without SHF_EXECINSTR. *)
Definition stk_files : list (string * elf_obj) := [("a.o", demo_obj [progbits ".text" 6 4 [0xc3]; progbits ".note.GNU-stack" 0 1 []] [("_start", dsym 0x12 1 0 1)] [])].
Theorem C84_refuted : exists wd lo l fuel w secs s, valid_oracle (lo_writer lo) /\ links wd lo l fuel w secs /\ s ∈ secs /\ sec_name w s = Some ".note.GNU-stack" /\ flags s = 0 /\ stack_executable (w_program_headers w) = true.
Proof.
  destruct (demo_links stk_files ["a.o"] [] (fun w secs => any secs (fun s => bool_decide (sec_name w s = Some ".note.GNU-stack") && (flags s =? 0)) && stack_executable (w_program_headers w))) as (w & secs & L & E); [vm_compute; reflexivity|].
  apply andb_true_iff in E as [E E3]. apply any_spec in E as (s & Hs & E). apply andb_true_iff in E as [E1 E2]. apply bool_decide_eq_true_1 in E1. apply N.eqb_eq in E2.
  exists (demo_world stk_files []), demo_lib_oracle, (demo_linker ["a.o"] []), 10%nat, w, secs, s. split; [exact demo_valid|]. split; [exact L|]. split; [exact Hs|]. split; [exact E1|]. split; [exact E2|exact E3].
Qed.
Print Assumptions C84_refuted.

(** * C85: --build-id and --eh-frame-hdr *)

(** The same command line with other values for these two. *)
Definition asking (l : linker) (b : option build_id) (e : bool) : linker :=
  mkLinker (mkOptions (opt_output (lk_options l)) b (opt_hash_style (lk_options l)) e (opt_emulation (lk_options l)) (opt_dynamic_linker (lk_options l)) (opt_shared_libs (lk_options l))) (lk_objects l) (lk_archives l).
(** Nothing changes: same effects, same file, same result. *)
Theorem C85_ignored : forall wd lo l fuel b e, link wd lo (asking l b e) fuel = link wd lo l fuel.
Proof.
  intros wd lo l fuel b e. assert (R : resolve wd lo (asking l b e) fuel = resolve wd lo l fuel).
  { unfold resolve. change (writer_new (lk_options (asking l b e))) with (writer_new (lk_options l)). destruct (writer_new _) as [w| |]; [|reflexivity..]. cbn [mbind res_bind].
    change (load_objects wd (asking l b e) w) with (load_objects wd l w). destruct (load_objects wd l w) as [w1| |]; [|reflexivity..]. cbn [mbind res_bind].
    generalize (undefined_symbols (lo_writer lo) w1). generalize 0%nat. revert w1. induction fuel as [|f IH]; intros w1 k us; [reflexivity|]. cbn [resolve_loop].
    change (find_undefined_symbols_in_libs wd (asking l b e)) with (find_undefined_symbols_in_libs wd l). destruct (find_undefined_symbols_in_libs wd l _ w1) as [[w2 us2]| |]; [|reflexivity..]. cbn [mbind res_bind].
    change (process_archives_containing wd lo k (asking l b e)) with (process_archives_containing wd lo k l). destruct (process_archives_containing wd lo k l _ _) as [[w3 us3]| |]; [|reflexivity..]. cbn [mbind res_bind].
    destruct (_ =? _)%nat; [reflexivity|apply IH]. }
  unfold link. change (opt_output (lk_options (asking l b e))) with (opt_output (lk_options l)). unfold link_bytes, link_writer. rewrite R. reflexivity.
Qed.
Print Assumptions C85_ignored.
(** So whatever is asked for, unless an object has a section of that name there
    is no .note.gnu.build-id, and there is never a PT_GNU_EH_FRAME header. *)
Theorem C85_always_refuted : forall wd lo l fuel w secs es evs, good_link wd lo l fuel w secs -> loading wd lo l fuel es evs -> contribs ".note.gnu.build-id" (all_secs es) = [] ->
  (forall s, s ∈ secs -> sec_name w s <> Some ".note.gnu.build-id") /\ (forall ph, ph ∈ w_program_headers w -> p_type ph <> 0x6474e550).
Proof.
  intros wd lo l fuel w secs es evs G L E. split.
  - intros s Hs Hn. refine (C40_only _ _ _ _ _ _ _ _ _ _ G L Hs Hn _ _ E); [discriminate|]. apply (bool_decide_eq_true_1 _). vm_compute. reflexivity.
  - intros ph Hph K0. pose proof (header_kinds _ _ _ _ _ _ _ (gl_links _ _ _ _ _ _ G) Hph) as K. rewrite K0 in K. by repeat (apply elem_of_cons in K as [K|K]; [discriminate K|]); apply elem_of_nil in K.
Qed.
Print Assumptions C85_always_refuted.

Definition asked : linker := asking (demo_linker ["a.o"] []) (Some BSha1) true.
Theorem C85_refuted : exists wd lo l fuel w secs, valid_oracle (lo_writer lo) /\ links wd lo l fuel w secs /\ opt_build_id (lk_options l) = Some BSha1 /\ opt_eh_frame_hdr (lk_options l) = true /\
  (forall s, s ∈ secs -> sec_name w s <> Some ".note.gnu.build-id") /\ (forall ph, ph ∈ w_program_headers w -> p_type ph <> 0x6474e550).
Proof.
  assert (E : match link_writer (demo_world stk_files []) demo_lib_oracle asked 10 with
    | Ok w => match mapM_res (sec_finalize demo_oracle w) (w_sections w) with Ok secs => forallb (fun s => negb (bool_decide (sec_name w s = Some ".note.gnu.build-id"))) secs | _ => false end | _ => false end = true) by (vm_compute; reflexivity).
  destruct (link_writer (demo_world stk_files []) demo_lib_oracle asked 10) as [w| |] eqn:E1; [|discriminate E..]. destruct (mapM_res (sec_finalize demo_oracle w) (w_sections w)) as [secs| |] eqn:E2; [|discriminate E..].
  assert (L : links (demo_world stk_files []) demo_lib_oracle asked 10 w secs) by (split; [exact E1|exact E2]). exists (demo_world stk_files []), demo_lib_oracle, asked, 10%nat, w, secs. split; [exact demo_valid|]. split; [exact L|]. split; [reflexivity|]. split; [reflexivity|]. split.
  - intros s Hs Hn. rewrite forallb_forall in E. apply elem_of_list_In, E in Hs. apply negb_true_iff, bool_decide_eq_false_1 in Hs. exact (Hs Hn).
  - intros ph Hph K0. pose proof (header_kinds _ _ _ _ _ _ _ L Hph) as K. rewrite K0 in K. by repeat (apply elem_of_cons in K as [K|K]; [discriminate K|]); apply elem_of_nil in K.
Qed.
Print Assumptions C85_refuted.

(** * C86: --hash-style *)

(** The two hash tables: section, type, tag in .dynamic, and whether asked for. *)
Definition hash_kinds (hs : hash_style) : list (string * N * N * bool) :=
  [(".hash", 5, 4, match hs with HGnu => false | _ => true end); (".gnu.hash", 0x6ffffff6, 0x6ffffef5, match hs with HSysv => false | _ => true end)].
(** A table asked for is there, once, and .dynamic leads to it; one not asked
    for is not there, and an entry of .dynamic for such a table leads to a
    section some object brought along. *)
Theorem C86 : forall wd lo l fuel w secs n ty tag (asked : bool), valid_oracle (lo_writer lo) -> links wd lo l fuel w secs -> plain_inputs wd l -> names_fit w -> headers_fit w secs ->
  (n, ty, tag, asked) ∈ hash_kinds (opt_hash_style (lk_options l)) ->
  exists d entries, d ∈ secs /\ sh_type (sc_sh d) = 6 /\ rd_dynamic (contents d) = Some entries /\
    if asked then exists s, the_sec w secs n s /\ sh_type (sc_sh s) = ty /\ alloc s = true /\ (tag, addr s) ∈ entries
    else (forall s, s ∈ secs -> sec_name w s <> Some n) /\ forall v, (tag, v) ∈ entries -> exists s m, s ∈ secs /\ sec_name w s = Some m /\ m ∉ reserved /\ sh_type (sc_sh s) = ty /\ v = addr s.
Proof.
  intros wd lo l fuel w secs n ty tag asked V L P NF HF Hk. assert (Ht : stt_total_len (w_shstrtab w) < 2^32) by exact (proj1 NF).
  destruct (C38 _ _ _ _ _ _ V L P Ht HF) as (d & needed & facts & Hd & Hty & _ & Hr & _ & Hn & Hs & Hc & _). exists d, (needed ++ facts ++ [(0, 0)]). split; [exact Hd|]. split; [exact Hty|]. split; [exact Hr|].
  destruct asked.
  - assert (Hp : (n, ty, 2, 4) ∈ prescribed /\ (n = ".hash" -> opt_hash_style (lk_options l) <> HGnu) /\ (n = ".gnu.hash" -> opt_hash_style (lk_options l) <> HSysv) /\ (tag = 4 /\ ty = 5 \/ tag = 0x6ffffef5 /\ ty = 0x6ffffff6) /\ n ∉ [".init"; ".fini"]).
    { unfold hash_kinds in Hk. apply elem_of_cons in Hk as [Hk|Hk]; [|apply elem_of_list_singleton in Hk].
      - injection Hk as -> -> -> Hh. split; [apply (bool_decide_eq_true_1 _); vm_compute; reflexivity|]. split; [intros _ K; rewrite K in Hh; discriminate Hh|]. split; [intros K; discriminate K|]. split; [left; done|]. apply (bool_decide_eq_true_1 _). vm_compute. reflexivity.
      - injection Hk as -> -> -> Hh. split; [apply (bool_decide_eq_true_1 _); vm_compute; reflexivity|]. split; [intros K; discriminate K|]. split; [intros _ K; rewrite K in Hh; discriminate Hh|]. split; [right; done|]. apply (bool_decide_eq_true_1 _). vm_compute. reflexivity. }
    destruct Hp as (P1 & P2 & P3 & P4 & P5). destruct (C77_own_headers _ _ _ _ _ _ _ _ _ _ L V NF P1 P2 P3) as (s & T & Ts & Tf & _). exists s. split; [exact T|]. split; [exact Ts|].
    split; [unfold alloc; rewrite Tf; reflexivity|]. apply elem_of_app. right. apply elem_of_app. left. apply (Hc s); [exact (proj1 T)| |].
    + unfold states. rewrite Ts. destruct P4 as [[-> ->]|[-> ->]]; split; reflexivity.
    + intros m Hm Hi. exfalso. apply P5. destruct T as (_ & Tn & _). rewrite Hm in Tn. apply (inj Some) in Tn as <-. exact Hi.
  - destruct (links_outcome _ _ _ _ _ _ L) as (w0&wr&ws&w1&extra&null&rest&rest'&st&w3&w4&w5&w6&w7&null'&out&O).
    assert (HO : forall i m t a e, own_rows (opt_hash_style (lk_options l)) !! i = Some (m, t, a, e) -> m <> n /\ t <> ty).
    { intros i m t a e Hi. apply elem_of_list_lookup_2 in Hi. revert Hk Hi. destruct (opt_hash_style (lk_options l)); unfold hash_kinds; intros Hk Hi;
        (apply elem_of_cons in Hk as [Hk|Hk]; [|apply elem_of_list_singleton in Hk]); injection Hk as -> -> _; try discriminate.
      all: unfold own_rows in Hi; cbn [app] in Hi; repeat (apply elem_of_cons in Hi as [Hi|Hi]; [injection Hi as -> -> _ _; split; discriminate|]); by apply elem_of_nil in Hi. }
    split.
    + intros s Hs' Hn'. destruct (secs_class O (proj2 L) V P s Ht Hs') as (m & Hm & [(e & Hrow)|(Hres & _)]); rewrite Hn' in Hm; apply (inj Some) in Hm as <-.
      * by apply (HO _ _ _ _ _) in Hrow as [K _].
      * apply Hres. unfold hash_kinds in Hk. apply elem_of_cons in Hk as [Hk|Hk]; [|apply elem_of_list_singleton in Hk]; injection Hk as -> _ _ _; apply (bool_decide_eq_true_1 _); vm_compute; reflexivity.
    + intros v Hv. assert (Htag : tag <> 1 /\ tag <> 0 /\ (tag = 4 /\ ty = 5 \/ tag = 0x6ffffef5 /\ ty = 0x6ffffff6)).
      { unfold hash_kinds in Hk. apply elem_of_cons in Hk as [Hk|Hk]; [|apply elem_of_list_singleton in Hk]; injection Hk as _ -> -> _; (split; [discriminate|]; split; [discriminate|]); [left|right]; done. }
      apply elem_of_app in Hv as [Hv|Hv]; [exfalso; apply (proj1 Htag); exact (proj1 (Forall_forall _ _) Hn _ Hv)|]. apply elem_of_app in Hv as [Hv|Hv]; [|exfalso; apply elem_of_list_singleton in Hv; injection Hv as K _; exact (proj1 (proj2 Htag) K)].
      destruct (Hs _ Hv) as (s & Hs' & St). assert (St' : sh_type (sc_sh s) = ty /\ v = addr s) by (destruct Htag as (_ & _ & [[-> ->]|[-> ->]]); exact St).
      destruct (secs_class O (proj2 L) V P s Ht Hs') as (m & Hm & [(e & Hrow)|(Hres & _)]); [exfalso; by apply (HO _ _ _ _ _) in Hrow as [_ K]; apply K, St'|].
      exists s, m. split; [exact Hs'|]. split; [exact Hm|]. split; [exact Hres|exact St'].
Qed.
Print Assumptions C86.
(** With --hash-style=gnu there is a .gnu.hash and no .hash. *)
Definition gnu_linker : linker := mkLinker (options_default <| opt_hash_style := HGnu |>) ["a.o"] [].
Local Instance headers_fit_dec' w secs : Decision (headers_fit w secs).
Proof. unfold headers_fit. apply _. Defined.
Local Instance names_fit_dec' w : Decision (names_fit w).
Proof. unfold names_fit. apply _. Defined.
Example C86_case : exists w secs, links (demo_world stk_files []) demo_lib_oracle gnu_linker 10 w secs /\ plain_inputs (demo_world stk_files []) gnu_linker /\ names_fit w /\ headers_fit w secs /\
  hash_kinds (opt_hash_style (lk_options gnu_linker)) = [(".hash", 5, 4, false); (".gnu.hash", 0x6ffffff6, 0x6ffffef5, true)] /\
  (forall s, s ∈ secs -> sec_name w s <> Some ".hash") /\ exists s, the_sec w secs ".gnu.hash" s.
Proof.
  assert (E : match link_writer (demo_world stk_files []) demo_lib_oracle gnu_linker 10 with
    | Ok w => match mapM_res (sec_finalize demo_oracle w) (w_sections w) with Ok secs => bool_decide (names_fit w) && bool_decide (headers_fit w secs) | _ => false end | _ => false end = true) by (vm_compute; reflexivity).
  destruct (link_writer (demo_world stk_files []) demo_lib_oracle gnu_linker 10) as [w| |] eqn:E1; [|discriminate E..]. destruct (mapM_res (sec_finalize demo_oracle w) (w_sections w)) as [secs| |] eqn:E2; [|discriminate E..].
  apply andb_true_iff in E as [NF HF]. apply bool_decide_eq_true_1 in NF, HF. assert (L : links (demo_world stk_files []) demo_lib_oracle gnu_linker 10 w secs) by (split; [exact E1|exact E2]).
  assert (P : plain_inputs (demo_world stk_files []) gnu_linker) by (destruct (demo_plain stk_files ["a.o"] [] eq_refl) as [P1 P2 P3]; split; [exact P1|exact P2|exact P3]).
  assert (K : hash_kinds (opt_hash_style (lk_options gnu_linker)) = [(".hash", 5, 4, false); (".gnu.hash", 0x6ffffff6, 0x6ffffef5, true)]) by reflexivity.
  exists w, secs. split; [exact L|]. split; [exact P|]. split; [exact NF|]. split; [exact HF|]. split; [exact K|]. split.
  - destruct (C86 _ demo_lib_oracle _ _ _ _ ".hash" 5 4 false demo_valid L P NF HF) as (_ & _ & _ & _ & _ & H & _); [rewrite K; left|exact H].
  - destruct (C86 _ demo_lib_oracle _ _ _ _ ".gnu.hash" 0x6ffffff6 0x6ffffef5 true demo_valid L P NF HF) as (_ & _ & _ & _ & _ & s & H & _); [rewrite K; right; left|exists s; exact H].
Qed.
