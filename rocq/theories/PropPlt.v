(** C105 for inputs that do not use the names of the linker's own sections. *)
From Verif Require Import SpecPlt ProofPlt ProofRoom DemoLink PropTotal PropResolve PropScan PropCrash PropApply PropGot PropFields.

(** The PLT is filled in without a crash, however many functions it has. *)
Theorem C105_filled : forall wd lo l fuel wr w4, valid_orders lo -> plain_inputs wd l -> plain_libs wd l -> resolve wd lo l fuel = Ok wr -> stt_total_len (w_dynstr wr) < 2 ^ 32 ->
  laid_out (lo_writer lo) wr w4 -> plt_in_reach w4 -> exists w5, patch_plt_and_got_plt w4 = Ok w5.
Proof.
  intros wd lo l fuel wr w4 V P PL Er Sm (w1 & secs & w3 & E1 & E2 & E3 & E4) [R1 R2]. destruct (resolve_winv _ _ _ _ _ Er) as (w0 & Hw0 & HI). destruct (assign_sizes_spec _ _ _ E1) as (ws & extra & Sz).
  exact (filled (proj1 V) P PL Sm Er Hw0 HI Sz E2 E3 E4 R1 R2).
Qed.
Print Assumptions C105_filled.

(** A link of moderate size is laid out with the PLT in reach and no more
    segments than the file header can count. *)
Theorem C105_reach : forall wd lo l fuel wr w4, valid_orders lo -> plain_inputs wd l -> plain_libs wd l -> resolve wd lo l fuel = Ok wr -> stt_total_len (w_dynstr wr) < 2 ^ 32 -> moderate wd lo l fuel ->
  laid_out (lo_writer lo) wr w4 -> plt_in_reach w4 /\ (length (w_program_headers w4) <= 1170)%nat.
Proof.
  intros wd lo l fuel wr w4 V P PL Er Sm HM (w1 & secs & w3 & E1 & E2 & E3 & E4). destruct (HM _ _ Er E1) as [M1 M2]. destruct (resolve_winv _ _ _ _ _ Er) as (w0 & Hw0 & HI). destruct (assign_sizes_spec _ _ _ E1) as (ws & extra & Sz).
  destruct (roomy (proj1 V) P PL Sm Er Hw0 HI Sz E2 E3 E4 M1 M2) as [R1 R2]. split; [|exact R1]. split; [apply (R2 7%nat); by right|apply (R2 6%nat); by left].
Qed.
Print Assumptions C105_reach.

(** So a moderate link that crashes does so for a relocation of an input. *)
Theorem C105_ordinary_partial : forall wd lo l U fuel p, valid_orders lo -> sound_inputs wd l -> names_within wd l U -> room U <= 2 ^ 32 -> truthful wd l -> (11 * (1 + length U) < fuel)%nat ->
  plain_inputs wd l -> plain_libs wd l -> plain_section_symbols wd l -> short_tables wd lo l fuel -> moderate wd lo l fuel -> (link wd lo l fuel).2 = Panic p ->
  exists wr w4 w5 w6 s c rel r, resolve wd lo l fuel = Ok wr /\ laid_out (lo_writer lo) wr w4 /\ patch_plt_and_got_plt w4 = Ok w5 /\ handle_special_symbols w5 = Ok w6 /\
    s ∈ w_sections w6 /\ c ∈ sc_chunks s /\ (rel, r) ∈ c_relocations c /\ of_input wd l rel /\
    (c_address c = None \/
     exists a data sym0 sym, c_address c = Some a /\ length data = length (c_data c) /\ syt_get (w_symtab w6) r = Some sym0 /\ alike sym0 sym /\
       ~ can_apply a data rel sym (w_dynsym w6) (sh_addr (hdr_of 5 (w_sections w6))) (sh_addr (hdr_of 7 (w_sections w6)))).
Proof.
  intros wd lo l U fuel p HO HS HU HR HT HF P PL HN HB HM H. destruct (C105_relocation_partial _ _ _ _ _ _ HO HS HU HR HT HF PL HN HB H) as (wr & w4 & E1 & E2 & K). destruct (HB _ E1) as [_ B2].
  destruct (C105_reach _ _ _ _ _ _ HO P PL E1 ltac:(lia) HM E2) as [M1 M2].
  destruct (C105_filled _ _ _ _ _ _ HO P PL E1 ltac:(lia) E2 M1) as [w5' E5]. destruct K as [K|[K|(w5 & w6 & s & c & rel & r & K5 & K6 & K)]]; [rewrite K in E5; discriminate E5|lia|].
  exists wr, w4, w5, w6, s, c, rel, r. split; [exact E1|]. split; [exact E2|]. split; [exact K5|]. split; [exact K6|exact K].
Qed.
Print Assumptions C105_ordinary_partial.
(** And without relocations it never crashes. *)
Theorem C105_no_relocations : forall wd lo l U fuel p, valid_orders lo -> sound_inputs wd l -> names_within wd l U -> room U <= 2 ^ 32 -> truthful wd l -> (11 * (1 + length U) < fuel)%nat ->
  plain_inputs wd l -> plain_libs wd l -> plain_section_symbols wd l -> short_tables wd lo l fuel -> moderate wd lo l fuel -> no_relocations wd l -> (link wd lo l fuel).2 <> Panic p.
Proof.
  intros wd lo l U fuel p HO HS HU HR HT HF P PL HN HB HM NR H. destruct (C105_ordinary_partial _ _ _ _ _ _ HO HS HU HR HT HF P PL HN HB HM H) as (wr & w4 & w5 & w6 & s & c & rel & r & _ & _ & _ & _ & _ & _ & _ & (e & idx & rels & g & G1 & G2 & G3 & _) & _).
  rewrite (NR _ _ _ G1 G2) in G3. by apply elem_of_nil in G3.
Qed.
Print Assumptions C105_no_relocations.

(** The conditions on the layout can be computed. *)
Definition laid_b (wd : world) (lo : lib_oracle) (l : linker) (fuel : nat) (f : writer -> writer -> bool) : bool :=
  match resolve wd lo l fuel with
  | Ok wr => match assign_sizes (lo_writer lo) wr with
    | Ok w1 => match sort_sections (lo_writer lo) (w_sections w1) with
      | Ok secs => match generate_program_headers (w1 <| w_sections := secs |>) with
        | Ok w3 => match add_dyn_entries w3 with Ok w4 => f wr w4 | _ => false end
        | _ => false end
      | _ => false end
    | _ => false end
  | _ => false end.
Definition reach_b (w : writer) : bool :=
  (sh_addr (hdr_of 7 (w_sections w)) + sh_size (hdr_of 7 (w_sections w)) <=? 2 ^ 31) && (sh_addr (hdr_of 6 (w_sections w)) + sh_size (hdr_of 6 (w_sections w)) <=? 2 ^ 31).
Lemma reach_from w : reach_b w = true -> plt_in_reach w.
Proof. unfold reach_b. rewrite andb_true_iff, !N.leb_le. intros [H1 H2]. split; [exact H1|exact H2]. Qed.
Definition moderate_b (wd : world) (lo : lib_oracle) (l : linker) (fuel : nat) : bool :=
  match resolve wd lo l fuel with
  | Ok wr => match assign_sizes (lo_writer lo) wr with Ok w1 => (length (w_sections w1) <=? 580)%nat && (size_of (w_sections w1) <=? 2 ^ 30) | _ => true end
  | _ => true end.
Lemma moderate_from wd lo l fuel : moderate_b wd lo l fuel = true -> moderate wd lo l fuel.
Proof.
  unfold moderate_b. intros H wr w1 Er E1. rewrite Er, E1 in H. apply andb_true_iff in H as [H1 H2]. apply Nat.leb_le in H1. apply N.leb_le in H2. split; [exact H1|exact H2].
Qed.
Lemma laid_some wd lo l fuel f : laid_b wd lo l fuel f = true -> exists wr w4, resolve wd lo l fuel = Ok wr /\ laid_out (lo_writer lo) wr w4 /\ f wr w4 = true.
Proof.
  unfold laid_b. intros H. destruct (resolve wd lo l fuel) as [wr| |]; [|discriminate H..]. destruct (assign_sizes (lo_writer lo) wr) as [w1| |] eqn:E1; [|discriminate H..].
  destruct (sort_sections (lo_writer lo) (w_sections w1)) as [secs| |] eqn:E2; [|discriminate H..]. destruct (generate_program_headers (w1 <| w_sections := secs |>)) as [w3| |] eqn:E3; [|discriminate H..].
  destruct (add_dyn_entries w3) as [w4| |] eqn:E4; [|discriminate H..]. exists wr, w4. split; [reflexivity|]. split; [|exact H]. exists w1, secs, w3. split; [exact E1|]. split; [exact E2|]. split; [exact E3|exact E4].
Qed.
(** A program that calls a function of a library has a PLT of one entry. *)
Example C105_filled_case : exists wd lo l fuel wr w4, valid_orders lo /\ plain_inputs wd l /\ plain_libs wd l /\ resolve wd lo l fuel = Ok wr /\ stt_total_len (w_dynstr wr) < 2 ^ 32 /\
  laid_out (lo_writer lo) wr w4 /\ plt_in_reach w4 /\ moderate wd lo l fuel /\ (0 < length (w_got_plt w4))%nat.
Proof.
  destruct (laid_some (demo_world near_files []) demo_lib_oracle (demo_linker ["a.o"] ["/l/libduo.so"]) 10 (fun wr w4 => reach_b w4 && (stt_total_len (w_dynstr wr) <? 2 ^ 32) && (0 <? length (w_got_plt w4))%nat)) as (wr & w4 & E1 & E2 & H); [vm_compute; reflexivity|].
  apply andb_true_iff in H as [H H3]. apply andb_true_iff in H as [H1 H2]. apply reach_from in H1. apply N.ltb_lt in H2. apply Nat.ltb_lt in H3.
  exists (demo_world near_files []), demo_lib_oracle, (demo_linker ["a.o"] ["/l/libduo.so"]), 10%nat, wr, w4. split; [exact demo_orders|]. split; [apply demo_plain; vm_compute; reflexivity|]. split; [apply libs_plain; vm_compute; reflexivity|].
  split; [exact E1|]. split; [exact H2|]. split; [exact E2|]. split; [exact H1|]. split; [apply moderate_from; vm_compute; reflexivity|exact H3].
Qed.
(** The debugging relocation crashes a moderate link of ordinary inputs. *)
Example C105_ordinary_case : exists wd lo l U fuel, valid_orders lo /\ sound_inputs wd l /\ names_within wd l U /\ room U <= 2 ^ 32 /\ truthful wd l /\ (11 * (1 + length U) < fuel)%nat /\
  plain_inputs wd l /\ plain_libs wd l /\ plain_section_symbols wd l /\ short_tables wd lo l fuel /\ moderate wd lo l fuel /\ (link wd lo l fuel).2 = Panic PUnwrap.
Proof.
  exists (world_of C64_obj), demo_lib_oracle, one_object, (demo_names [("a.o", C64_obj)] ["a.o"]), 45%nat. destruct (fits_hyps C64_obj) as (F1 & F2 & F3 & F4); [vm_compute; reflexivity|].
  split; [exact demo_orders|]. split; [apply demo_sound; vm_compute; reflexivity|]. split; [apply demo_within|]. split; [vm_compute; discriminate|].
  split; [exact F1|]. split; [vm_compute; lia|]. split; [apply demo_plain; vm_compute; reflexivity|]. split; [exact F2|]. split; [exact F3|]. split; [exact F4|]. split; [apply moderate_from; vm_compute; reflexivity|]. vm_compute. reflexivity.
Qed.
(** The same file without that relocation. *)
Example C105_no_relocations_met : exists wd lo l U fuel, valid_orders lo /\ sound_inputs wd l /\ names_within wd l U /\ room U <= 2 ^ 32 /\ truthful wd l /\ (11 * (1 + length U) < fuel)%nat /\
  plain_inputs wd l /\ plain_libs wd l /\ plain_section_symbols wd l /\ short_tables wd lo l fuel /\ moderate wd lo l fuel /\ no_relocations wd l /\ (link wd lo l fuel).2 = Ok tt.
Proof.
  exists (world_of C105_obj), demo_lib_oracle, one_object, (demo_names [("a.o", C105_obj)] ["a.o"]), 45%nat. destruct (fits_hyps C105_obj) as (F1 & F2 & F3 & F4); [vm_compute; reflexivity|].
  split; [exact demo_orders|]. split; [apply demo_sound; vm_compute; reflexivity|]. split; [apply demo_within|]. split; [vm_compute; discriminate|].
  split; [exact F1|]. split; [vm_compute; lia|]. split; [apply demo_plain; vm_compute; reflexivity|]. split; [exact F2|]. split; [exact F3|]. split; [exact F4|]. split; [apply moderate_from; vm_compute; reflexivity|]. split; [|vm_compute; reflexivity].
  intros e idx rels He Hi. apply only_input in He as ->. exfalso; exact (not_elem_of_nil _ Hi).
Qed.
