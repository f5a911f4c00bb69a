(** C36, C38-C40: what is in the file. *)
From Verif Require Import SpecFile ProofDyn DemoLink PropLayout.

(** * C36 *)

(** With a write-only section the file is not what the headers say. *)
Theorem C36_refuted : exists wd lo l fuel w secs data s, valid_oracle (lo_writer lo) /\ links wd lo l fuel w secs /\ plain_inputs wd l /\
  link_bytes wd lo l fuel = Ok data /\ s ∈ secs /\ rd_bytes (N.to_nat (filesz s)) data (offset s) <> Some (contents s).
Proof.
  destruct (demo_links [("a.o", lone_obj)] ["a.o"] [] (fun w secs => match write_to_disk demo_oracle w, secs !! 1%nat with
    | Ok data, Some s => bool_decide (rd_bytes (N.to_nat (filesz s)) data (offset s) <> Some (contents s)) | _, _ => false end)) as (w & secs & H & E); [vm_compute; reflexivity|].
  destruct (write_to_disk demo_oracle w) as [data| |] eqn:Ed; [|discriminate E|discriminate E]. destruct (secs !! 1%nat) as [s|] eqn:Es; [|discriminate E].
  eexists _, demo_lib_oracle, _, _, w, secs, data, s. split; [exact demo_valid|]. split; [exact H|]. split; [apply demo_plain; vm_compute; reflexivity|].
  split; [unfold link_bytes; rewrite (proj1 H); exact Ed|]. split; [eapply elem_of_list_lookup_2; exact Es|]. apply bool_decide_eq_true_1 in E. exact E.
Qed.
Print Assumptions C36_refuted.

(** Otherwise, when every number fits its field, the file reads back. *)
Theorem C36_partial : forall wd lo l fuel w secs effs path data, valid_oracle (lo_writer lo) -> links wd lo l fuel w secs -> plain_inputs wd l ->
  (forall s, s ∈ secs -> ¬ lone_write s) -> stt_total_len (w_shstrtab w) < 2^32 -> headers_fit w secs ->
  link wd lo l fuel = (effs, Ok tt) -> EWrite path data ∈ effs -> path = opt_output (lk_options l) /\ reads_back data w secs.
Proof.
  intros wd lo l fuel w secs effs path data V H P HW Ht (F1 & F2 & F3 & F4 & F5) HL He. destruct (links_outcome _ _ _ _ _ _ H) as (w0&wr&ws&w1&extra&null&rest&rest'&st&w3&w4&w5&w6&w7&null'&out&O).
  unfold link in HL. destruct (wd_can_create wd); [|discriminate HL]. unfold link_bytes in HL. rewrite (proj1 H) in HL. cbn [mbind res_bind] in HL.
  destruct (write_to_disk (lo_writer lo) w) as [d| |] eqn:Ed; [|discriminate HL|discriminate HL]. injection HL as <-.
  assert (Hd : path = opt_output (lk_options l) /\ data = d).
  { rewrite !elem_of_cons in He. destruct He as [He|[He|[He|He]]]; [discriminate He|injection He as -> ->; split; reflexivity|discriminate He|by apply elem_of_nil in He]. }
  destruct Hd as [-> ->]. split; [reflexivity|]. exact (file_parses O (proj2 H) V P d (lone_out O HW) Ht F1 F2 F3 F4 F5 Ed).
Qed.
Print Assumptions C36_partial.


Local Instance ehdr_fits_dec h : Decision (ehdr_fits h).
Proof. unfold ehdr_fits. apply _. Defined.
Local Instance phdr_fits_dec h : Decision (phdr_fits h).
Proof. unfold phdr_fits. apply _. Defined.
Local Instance shdr_fits_dec h : Decision (shdr_fits h).
Proof. unfold shdr_fits. apply _. Defined.
Local Instance headers_fit_dec w secs : Decision (headers_fit w secs).
Proof. unfold headers_fit. apply _. Defined.
Example C36_case : exists w secs data, main_links w secs /\ (forall s, s ∈ secs -> ¬ lone_write s) /\ stt_total_len (w_shstrtab w) < 2^32 /\
  headers_fit w secs /\ link (demo_world demo_files []) demo_lib_oracle (demo_linker ["a.o"] ["/l/libfoo.so"]) 10 =
    ([ECreate "./out"; EWrite "./out" data; EChmod "./out" 493], Ok tt) /\ blen data = 9732.
Proof.
  destruct (main_check (fun w secs => usual w secs && bool_decide (headers_fit w secs) && match write_to_disk demo_oracle w with Ok data => blen data =? 9732 | _ => false end))
    as (w & secs & H & E); [vm_compute; reflexivity|].
  rewrite !andb_true_iff in E. destruct E as [[E1 E2] E3]. apply usual_spec in E1 as (U1 & U2 & _). apply bool_decide_eq_true_1 in E2.
  destruct (write_to_disk demo_oracle w) as [data| |] eqn:Ed; [|discriminate E3|discriminate E3]. apply N.eqb_eq in E3.
  exists w, secs, data. split; [exact H|]. split; [exact U1|]. split; [exact U2|]. split; [exact E2|]. split; [|exact E3].
  unfold link, link_bytes. rewrite (proj1 H). cbn [mbind res_bind]. change (lo_writer demo_lib_oracle) with demo_oracle. rewrite Ed. reflexivity.
Qed.

(** * C38 *)

(** There is one dynamic section. A loader reads from it the DT_NEEDED entries,
    then the facts about sections, then DT_NULL, and nothing else fits in. Every
    fact is true of a section of the file, every section that calls for one has
    it ([.init] and [.fini] are known by name, whatever their type), and the
    tags of the linker's own tables occur exactly once. *)
Theorem C38 : forall wd lo l fuel w secs, valid_oracle (lo_writer lo) -> links wd lo l fuel w secs -> plain_inputs wd l ->
  stt_total_len (w_shstrtab w) < 2^32 -> headers_fit w secs ->
  exists d needed facts, d ∈ secs /\ sh_type (sc_sh d) = 6 /\ (forall d', d' ∈ secs -> sh_type (sc_sh d') = 6 -> d' = d) /\
    rd_dynamic (contents d) = Some (needed ++ facts ++ [(0, 0)]) /\ filesz d = 16 * blen (needed ++ facts ++ [(0, 0)]) /\
    Forall (fun e => e.1 = 1) needed /\
    (forall e, e ∈ facts -> exists s, s ∈ secs /\ states w s e) /\
    (forall s e, s ∈ secs -> states w s e -> (forall n, sec_name w s = Some n -> n ∈ [".init"; ".fini"] -> e.1 ∈ [12; 13]) -> e ∈ facts) /\
    (forall t, t ∈ once_tags -> exists s v, s ∈ secs /\ states w s (t, v) /\ once (needed ++ facts ++ [(0, 0)]) t v).
Proof.
  intros wd lo l fuel w secs V H P Ht (_ & _ & F3 & _). destruct (links_outcome _ _ _ _ _ _ H) as (w0&wr&ws&w1&extra&null&rest&rest'&st&w3&w4&w5&w6&w7&null'&out&O).
  destruct (dynamic_one O (proj2 H) V P Ht) as (d & Hd & Hty & Hone & Hc & Hb). destruct (dynamic_facts O (proj2 H) V P Ht) as (facts & He & Hs & Hcpl & Ho).
  destruct (needed_final O (proj2 H) V P Ht) as (loader & ns & ds & _ & Hds & _ & HN & _).
  assert (T1 : Forall (fun e => e.1 = 1) (w_dyn_entries wr)) by (clear -HN; induction HN as [|? ? ? ? [E _]]; constructor; assumption).
  pose proof (entries_fit O (proj2 H) V P Ht F3) as Fits.
  exists d, (w_dyn_entries wr), facts. split; [exact Hd|]. split; [exact Hty|]. split; [exact Hone|]. rewrite <- He.
  split; [rewrite Hc; apply rd_dynamic_ser; exact Fits|]. split.
  { rewrite <- Hb, Hc. unfold ser_dyns, blen. rewrite (bind_length ser_dyn _ 16) by apply ser_dyn_length. lia. }
  split; [exact T1|]. split; [exact Hs|]. split; [exact Hcpl|]. intros t Hin. destruct (Ho t Hin) as [v Hv].
  destruct (Hs (t, v) (once_elem _ _ _ Hv)) as (s & Hins & Hst). exists s, v. split; [exact Hins|]. split; [exact Hst|].
  assert (Hne : t <> 1 /\ t <> 0). { clear -Hin. unfold once_tags in Hin. rewrite !elem_of_cons in Hin. repeat (destruct Hin as [->|Hin]; [split; discriminate|]). by apply elem_of_nil in Hin. }
  unfold once in *. rewrite He, !filter_app, Hv. rewrite (filter_none _ (w_dyn_entries wr)), app_nil_l.
  - replace (filter (fun e : N * N => e.1 = t) [(0, 0)]) with (@nil (N * N)); [rewrite app_nil_r; reflexivity|]. rewrite filter_cons_False by (cbn; intros E; exact (proj2 Hne (eq_sym E))). reflexivity.
  - intros e Hine. rewrite List.Forall_forall in T1. apply elem_of_list_In in Hine. rewrite (T1 e Hine). intros E. exact (proj1 Hne (eq_sym E)).
Qed.
Print Assumptions C38.
Example C38_case : exists w secs, main_links w secs /\ stt_total_len (w_shstrtab w) < 2^32 /\ headers_fit w secs /\
  match secs !! 11%nat with
  | Some d => sh_type (sc_sh d) = 6 /\ rd_dynamic (contents d) = Some (w_dyn_entries w) /\ length (w_dyn_entries w) = 17%nat
  | None => False end.
Proof.
  destruct (main_check (fun w secs => usual w secs && bool_decide (headers_fit w secs) && match secs !! 11%nat with
     | Some d => (sh_type (sc_sh d) =? 6) && bool_decide (rd_dynamic (contents d) = Some (w_dyn_entries w)) && Nat.eqb (length (w_dyn_entries w)) 17 | None => false end))
    as (w & secs & H & E); [vm_compute; reflexivity|].
  rewrite !andb_true_iff in E. destruct E as [[E1 E2] E3]. apply usual_spec in E1 as (U1 & U2 & _). apply bool_decide_eq_true_1 in E2.
  exists w, secs. split; [exact H|]. split; [exact U2|]. split; [exact E2|]. destruct (secs !! 11%nat) as [d|]; [|discriminate E3].
  rewrite !andb_true_iff, N.eqb_eq, Nat.eqb_eq in E3. destruct E3 as [[E3 E4] E5]. apply bool_decide_eq_true_1 in E4. split; [exact E3|]. split; [exact E4|exact E5].
Qed.

(** * C39 *)

(** A library whose file name is the name of a symbol it provides is not
    recorded as needed. *)
Definition self_obj : elf_obj := demo_obj [progbits ".text" 6 16 [0xe8; 0; 0; 0; 0]; relasec ".rela.text"]
  [("_start", dsym 0x12 1 0 5); ("libself.so", dsym 0x10 0 0 0)] [(2, [mkGreloc 1 (Some (-4)%Z) 2 4])].
Definition self_files : list (string * elf_obj) := [("a.o", self_obj); ("/l/libself.so", demo_lib [("libself.so", dsym 0x12 7 0x1000 6)])].
Theorem C39_refuted : exists wd lo l fuel w secs k s d es, valid_oracle (lo_writer lo) /\ links wd lo l fuel w secs /\ plain_inputs wd l /\
  k <> 0 /\ syt_symbols (w_dynsym w) !! k = Some s /\ file_name (s_reference s) = Some "libself.so" /\
  d ∈ secs /\ sh_type (sc_sh d) = 6 /\ rd_dynamic (contents d) = Some es /\
  forall ds v, ds ∈ secs -> sec_name w ds = Some ".dynstr" -> (1, v) ∈ es -> cstr_at (contents ds) v <> Some (string_bytes "libself.so").
Proof.
  destruct (demo_links self_files ["a.o"] ["/l/libself.so"] (fun w secs => match syt_symbols (w_dynsym w) !! 22, filter (fun d => sh_type (sc_sh d) = 6) secs with
    | Some s, [d] => match rd_dynamic (contents d) with
       | Some es => bool_decide (file_name (s_reference s) = Some "libself.so") &&
           forallb (fun ds => negb (bool_decide (sec_name w ds = Some ".dynstr")) ||
             forallb (fun e : N * N => if e.1 =? 1 then negb (bool_decide (cstr_at (contents ds) e.2 = Some (string_bytes "libself.so"))) else true) es) secs
       | None => false end
    | _, _ => false end)) as (w & secs & H & E); [vm_compute; reflexivity|].
  destruct (syt_symbols (w_dynsym w) !! 22) as [s|] eqn:Es; [|discriminate E]. destruct (filter _ secs) as [|d [|]] eqn:Ed; [discriminate E| |discriminate E].
  destruct (rd_dynamic (contents d)) as [es|] eqn:Er; [|discriminate E]. apply andb_true_iff in E as [E1 E2]. apply bool_decide_eq_true_1 in E1.
  assert (Hd : d ∈ filter (fun d => sh_type (sc_sh d) = 6) secs) by (rewrite Ed; left). apply elem_of_list_filter in Hd as [Hd6 Hd].
  eexists _, demo_lib_oracle, _, _, w, secs, 22, s, d, es. split; [exact demo_valid|]. split; [exact H|]. split; [apply demo_plain; vm_compute; reflexivity|].
  split; [discriminate|]. split; [exact Es|]. split; [exact E1|]. split; [exact Hd|]. split; [exact Hd6|]. split; [exact Er|].
  intros ds v Hds Hn Hv Hc. rewrite forallb_forall in E2. specialize (E2 ds (proj1 (elem_of_list_In _ _) Hds)). rewrite bool_decide_eq_true_2 in E2 by exact Hn. cbn [negb orb] in E2.
  rewrite forallb_forall in E2. specialize (E2 _ (proj1 (elem_of_list_In _ _) Hv)). cbn [fst snd N.eqb Pos.eqb] in E2. rewrite bool_decide_eq_true_2 in E2 by exact Hc. discriminate E2.
Qed.
Print Assumptions C39_refuted.

(** What holds: the DT_NEEDED entries read back as file names, without
    repetition, the dynamic linker's first, the others of libraries of the
    link; and every library that provided a symbol is there, unless its file
    name is a symbol name as well. *)
Theorem C39_partial : forall wd lo l fuel w secs, valid_oracle (lo_writer lo) -> links wd lo l fuel w secs -> plain_inputs wd l ->
  stt_total_len (w_shstrtab w) < 2^32 -> headers_fit w secs ->
  exists d ds es ns, d ∈ secs /\ sh_type (sc_sh d) = 6 /\ ds ∈ secs /\ sec_name w ds = Some ".dynstr" /\ rd_dynamic (contents d) = Some es /\
    Forall2 (fun e n => nonul n -> cstr_at (contents ds) e.2 = Some (string_bytes n)) (filter (fun e => e.1 = 1) es) ns /\
    NoDup ns /\ head ns = file_name (opt_dynamic_linker (lk_options l)) /\
    (forall n, n ∈ ns -> Some n = file_name (opt_dynamic_linker (lk_options l)) \/ lib_name wd l n) /\
    (forall k s, syt_symbols (w_dynsym w) !! k = Some s -> k = 0 \/
       exists e so, is_lib wd l (s_reference s) e /\ file_name (s_reference s) = Some so /\ (so ∈ ns \/ lib_symbol wd l so)).
Proof.
  intros wd lo l fuel w secs V H P Ht HF. destruct (C38 _ _ _ _ _ _ V H P Ht HF) as (d & needed' & facts' & Hd & H6 & _ & Hrd & _).
  destruct (links_outcome _ _ _ _ _ _ H) as (w0&wr&ws&w1&extra&null&rest&rest'&st&w3&w4&w5&w6&w7&null'&out&O).
  destruct (dynamic_one O (proj2 H) V P Ht) as (d1 & Hd1 & Hty & Hone & Hc & _). assert (d = d1) as -> by (apply Hone; assumption).
  destruct (dynamic_facts O (proj2 H) V P Ht) as (facts & He & Hs & _).
  destruct (needed_final O (proj2 H) V P Ht) as (loader & ns & ds & Hl & Hds & Hdn & HN & N2 & N3 & N4 & N5).
  assert (Hlen : needed' ++ facts' ++ [(0, 0)] = w_dyn_entries w).
  { pose proof (entries_fit O (proj2 H) V P Ht (proj1 (proj2 (proj2 HF)))) as Fits.
    rewrite Hc, (rd_dynamic_ser _ Fits) in Hrd. apply (inj Some) in Hrd. symmetry. exact Hrd. }
  exists d1, ds, (w_dyn_entries w), ns. rewrite Hlen in Hrd. split; [exact Hd|]. split; [exact H6|]. split; [exact Hds|]. split; [exact Hdn|]. split; [exact Hrd|].
  split; [|split; [exact N2|]; split; [rewrite Hl; exact N3|]; split; [|exact N5]].
  - rewrite He, !filter_app. rewrite (filter_none _ facts), app_nil_l.
    + rewrite filter_cons_False by discriminate. rewrite filter_nil, app_nil_r.
      clear -HN. induction HN as [|e n es ns (E1 & _ & E2) HN IH]; [constructor|]. rewrite filter_cons_True by exact E1. constructor; assumption.
    + intros e Hin E. destruct (Hs e Hin) as (s & _ & Hst). destruct e as [t v]. cbn in E. subst t. exact Hst.
  - intros n Hn. destruct (N4 n Hn) as [->|?]; [left; symmetry; exact Hl|right; assumption].
Qed.
Print Assumptions C39_partial.
Definition needed_names (d ds : section) : option (list (option bytes)) :=
  match rd_dynamic (contents d) with Some es => Some ((fun e : N * N => cstr_at (contents ds) e.2) <$> filter (fun e : N * N => e.1 = 1) es) | None => None end.
Example C39_case : exists w secs, main_links w secs /\ stt_total_len (w_shstrtab w) < 2^32 /\ headers_fit w secs /\
  match secs !! 11%nat, secs !! 6%nat with
  | Some d, Some ds => sh_type (sc_sh d) = 6 /\ sec_name w ds = Some ".dynstr" /\
      needed_names d ds =
        Some [Some (string_bytes "ld-linux-x86-64.so.2"); Some (string_bytes "libfoo.so")]
  | _, _ => False end.
Proof.
  destruct (main_check (fun w secs => usual w secs && bool_decide (headers_fit w secs) && match secs !! 11%nat, secs !! 6%nat with
     | Some d, Some ds => (sh_type (sc_sh d) =? 6) && bool_decide (sec_name w ds = Some ".dynstr") && bool_decide (needed_names d ds =
        Some [Some (string_bytes "ld-linux-x86-64.so.2"); Some (string_bytes "libfoo.so")]) | _, _ => false end))
    as (w & secs & H & E); [vm_compute; reflexivity|].
  rewrite !andb_true_iff in E. destruct E as [[E1 E2] E3]. apply usual_spec in E1 as (U1 & U2 & _). apply bool_decide_eq_true_1 in E2.
  exists w, secs. split; [exact H|]. split; [exact U2|]. split; [exact E2|]. destruct (secs !! 11%nat) as [d|]; [|discriminate E3]. destruct (secs !! 6%nat) as [ds|]; [|discriminate E3].
  rewrite !andb_true_iff, N.eqb_eq in E3. destruct E3 as [[E3 E4] E5]. apply bool_decide_eq_true_1 in E4, E5. split; [exact E3|]. split; [exact E4|exact E5].
Qed.
