(** The string table of section names in the file. *)
From Verif Require Export SpecOutput ProofHeaders.

Lemma rd_table_lookup {A} (rd1 : bytes -> N -> option A) sz n data off xs i x : rd_table rd1 sz n data off = Some xs -> xs !! i = Some x -> rd1 data (off + sz * N.of_nat i) = Some x.
Proof.
  revert off xs i. induction n as [|n IH]; intros off xs i H Hi; cbn [rd_table] in H.
  - injection H as <-. discriminate Hi.
  - destruct (rd1 data off) as [y|] eqn:Ey; [|discriminate H]. cbn [mbind option_bind] in H. destruct (rd_table rd1 sz n data (off + sz)) as [ys|] eqn:Eys; [|discriminate H]. cbn [mbind option_bind] in H.
    injection H as <-. destruct i as [|i].
    + injection Hi as <-. replace (off + sz * N.of_nat 0) with off by lia. exact Ey.
    + replace (off + sz * N.of_nat (S i)) with (off + sz + sz * N.of_nat i) by lia. exact (IH _ _ _ Eys Hi).
Qed.
Lemma cstr_more l k b : cstr l = Some b -> cstr (l ++ k) = Some b.
Proof.
  revert b. induction l as [|x l IH]; intros b H; [discriminate H|]. cbn [cstr app] in *. destruct (x =? 0); [exact H|].
  destruct (cstr l) as [c|]; [|discriminate H]. rewrite (IH c eq_refl). exact H.
Qed.
Lemma cstr_file data n off c o b : rd_bytes n data off = Some c -> cstr_at c o = Some b -> cstr_at data (off + o) = Some b.
Proof.
  unfold rd_bytes, cstr_at. cbv zeta. intros H Hb. case_decide as E; [|discriminate H]. injection H as <-.
  replace (N.to_nat (off + o)) with (N.to_nat off + N.to_nat o)%nat by lia. rewrite <- drop_drop. set (d := drop (N.to_nat off) data) in *. clearbody d.
  destruct (decide (N.to_nat o <= n)%nat) as [Ho|Ho].
  - rewrite <- (take_drop n d) at 1. rewrite drop_app_le by (rewrite E; exact Ho). apply cstr_more. exact Hb.
  - rewrite drop_ge in Hb by lia. discriminate Hb.
Qed.

Lemma name_entry t o n : st_name_at t o = Some n -> exists i, (n, (i, o)) ∈ stt_names t.
Proof.
  unfold st_name_at. induction (stt_names t) as [|[k [i p]] l IH]; [discriminate|]. intros H. cbn [st_name_in] in H. destruct (N.eqb_spec p o) as [-> |Hne].
  - injection H as <-. exists i. left.
  - destruct (IH H) as [j Hj]. exists j. by right.
Qed.
Section output.
  Context {wd : world} {lo : lib_oracle} {l : linker} {fuel : nat} {w : writer} {secs : list section}
    {w0 wr ws w1 : writer} {extra : N} {null : section} {rest rest' : list section} {st : layout} {w3 w4 w5 w6 w7 : writer}
    {null' : section} {out : list section}.
  Context (O : outcome wd lo l fuel w secs w0 wr ws w1 extra null rest rest' st w3 w4 w5 w6 w7 null' out).
  Context (Fin : mapM_res (sec_finalize (lo_writer lo) w) (w_sections w) = Ok secs).
  Context (V : valid_oracle (lo_writer lo)) (P : plain_inputs wd l).

  Lemma eh_final : x86_64_executable (w_eh w) /\ e_shstrndx (w_eh w) = match get_section id_shstr (w_sections w) with Some s => u16 (sc_index s) | None => 0 end.
  Proof using O.
    destruct (run_fields (oc_run O)) as (_ & _ & _ & _ & _ & _ & _ & _ & _ & _ & _ & _ & _ & _ & _ & _ & _ & Heh & _ & _ & Hsec & _).
    destruct (winv_const _ _ _ _ (oc_new O) (oc_winv O)) as (C1 & _).
    destruct (finish_spec _ _ (rn_fin (oc_run O))) as (entry & ph & phs & _ & _ & _ & E2). cbv zeta in E2.
    assert (F2 : w_eh (compute_tables w7) = initial_ehdr) by (change (w_eh (compute_tables w7)) with (w_eh w7); congruence).
    rewrite F2 in E2. rewrite <- Hsec in E2. assert (E : w_eh w = initial_ehdr <| e_entry := entry |> <| e_shnum := u16 (blen (w_sections w)) |>
       <| e_phnum := u16 (blen (w_program_headers (compute_tables w7))) |>
       <| e_shstrndx := (match get_section id_shstr (w_sections w) with Some s => u16 (sc_index s) | None => 0 end) |> <| e_shoff := w_file_offset (compute_tables w7) |>).
    { rewrite E2 at 1. reflexivity. }
    rewrite E. clear. split; [|reflexivity]. constructor; try reflexivity. split; [|split]; reflexivity.
  Qed.
  Lemma shstr_there : blen secs <= 2^16 -> exists b, secs !! N.to_nat (e_shstrndx (w_eh w)) = Some b /\ b ∈ out /\ sc_id b = 1%nat.
  Proof using O Fin V.
    intros Hlen. destruct eh_final as [_ ->]. destruct (laid_ids O V) as [ND HI].
    destruct (run_kept (oc_run O)) as (nl & fin & Es & Kn & Kf). assert (HK : Forall2 kept (null <| sc_index := 0 |> :: rest') (w_sections w)) by (rewrite Es; constructor; assumption).
    assert (Hin : 1%nat ∈ sc_id <$> (null <| sc_index := 0 |> :: rest')) by (apply HI; pose proof (n0_ge O); lia).
    apply elem_of_list_fmap in Hin as (a & Hid & Ha). apply elem_of_list_lookup in Ha as [i Ha].
    pose proof (get_nodup _ _ _ ND Ha) as Hg. rewrite <- Hid in Hg. destruct (get_kept _ _ _ _ HK Hg) as (a' & Hg' & Ka). change id_shstr with 1%nat. rewrite Hg'.
    destruct i as [|i].
    { exfalso. cbn in Ha. injection Ha as <-. destruct (null_facts O) as (N0 & _). pose proof (decl_id _ _ (proj1 (oc_null O))) as E. cbn in Hid, E. lia. }
    change (rest' !! i = Some a) in Ha. destruct (Forall2_lookup_l _ _ _ _ _ (oc_out O) Ha) as (b & Hb & Hw).
    assert (Ei : sc_index a' = N.of_nat (S i)).
    { destruct (kept_sh _ _ Ka) as (_ & _ & -> & _). rewrite <- (out_index O _ _ Hb). destruct Hw as (_ & -> & _). reflexivity. }
    exists b. rewrite Ei. split; [|split; [eapply elem_of_list_lookup_2; exact Hb|rewrite (decl_id _ _ (proj1 Hw)); symmetry; exact Hid]].
    rewrite (oc_secs O) in *. apply lookup_lt_Some in Hb as Hlt. unfold blen in Hlen. cbn [length] in Hlen. unfold u16. rewrite N.mod_small by lia. rewrite Nat2N.id. exact Hb.
  Qed.
  Lemma shstr_holds : stt_total_len (w_shstrtab w) < 2^32 -> blen secs <= 2^16 -> exists b, secs !! N.to_nat (e_shstrndx (w_eh w)) = Some b /\ sh_type (sc_sh b) = 3 /\ sec_name w b = Some ".shstrtab" /\ blen (contents b) = filesz b /\
    forall s n, s ∈ secs -> sec_name w s = Some n -> sh_name (sc_sh s) < blen (contents b) /\ (nonul n -> cstr_at (contents b) (sh_name (sc_sh s)) = Some (string_bytes n)).
  Proof using O Fin V P.
    intros Ht Hlen. destruct (shstr_there Hlen) as (b & Hb & Hbo & Hid). exists b. split; [exact Hb|].
    assert (Hbs : b ∈ secs) by (eapply elem_of_list_lookup_2; exact Hb). pose proof (n0_ge O) as Hge.
    destruct (secs_class O Fin V P b Ht Hbs) as (nb & Hnb & [(eb & Hrow)|(_ & _ & H)]); [|exfalso; lia]. rewrite Hid in Hrow.
    assert (Er : nb = ".shstrtab" /\ sh_type (sc_sh b) = 3) by (destruct (opt_hash_style (lk_options l)); cbn in Hrow; injection Hrow as <- <- _ _; split; reflexivity). destruct Er as [-> E3]. clear Hrow.
    split; [exact E3|]. split; [exact Hnb|]. destruct (own_sections O Fin V P) as (pd & gd & _ & Hown). destruct (Hown 1%nat) as (d & Hd & Hidd & Hc & Hs); [lia|].
    assert (d = b) as ->.
    { apply elem_of_list_lookup in Hd as [x Hx], Hbo as [y Hy]. assert (x = y) as -> by (eapply (out_nodup O V); [exact Hx|exact Hy|congruence]). congruence. }
    split; [exact Hs|]. change (contents b = st_chunk_data (w_shstrtab w)) in Hc. intros s n _ Hn. unfold sec_name in Hn.
    destruct (run_fields (oc_run O)) as (Esh & _). assert (Hok : st_ok (w_shstrtab w)) by (rewrite Esh; apply st_reach_ok; exact (wi_st _ _ _ (oc_winv O))).
    assert (He : exists i, (n, (i, sh_name (sc_sh s))) ∈ stt_names (w_shstrtab w)) by (eapply name_entry; exact Hn).
    destruct He as (i & He). rewrite Hc. destruct (entry_string _ _ _ _ Hok He) as [r Er]. split.
    - apply (f_equal length) in Er. rewrite drop_length, app_length in Er. cbn [length] in Er. unfold blen. lia.
    - intros Hnn. unfold cstr_at. rewrite Er. apply cstr_name. exact Hnn.
  Qed.
  Lemma all_named s : stt_total_len (w_shstrtab w) < 2^32 -> s ∈ secs -> is_Some (sec_name w s).
  Proof using O Fin V P. intros Ht Hs. destruct (secs_class O Fin V P s Ht Hs) as (n & Hn & _). exists n. exact Hn. Qed.
End output.
