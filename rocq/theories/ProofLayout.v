(** Proofs about section order and layout. *)
From Verif Require Export SpecLayout ProofScan.

(** * Order *)
Lemma section_cmp_spec a b : section_cmp a b <> Gt <-> sec_before a b.
Proof.
  unfold section_cmp, sec_before, flags, align.
  destruct (N.compare_spec (sh_flags (sc_sh a)) (sh_flags (sc_sh b))) as [E|E|E].
  - destruct (N.compare_spec (sh_addralign (sc_sh a)) (sh_addralign (sc_sh b))); simpl; split; intros Hx; try done; lia.
  - destruct (N.eqb_spec (sh_flags (sc_sh a)) 0); [split; [done|lia]|].
    destruct (N.eqb_spec (sh_flags (sc_sh b)) 0); [lia|]. split; [lia|done].
  - destruct (N.eqb_spec (sh_flags (sc_sh a)) 0); [lia|].
    destruct (N.eqb_spec (sh_flags (sc_sh b)) 0); split; intros H; try done; lia.
Qed.
Lemma section_cmp_anti a b : section_cmp b a = CompOpp (section_cmp a b).
Proof.
  unfold section_cmp. rewrite (N.compare_antisym (sh_flags (sc_sh a))), (N.compare_antisym (sh_addralign (sc_sh a))).
  destruct (N.compare_spec (sh_flags (sc_sh a)) (sh_flags (sc_sh b))); simpl; [done| |];
  destruct (N.eqb_spec (sh_flags (sc_sh a)) 0), (N.eqb_spec (sh_flags (sc_sh b)) 0); simpl; try done; lia.
Qed.

(** * One step of the layout *)
Lemma mapM_st_trace {S A} (P : list A -> list A -> S -> Prop) (f : S -> A -> res (S * A)) l s s' l' :
  P [] [] s ->
  (forall pre pre' post s a s' a', l = pre ++ a :: post -> P pre pre' s -> f s a = Ok (s', a') -> P (pre ++ [a]) (pre' ++ [a']) s') ->
  mapM_st f l s = Ok (s', l') -> P l l' s'.
Proof.
  intros H0 Hstep.
  assert (G : forall post pre pre' s l', l = pre ++ post -> P pre pre' s -> mapM_st f post s = Ok (s', l') -> P l (pre' ++ l') s').
  { induction post as [|a post IH]; intros pre pre' s0 l0 E HP H; simpl in H.
    - injection H as <- <-. subst l. by rewrite !app_nil_r.
    - apply bind_Ok in H as ([s1 a1] & H1 & H). apply bind_Ok in H as ([s2 l2] & H2 & [= <- <-]).
      rewrite cons_middle, app_assoc. eapply (IH (pre ++ [a])); [|eapply Hstep; done|done].
      subst l. by rewrite <- app_assoc. }
  intros H. exact (G l [] [] s l' eq_refl H0 H).
Qed.

Definition place_at (a o : N) (s : section) : section :=
  s <| sc_sh := sc_sh s <| sh_addr := a |> <| sh_offset := o |> |> <| sc_chunks := set_chunk_addresses a (sc_chunks s) |>.
Definition move_to (o : N) (s : section) : section := s <| sc_sh := sc_sh s <| sh_offset := o |> |>.
Definition closed (st : layout) : list Phdr :=
  match ly_cur st with Some ph => ly_phs st ++ [ph] | None => ly_phs st end.
Definition up (n : N) : N := round_to n 0x1000.

Lemma up_spec n : n <= up n /\ up n mod 0x1000 = 0 /\ up n < n + 0x1000.
Proof. unfold up, round_to. change (0x1000 =? 0) with false. cbv iota. destruct (N.eqb_spec (n mod 0x1000) 0); lia. Qed.
Lemma up_mono a b : a <= b -> up a <= up b.
Proof.
  unfold up, round_to. change (0x1000 =? 0) with false. cbv iota.
  destruct (N.eqb_spec (a mod 0x1000) 0), (N.eqb_spec (b mod 0x1000) 0); lia.
Qed.
Lemma up_0 : up 0 = 0. Proof. done. Qed.
Global Opaque up.

Inductive placed (st : layout) (s : section) : layout -> section -> Prop :=
| pl_open x : flags s <> ly_flags st -> alloc s = true -> x = default 0 (ly_first st) ->
    placed st s
      (mkLayout (up (ly_file_offset st) + (filesz s + x)) (up (ly_p_vaddr st) + (memsz s + x)) None (flags s)
         (Some (mkPhdr 1 (perms s) (if ly_first st then 0 else up (ly_file_offset st)) (up (ly_p_vaddr st)) (up (ly_p_vaddr st))
                  (filesz s + x) (memsz s + x) 0x1000)) (closed st))
      (place_at (up (ly_p_vaddr st) + x) (up (ly_file_offset st) + x) s)
| pl_plain : flags s <> ly_flags st -> alloc s = false ->
    placed st s (mkLayout (ly_file_offset st + filesz s) (ly_p_vaddr st) (ly_first st) (flags s) None (closed st))
      (move_to (ly_file_offset st) s)
| pl_more ph : flags s = ly_flags st -> ly_cur st = Some ph ->
    placed st s
      (mkLayout (ly_file_offset st + filesz s) (ly_p_vaddr st + memsz s) (ly_first st) (ly_flags st)
         (Some (ph <| p_filesz := p_filesz ph + filesz s |> <| p_memsz := p_memsz ph + memsz s |>)) (ly_phs st))
      (place_at (ly_p_vaddr st) (ly_file_offset st) s)
| pl_more_plain : flags s = ly_flags st -> ly_cur st = None ->
    placed st s (mkLayout (ly_file_offset st + filesz s) (ly_p_vaddr st) (ly_first st) (ly_flags st) None (ly_phs st))
      (move_to (ly_file_offset st) s).

Lemma has_flag_bit f k : k < 32 -> has_flag f (2 ^ k) = N.testbit f k.
Proof.
  intros Hk. unfold has_flag, u32. rewrite N.land_comm.
  assert (Hb : N.testbit (f mod 2^32) k = N.testbit f k) by (apply N.mod_pow2_bits_low; done).
  rewrite <- Hb. generalize (f mod 2^32). intros n.
  destruct (N.testbit n k) eqn:E.
  - apply N.eqb_eq. apply N.bits_inj. intros m. rewrite N.land_spec, N.pow2_bits_eqb.
    destruct (N.eqb_spec k m); [by subst|done].
  - apply N.eqb_neq. intros H. assert (H2 : N.testbit (N.land (2^k) n) k = N.testbit (2^k) k) by by rewrite H.
    rewrite N.land_spec, N.pow2_bits_true, E in H2. done.
Qed.
Lemma has_alloc s : has_flag (sh_flags (sc_sh s)) SHF_ALLOC = alloc s.
Proof. exact (has_flag_bit _ 1 eq_refl). Qed.
Lemma has_write s : has_flag (sh_flags (sc_sh s)) SHF_WRITE = writable s.
Proof. exact (has_flag_bit _ 0 eq_refl). Qed.
Lemma has_exec s : has_flag (sh_flags (sc_sh s)) SHF_EXECINSTR = executable s.
Proof. exact (has_flag_bit _ 2 eq_refl). Qed.

Lemma place_spec st s : placed st s (layout_place st s).1 (layout_place st s).2.
Proof.
  unfold layout_place. destruct (N.eqb_spec (sh_flags (sc_sh s)) (ly_flags st)) as [E|E]; simpl negb; cbv iota.
  - destruct (ly_cur st) as [ph|] eqn:Ec.
    + pose proof (pl_more st s ph E Ec) as H. destruct s, sc_sh, st. simpl in *. subst ly_cur. exact H.
    + pose proof (pl_more_plain st s E Ec) as H. destruct s, sc_sh, st. simpl in *. subst ly_cur. exact H.
  - unfold get_load_program_header. rewrite has_alloc, has_write, has_exec. destruct (alloc s) eqn:Ea.
    + pose proof (pl_open st s _ E Ea eq_refl) as H.
      assert (Hp : N.lor (N.lor PF_R (if writable s then PF_W else 0)) (if executable s then PF_X else 0) = perms s)
        by (unfold perms; destruct (writable s), (executable s); done).
      rewrite Hp. clear Hp. cbv zeta.
      change (round_to (ly_p_vaddr st) PAGE_ALIGNMENT) with (up (ly_p_vaddr st)).
      change (round_to (ly_file_offset st) PAGE_ALIGNMENT) with (up (ly_file_offset st)).
      destruct s, sc_sh, st. destruct ly_first; simpl in *; [exact H|].
      cbn in H. rewrite !N.add_0_r in *. exact H.
    + pose proof (pl_plain st s E Ea) as H. destruct s, sc_sh, st. simpl in *. exact H.
Qed.

(** A step places the section and prepends at most one special header. *)
Definition special (names : strtab) (s : section) : res (option N) := p_type_of names (sc_sh s).
Lemma step_spec names st s st' s' : layout_step names st s = Ok (st', s') -> exists st1,
  placed st s st1 s' /\ exists t, p_type_of names (sc_sh s') = Ok t /\
  match t with
  | None => st' = st1
  | Some t => exists ph, st' = st1 <| ly_phs := ph :: ly_phs st1 |> /\ p_type ph = t /\
      p_vaddr ph = ly_p_vaddr st /\ p_paddr ph = ly_p_vaddr st /\ p_offset ph = offset s' /\
      p_filesz ph = filesz s' /\ p_memsz ph = memsz s' /\ p_align ph = align s' /\
      p_flags ph = 4 + (if writable s' then 2 else 0)
  end.
Proof.
  unfold layout_step. pose proof (place_spec st s) as Hp. destruct (layout_place st s) as [st1 s1]. simpl in Hp.
  intros H. apply bind_Ok in H as (t & Ht & H). exists st1.
  destruct t as [t|]; injection H as <- <-; (split; [done|]); eexists; (split; [done|]); [|done].
  eexists. split; [done|]. rewrite has_write. repeat split; try done. destruct (writable s1); done.
Qed.

(** * Only addresses and offsets change *)
Lemma set_chunk_addresses_same a cs : same_chunks cs (set_chunk_addresses a cs).
Proof. revert a; induction cs as [|c cs IH]; intros a; simpl; constructor; [by destruct c|apply IH]. Qed.
Lemma same_chunks_refl cs : same_chunks cs cs.
Proof. induction cs as [|c cs IH]; constructor; [by destruct c|done]. Qed.
Lemma place_at_placed a o s : only_placed s (place_at a o s).
Proof. split; [done|]. apply set_chunk_addresses_same. Qed.
Lemma move_to_placed o s : only_placed s (move_to o s).
Proof. split; [destruct s as [? ? ? ? [] ?]; done|]. apply same_chunks_refl. Qed.
Lemma placed_only st s st' s' : placed st s st' s' -> only_placed s s'.
Proof. intros []; try apply place_at_placed; apply move_to_placed. Qed.

Section only_placed.
  Context (s s' : section) (H : only_placed s s').
  Lemma op_id : sc_id s' = sc_id s. Proof. by rewrite (proj1 H). Qed.
  Lemma op_index : sc_index s' = sc_index s. Proof. by rewrite (proj1 H). Qed.
  Lemma op_link : sc_link s' = sc_link s. Proof. by rewrite (proj1 H). Qed.
  Lemma op_synth : sc_synth s' = sc_synth s. Proof. by rewrite (proj1 H). Qed.
  Lemma op_flags : flags s' = flags s. Proof. unfold flags. by rewrite (proj1 H). Qed.
  Lemma op_memsz : memsz s' = memsz s. Proof. unfold memsz. by rewrite (proj1 H). Qed.
  Lemma op_align : align s' = align s. Proof. unfold align. by rewrite (proj1 H). Qed.
  Lemma op_type : sh_type (sc_sh s') = sh_type (sc_sh s). Proof. by rewrite (proj1 H). Qed.
  Lemma op_name : sh_name (sc_sh s') = sh_name (sc_sh s). Proof. by rewrite (proj1 H). Qed.
  Lemma op_nobits : is_nobits s' = is_nobits s. Proof. unfold is_nobits. by rewrite op_type. Qed.
  Lemma op_filesz : filesz s' = filesz s. Proof. unfold filesz. by rewrite op_nobits, op_memsz. Qed.
  Lemma op_alloc : alloc s' = alloc s. Proof. unfold alloc. by rewrite op_flags. Qed.
  Lemma op_writable : writable s' = writable s. Proof. unfold writable. by rewrite op_flags. Qed.
  Lemma op_executable : executable s' = executable s. Proof. unfold executable. by rewrite op_flags. Qed.
  Lemma op_perms : perms s' = perms s. Proof. unfold perms. by rewrite op_writable, op_executable. Qed.
End only_placed.

Section trace.
  Context (names : strtab).

  Lemma layout_only l st st' l' : mapM_st (layout_step names) l st = Ok (st', l') -> Forall2 only_placed l l'.
  Proof.
    intros H. apply (mapM_st_trace (fun pre pre' _ => Forall2 only_placed pre pre')) in H; [done|constructor|].
    intros pre pre' post s a s' a' _ HF Hs. apply Forall2_app; [done|]. constructor; [|done].
    destruct (step_spec _ _ _ _ _ Hs) as (st1 & Hp & _). by eapply placed_only.
  Qed.
End trace.

(** * Ranges *)
Definition ordered {A} (R : A -> A -> Prop) (l : list A) : Prop :=
  forall i j a b, (i < j)%nat -> l !! i = Some a -> l !! j = Some b -> R a b.
Lemma ordered_snoc {A} (R : A -> A -> Prop) l x : ordered R l -> (forall a, a ∈ l -> R a x) -> ordered R (l ++ [x]).
Proof.
  intros Ho Hx i j a b Hij Ha Hb. destruct (decide (j < length l)%nat) as [Hj|Hj].
  - rewrite lookup_app_l in Hb by done. rewrite lookup_app_l in Ha by lia. exact (Ho i j a b Hij Ha Hb).
  - assert (j = length l) as ->.
    { apply lookup_lt_Some in Hb. rewrite app_length in Hb. simpl in Hb. lia. }
    rewrite lookup_app_r in Hb by lia. rewrite Nat.sub_diag in Hb. injection Hb as <-.
    rewrite lookup_app_l in Ha by lia. apply Hx. by eapply elem_of_list_lookup_2.
Qed.
Lemma ordered_nil {A} (R : A -> A -> Prop) : ordered R [].
Proof. intros i j a b _ H. by rewrite lookup_nil in H. Qed.

Definition cur_ok (st : layout) : Prop := ly_cur st <> None <-> N.testbit (ly_flags st) 1 = true.
Lemma cur_ok_placed st s st' s' : cur_ok st -> placed st s st' s' -> cur_ok st'.
Proof.
  unfold cur_ok. intros Hc Hp. destruct Hp as [x Hf Ha Hx|Hf Ha|ph Hf Hcur|Hf Hcur]; simpl.
  - unfold alloc in Ha. rewrite Ha. done.
  - unfold alloc in Ha. rewrite Ha. done.
  - rewrite <- Hc, Hcur. done.
  - rewrite <- Hc, Hcur. done.
Qed.

Record range_inv (va0 fo0 : N) (pre' : list section) (st : layout) : Prop := {
  ri_cur : cur_ok st;
  ri_va : va0 <= ly_p_vaddr st;
  ri_fo : fo0 <= ly_file_offset st;
  ri_mem : forall s, s ∈ pre' -> alloc s = true -> va0 <= addr s /\ addr s + memsz s <= ly_p_vaddr st;
  ri_file : forall s, s ∈ pre' -> fo0 <= offset s /\ offset s + filesz s <= ly_file_offset st;
  ri_mem_ord : ordered (fun a b => alloc a = true -> alloc b = true -> addr a + memsz a <= addr b) pre';
  ri_file_ord : ordered (fun a b => offset a + filesz a <= offset b) pre' }.

(** What placing one section does to the counters. *)
Lemma placed_range st s st' s' : cur_ok st -> placed st s st' s' ->
  ly_p_vaddr st <= ly_p_vaddr st' /\ ly_file_offset st <= offset s' /\ offset s' + filesz s' = ly_file_offset st' /\
  (alloc s' = true -> ly_p_vaddr st <= addr s' /\ addr s' + memsz s' = ly_p_vaddr st') /\
  (alloc s' = false -> ly_p_vaddr st' = ly_p_vaddr st).
Proof.
  intros Hc Hp. pose proof (placed_only _ _ _ _ Hp) as Ho.
  rewrite (op_filesz _ _ Ho), (op_alloc _ _ Ho), (op_memsz _ _ Ho).
  destruct Hp as [x Hf Ha Hx|Hf Ha|ph Hf Hcur|Hf Hcur]; simpl.
  - pose proof (up_spec (ly_p_vaddr st)). pose proof (up_spec (ly_file_offset st)).
    unfold addr, offset; simpl. rewrite Ha. repeat split; try lia.
  - unfold offset; simpl. rewrite Ha. repeat split; try lia; done.
  - unfold addr, offset; simpl. repeat split; try lia. intros Ha. exfalso.
    assert (ly_cur st <> None) as Hn by (by rewrite Hcur). apply Hc in Hn. unfold alloc in Ha. rewrite Hf in Ha. congruence.
  - unfold addr, offset; simpl. split_and!; try lia; try done. intros Ha. exfalso. unfold alloc in Ha. rewrite Hf in Ha. apply Hc in Ha. done.
Qed.

Lemma range_inv_step names va0 fo0 pre' st s st' s' : range_inv va0 fo0 pre' st ->
  layout_step names st s = Ok (st', s') -> range_inv va0 fo0 (pre' ++ [s']) st'.
Proof.
  intros [Hc Hva Hfo Hm Hf Hmo Hfo'] Hs. destruct (step_spec _ _ _ _ _ Hs) as (st1 & Hp & t & _ & Ht).
  pose proof (cur_ok_placed _ _ _ _ Hc Hp) as Hc1.
  destruct (placed_range _ _ _ _ Hc Hp) as (H1 & H2 & H3 & H4 & H5).
  assert (HI : range_inv va0 fo0 (pre' ++ [s']) st1).
  { split; [done|lia|lia| | | |].
    - intros s0 [Hin|Hin]%elem_of_app Ha.
      + specialize (Hm s0 Hin Ha). lia.
      + apply elem_of_list_singleton in Hin as ->. specialize (H4 Ha). lia.
    - intros s0 [Hin|Hin]%elem_of_app.
      + specialize (Hf s0 Hin). lia.
      + apply elem_of_list_singleton in Hin as ->. lia.
    - apply ordered_snoc; [done|]. intros a Hin Ha Hb. specialize (Hm a Hin Ha). specialize (H4 Hb). lia.
    - apply ordered_snoc; [done|]. intros a Hin. specialize (Hf a Hin). lia. }
  destruct t as [t|]; [|by subst st'].
  destruct Ht as (ph & -> & _). destruct HI as [I1 I2 I3 I4 I5 I6 I7]. by split.
Qed.
Lemma range_inv_all names va0 fo0 first l st' l' :
  mapM_st (layout_step names) l (mkLayout fo0 va0 first 0 None []) = Ok (st', l') -> range_inv va0 fo0 l' st'.
Proof.
  intros H. apply (mapM_st_trace (fun _ pre' st => range_inv va0 fo0 pre' st)) in H; [done| |].
  - split; simpl; try lia; try set_solver; try apply ordered_nil. done.
  - intros pre pre' post st s st1 s1 _ HI Hs. by eapply range_inv_step.
Qed.

(** * Segments *)
Definition all_loads (st : layout) : list Phdr := loads (ly_phs st) ++ option_list (ly_cur st).

Record seg_inv (l : list section) (x0 va0 : N) (pre pre' : list section) (st : layout) : Prop := {
  sg_ok : cur_ok st;
  sg_cur : forall ph, ly_cur st = Some ph -> p_type ph = 1 /\
     p_vaddr ph + p_memsz ph = ly_p_vaddr st /\ p_offset ph + p_filesz ph = ly_file_offset st /\
     (forall s, flags s = ly_flags st -> p_flags ph = perms s) /\
     (nobits_last l -> ly_p_vaddr st + p_offset ph = ly_file_offset st + p_vaddr ph \/
        exists s, s ∈ pre /\ flags s = ly_flags st /\ is_nobits s = true /\ memsz s <> 0) /\
     (forall s, s ∈ pre' -> alloc s = false -> offset s + filesz s <= p_offset ph);
  sg_first : (pre' = [] /\ ly_first st = Some x0 /\ ly_file_offset st = 0 /\ ly_p_vaddr st = va0 /\ all_loads st = []) \/
     (ly_first st = None /\ exists ph rest, all_loads st = ph :: rest /\ p_offset ph = 0 /\ p_vaddr ph = up va0 /\ x0 <= p_filesz ph);
  sg_in : forall s, s ∈ pre' -> alloc s = true -> exists ph, ph ∈ all_loads st /\ mem_inside s ph /\ file_inside s ph /\
     p_flags ph = perms s /\ (nobits_last l -> is_nobits s = false -> offset s + p_vaddr ph = addr s + p_offset ph);
  sg_ph : forall ph, ph ∈ all_loads st -> p_type ph = 1 /\ p_vaddr ph mod 0x1000 = 0 /\ p_offset ph mod 0x1000 = 0 /\
     p_paddr ph = p_vaddr ph /\ p_align ph = 0x1000 /\ p_filesz ph <= p_memsz ph /\
     p_vaddr ph + p_memsz ph <= ly_p_vaddr st /\ p_offset ph + p_filesz ph <= ly_file_offset st /\
     exists s, s ∈ pre' /\ alloc s = true /\ p_flags ph = perms s /\ mem_inside s ph;
  sg_ord : ordered (fun a b => up (p_vaddr a + p_memsz a) <= p_vaddr b /\ p_offset a + p_filesz a <= p_offset b) (all_loads st);
  sg_out : forall s ph, s ∈ pre' -> alloc s = false -> ph ∈ all_loads st ->
     offset s + filesz s <= p_offset ph \/ p_offset ph + p_filesz ph <= offset s;
  sg_count : forall post, count_load_headers 0 (pre ++ post) = blen (all_loads st) + count_load_headers (ly_flags st) post }.

Lemma perms_flags s s' : flags s = flags s' -> perms s = perms s'.
Proof. intros H. unfold perms, writable, executable. by rewrite H. Qed.
Lemma loads_closed st : (forall ph, ly_cur st = Some ph -> p_type ph = 1) -> loads (closed st) = all_loads st.
Proof.
  intros H. unfold closed, all_loads. destruct (ly_cur st) as [ph|]; simpl; [|by rewrite app_nil_r].
  unfold loads. rewrite filter_app. f_equal. rewrite filter_cons, decide_True; [done|]. by apply H.
Qed.
Lemma blen_snoc {A} (l : list A) x : blen (l ++ [x]) = blen l + 1.
Proof. unfold blen. rewrite app_length. simpl. lia. Qed.
Lemma filesz_le s : filesz s <= memsz s.
Proof. unfold filesz. destruct (is_nobits s); lia. Qed.

Lemma seg_inv_placed l x0 va0 pre pre' post st s st' s' : l = pre ++ s :: post ->
  (pre = [] -> alloc s = true) -> length pre = length pre' -> Forall2 only_placed pre pre' ->
  range_inv va0 0 pre' st -> x0 <> 0 ->
  seg_inv l x0 va0 pre pre' st -> placed st s st' s' -> seg_inv l x0 va0 (pre ++ [s]) (pre' ++ [s']) st'.
Proof.
  intros Hl Hhead Hlen HF HR Hx0 [Iok Icur Ifirst Iin Iph Iord Iout Icount] Hp.
  pose proof (cur_ok_placed _ _ _ _ Iok Hp) as Hok'.
  pose proof (placed_only _ _ _ _ Hp) as Ho.
  pose proof (op_alloc _ _ Ho) as HOa. pose proof (op_perms _ _ Ho) as HOp. pose proof (op_memsz _ _ Ho) as HOm.
  pose proof (op_filesz _ _ Ho) as HOf. pose proof (op_nobits _ _ Ho) as HOn. pose proof (op_flags _ _ Ho) as HOg.
  assert (Hcl : loads (closed st) = all_loads st) by (apply loads_closed; intros ph Hph; by apply Icur).
  pose proof (filesz_le s) as Hfs.
  destruct Hp as [x Hf Ha Hx|Hf Ha|ph Hf Hcur|Hf Hcur].
  - (* a new segment *)
    set (ph := mkPhdr _ _ _ _ _ _ _ _). set (st' := mkLayout _ _ _ _ _ _) in *. set (s' := place_at _ _ _) in *.
    assert (HL : all_loads st' = all_loads st ++ [ph]) by (unfold all_loads at 1; simpl; by rewrite Hcl).
    pose proof (up_spec (ly_p_vaddr st)) as Hu1. pose proof (up_spec (ly_file_offset st)) as Hu2.
    assert (Hoff : p_offset ph = up (ly_file_offset st)).
    { unfold ph; simpl. destruct Ifirst as [(_ & -> & -> & _)|(-> & _)]; [by rewrite up_0|done]. }
    assert (Hpm : mem_inside s' ph) by (unfold mem_inside, s', ph, addr; simpl; unfold memsz; simpl; fold (memsz s); lia).
    assert (Hpf : file_inside s' ph).
    { unfold file_inside. rewrite HOf, Hoff. unfold s', ph, offset; simpl. lia. }
    split; [done|..].
    + intros ph0 Hph0. assert (ph0 = ph) as -> by (by injection Hph0 as <-). clear Hph0.
      split; [done|]. split; [simpl; lia|]. split; [rewrite Hoff; simpl; lia|].
      split; [intros s1 Hs1; simpl; symmetry; by apply perms_flags|].
      split; [intros Hnl; rewrite Hoff; unfold ph, st'; simpl; destruct (is_nobits s) eqn:En|].
      * destruct (decide (memsz s = 0)) as [E0|E0]; [left; unfold filesz; rewrite En; lia|].
        right. exists s. split; [set_solver|]. done.
      * left. unfold filesz. rewrite En. lia.
      * intros s0 [Hin|Hin]%elem_of_app Ha0.
        { rewrite Hoff. pose proof (ri_file _ _ _ _ HR s0 Hin). lia. }
        apply elem_of_list_singleton in Hin as ->. congruence.
    + right. split; [done|]. destruct Ifirst as [(_ & E1 & E2 & E3 & E4)|(E1 & ph1 & rest & E2 & E3)].
      * exists ph, []. rewrite HL, E4. split; [done|]. rewrite Hoff, E2. split; [done|]. unfold ph; simpl.
        rewrite E3. split; [done|]. rewrite Hx, E1. simpl. lia.
      * exists ph1, (rest ++ [ph]). rewrite HL, E2. done.
    + intros s0 [Hin|Hin]%elem_of_app Ha0.
      * destruct (Iin s0 Hin Ha0) as (ph0 & Hph0 & H0). exists ph0. split; [|done]. rewrite HL. set_solver.
      * apply elem_of_list_singleton in Hin as ->. exists ph. rewrite HL. split; [set_solver|]. split; [done|]. split; [done|].
        split; [by rewrite HOp|]. intros _ _. rewrite Hoff. unfold s', ph, addr, offset; simpl. lia.
    + intros ph0 Hph0. rewrite HL in Hph0. apply elem_of_app in Hph0 as [Hin|Hin].
      * destruct (Iph ph0 Hin) as (? & ? & ? & ? & ? & ? & ? & ? & s1 & ? & ?). split_and!; try done.
        { unfold st'; simpl. lia. } { unfold st'; simpl. lia. }
        exists s1. split; [set_solver|done].
      * apply elem_of_list_singleton in Hin as ->. rewrite Hoff. split_and!; try done; try (unfold ph, st'; simpl; lia).
        exists s'. split; [set_solver|]. split; [by rewrite HOa|]. split; [by rewrite HOp|done].
    + rewrite HL. apply ordered_snoc; [done|]. intros a Hin. rewrite Hoff. unfold ph; simpl.
      destruct (Iph a Hin) as (_ & _ & _ & _ & _ & _ & E1 & E2 & _). split; [by apply up_mono|lia].
    + intros s0 ph0 Hin Ha0 Hph0. rewrite HL in Hph0. apply elem_of_app in Hin as [Hin|Hin].
      * apply elem_of_app in Hph0 as [Hph0|Hph0]; [by apply Iout|]. apply elem_of_list_singleton in Hph0 as ->.
        left. rewrite Hoff. pose proof (ri_file _ _ _ _ HR s0 Hin). lia.
      * apply elem_of_list_singleton in Hin as ->. rewrite HOa, Ha in Ha0. done.
    + intros post0. rewrite <- app_assoc, Icount. rewrite HL, blen_snoc. simpl.
      change (sh_flags (sc_sh s)) with (flags s). destruct (N.eqb_spec (flags s) (ly_flags st)); [done|].
      change (flags s) with (sh_flags (sc_sh s)) at 1. rewrite has_alloc, Ha. lia.
  - (* a section outside segments *)
    set (st' := mkLayout _ _ _ _ _ _) in *. set (s' := move_to _ _) in *.
    assert (HL : all_loads st' = all_loads st) by (unfold all_loads at 1; simpl; by rewrite Hcl, app_nil_r).
    split; [done|..].
    + done.
    + destruct Ifirst as [(E1 & _)|E].
      * subst pre'. destruct pre; [|done]. rewrite Hhead in Ha by done. done.
      * right. rewrite HL. done.
    + intros s0 [Hin|Hin]%elem_of_app Ha0.
      * rewrite HL. by apply Iin.
      * apply elem_of_list_singleton in Hin as ->. rewrite HOa, Ha in Ha0. done.
    + intros ph0 Hin. rewrite HL in Hin.
      destruct (Iph ph0 Hin) as (? & ? & ? & ? & ? & ? & ? & ? & s1 & ? & ?). split_and!; try done.
      { unfold st'; simpl. lia. }
      exists s1. split; [set_solver|done].
    + by rewrite HL.
    + intros s0 ph0 Hin Ha0 Hph0. rewrite HL in Hph0. apply elem_of_app in Hin as [Hin|Hin].
      * by apply Iout.
      * apply elem_of_list_singleton in Hin as ->. right. unfold s', offset; simpl.
        destruct (Iph ph0 Hph0) as (_ & _ & _ & _ & _ & _ & _ & E2 & _). done.
    + intros post0. rewrite <- app_assoc, Icount. rewrite HL. simpl.
      change (sh_flags (sc_sh s)) with (flags s). destruct (N.eqb_spec (flags s) (ly_flags st)); [done|].
      change (flags s) with (sh_flags (sc_sh s)) at 1. rewrite has_alloc, Ha. lia.
  - (* the current segment grows *)
    destruct (Icur ph Hcur) as (C1 & C2 & C3 & C4 & C5 & C6).
    set (ph' := ph <| p_filesz := _ |> <| p_memsz := _ |>). set (st' := mkLayout _ _ _ _ _ _) in *. set (s' := place_at _ _ _) in *.
    assert (HL0 : all_loads st = loads (ly_phs st) ++ [ph]) by (unfold all_loads; by rewrite Hcur).
    assert (HL : all_loads st' = loads (ly_phs st) ++ [ph']) by done.
    assert (Hsa : alloc s = true).
    { unfold alloc. rewrite Hf. apply Iok. by rewrite Hcur. }
    assert (Hpin : ph ∈ all_loads st) by (rewrite HL0; set_solver).
    destruct (Iph ph Hpin) as (P1 & P2 & P3 & P4 & P5 & P6 & P7 & P8 & s1 & P9 & P10 & P11 & P12).
    assert (Hgm : forall s0, mem_inside s0 ph -> mem_inside s0 ph') by (intros s0 [? ?]; split; unfold ph'; simpl; lia).
    assert (Hgf : forall s0, file_inside s0 ph -> file_inside s0 ph') by (intros s0 [? ?]; split; unfold ph'; simpl; lia).
    split; [done|..].
    + intros ph0 Hph0. assert (ph0 = ph') as -> by (by injection Hph0 as <-). clear Hph0.
      split; [done|]. split; [unfold ph', st'; simpl; lia|]. split; [unfold ph', st'; simpl; lia|].
      split; [done|]. split; [intros Hnl; unfold ph', st'; simpl; destruct (C5 Hnl) as [E|(s0 & Hs0 & E0)]|].
      * destruct (is_nobits s) eqn:En.
        { destruct (decide (memsz s = 0)) as [E0|E0]; [left; unfold filesz; rewrite En; lia|].
          right. exists s. split; [set_solver|]. done. }
        left. unfold filesz. rewrite En. lia.
      * right. exists s0. split; [set_solver|done].
      * intros s0 [Hin|Hin]%elem_of_app Ha0; [by apply C6|].
        apply elem_of_list_singleton in Hin as ->. congruence.
    + destruct Ifirst as [(E1 & _ & _ & _ & E2)|(E1 & ph1 & rest & E2 & E3 & E4 & E5)].
      * rewrite E2 in HL0. by destruct (loads (ly_phs st)).
      * right. split; [done|]. rewrite HL. rewrite HL0 in E2. destruct (loads (ly_phs st)) as [|q qs].
        { injection E2 as -> <-. exists ph', []. split; [done|]. unfold ph'; simpl. split; [done|]. split; [done|]. lia. }
        injection E2 as -> <-. exists ph1, (qs ++ [ph']). done.
    + intros s0 [Hin|Hin]%elem_of_app Ha0.
      * destruct (Iin s0 Hin Ha0) as (ph0 & Hph0 & H1 & H2 & H3 & H4). rewrite HL0 in Hph0. apply elem_of_app in Hph0 as [Hph0|Hph0].
        { exists ph0. rewrite HL. split; [set_solver|]. done. }
        apply elem_of_list_singleton in Hph0 as ->. exists ph'. rewrite HL. split; [set_solver|]. split; [by apply Hgm|]. split; [by apply Hgf|]. done.
      * apply elem_of_list_singleton in Hin as ->. exists ph'. rewrite HL. split; [set_solver|].
        split; [unfold mem_inside; rewrite HOm; unfold ph', s', addr; simpl; lia|].
        split; [unfold file_inside; rewrite HOf; unfold ph', s', offset; simpl; lia|].
        split; [rewrite HOp; by apply C4|]. intros Hnl Hnb. unfold ph', s', addr, offset; simpl.
        destruct (C5 Hnl) as [E|(s0 & Hs0 & E1 & E2 & E3)]; [lia|]. exfalso.
        apply elem_of_list_lookup in Hs0 as [i Hi]. rewrite HOn in Hnb.
        assert (is_nobits s = true); [|congruence].
        eapply (Hnl i (length pre) s0 s); [by apply lookup_lt_Some in Hi| | |congruence|done|done].
        { rewrite Hl. by apply lookup_app_l_Some. }
        { rewrite Hl. rewrite lookup_app_r by done. by rewrite Nat.sub_diag. }
    + intros ph0 Hph0. rewrite HL in Hph0. apply elem_of_app in Hph0 as [Hin|Hin].
      * destruct (Iph ph0) as (? & ? & ? & ? & ? & ? & ? & ? & s2 & ? & ?); [rewrite HL0; set_solver|]. split_and!; try done.
        { unfold st'; simpl. lia. } { unfold st'; simpl. lia. }
        exists s2. split; [set_solver|done].
      * apply elem_of_list_singleton in Hin as ->. split_and!; try done; try (unfold ph', st'; simpl; lia).
        exists s1. split; [set_solver|]. split; [done|]. split; [done|]. by apply Hgm.
    + rewrite HL. rewrite HL0 in Iord. intros i j a b Hij Ha Hb.
      assert (Hia : (loads (ly_phs st) ++ [ph]) !! i = Some a).
      { assert (Hi : (i < length (loads (ly_phs st)))%nat).
        { apply lookup_lt_Some in Hb. rewrite app_length in Hb. simpl in Hb. lia. }
        rewrite lookup_app_l in Ha by done. by apply lookup_app_l_Some. }
      destruct (decide (j < length (loads (ly_phs st)))%nat) as [Hj|Hj].
      * rewrite lookup_app_l in Hb by done. apply (Iord i j); [done|done|]. by apply lookup_app_l_Some.
      * assert (j = length (loads (ly_phs st))) as ->.
        { apply lookup_lt_Some in Hb. rewrite app_length in Hb. simpl in Hb. lia. }
        rewrite lookup_app_r, Nat.sub_diag in Hb by lia. injection Hb as <-.
        apply (Iord i (length (loads (ly_phs st))) a ph); [done|done|]. by rewrite lookup_app_r, Nat.sub_diag by lia.
    + intros s0 ph0 Hin Ha0 Hph0. rewrite HL in Hph0. apply elem_of_app in Hin as [Hin|Hin].
      * apply elem_of_app in Hph0 as [Hph0|Hph0]; [apply Iout; [done|done|rewrite HL0; set_solver]|].
        apply elem_of_list_singleton in Hph0 as ->.
        left. by apply C6.
      * apply elem_of_list_singleton in Hin as ->. rewrite HOa in Ha0. congruence.
    + intros post0. rewrite <- app_assoc, Icount. rewrite HL0, HL, !blen_snoc. simpl.
      change (sh_flags (sc_sh s)) with (flags s). rewrite Hf, N.eqb_refl. lia.
  - (* more outside segments *)
    set (st' := mkLayout _ _ _ _ _ _) in *. set (s' := move_to _ _) in *.
    assert (HL : all_loads st' = all_loads st) by (unfold all_loads; by rewrite Hcur).
    assert (Hsa : alloc s = false).
    { destruct (alloc s) eqn:E; [|done]. unfold alloc in E. rewrite Hf in E. apply Iok in E. done. }
    split; [done|..].
    + done.
    + destruct Ifirst as [(E1 & _)|E].
      * subst pre'. destruct pre; [|done]. rewrite Hhead in Hsa by done. done.
      * right. rewrite HL. done.
    + intros s0 [Hin|Hin]%elem_of_app Ha0.
      * rewrite HL. by apply Iin.
      * apply elem_of_list_singleton in Hin as ->. rewrite HOa, Hsa in Ha0. done.
    + intros ph0 Hin. rewrite HL in Hin.
      destruct (Iph ph0 Hin) as (? & ? & ? & ? & ? & ? & ? & ? & s1 & ? & ?). split_and!; try done.
      { unfold st'; simpl. lia. }
      exists s1. split; [set_solver|done].
    + by rewrite HL.
    + intros s0 ph0 Hin Ha0 Hph0. rewrite HL in Hph0. apply elem_of_app in Hin as [Hin|Hin].
      * by apply Iout.
      * apply elem_of_list_singleton in Hin as ->. right. unfold s', offset; simpl.
        destruct (Iph ph0 Hph0) as (_ & _ & _ & _ & _ & _ & _ & E2 & _). done.
    + intros post0. rewrite <- app_assoc, Icount. rewrite HL. simpl.
      change (sh_flags (sc_sh s)) with (flags s). rewrite Hf, N.eqb_refl. lia.
Qed.

Lemma p_type_of_spec names s t : p_type_of names (sc_sh s) = Ok t ->
  t = if decide (is_special names s) then Some (special_type s) else None.
Proof.
  unfold p_type_of, special_type. change SHT_DYNAMIC with 6.
  destruct (N.eqb_spec (sh_type (sc_sh s)) 6) as [E|E].
  - intros [= <-]. rewrite decide_True by (by left). done.
  - intros H. apply bind_Ok in H as (n & Hn & [= <-]). apply unwrap_Ok in Hn.
    destruct (bool_decide_reflect (n = ".interp")) as [->|Hne].
    + rewrite decide_True by (by right). done.
    + rewrite decide_False; [done|]. intros [?|Hi]; [done|]. congruence.
Qed.
Lemma special_type_not_load s : special_type s <> 1.
Proof. unfold special_type. by destruct (_ =? _). Qed.

Lemma seg_inv_phs l x0 va0 pre pre' st ph : p_type ph <> 1 ->
  seg_inv l x0 va0 pre pre' st -> seg_inv l x0 va0 pre pre' (st <| ly_phs := ph :: ly_phs st |>).
Proof.
  intros Hne [I1 I2 I3 I4 I5 I6 I7 I8].
  assert (HL : all_loads (st <| ly_phs := ph :: ly_phs st |>) = all_loads st).
  { unfold all_loads, loads. simpl. rewrite filter_cons, decide_False by done. done. }
  split; rewrite ?HL; try done.
Qed.
Lemma range_inv_phs va0 fo0 pre' st ph : range_inv va0 fo0 pre' st -> range_inv va0 fo0 pre' (st <| ly_phs := ph |>).
Proof. intros [I1 I2 I3 I4 I5 I6 I7]. by split. Qed.

Lemma seg_inv_all names l x0 va0 st' l' :
  mapM_st (layout_step names) l (mkLayout 0 va0 (Some x0) 0 None []) = Ok (st', l') ->
  (forall s rest, l = s :: rest -> alloc s = true) -> x0 <> 0 -> seg_inv l x0 va0 l l' st'.
Proof.
  intros H Hh Hx0.
  apply (mapM_st_trace (fun pre pre' st => Forall2 only_placed pre pre' /\ range_inv va0 0 pre' st /\ seg_inv l x0 va0 pre pre' st)) in H.
  - apply H.
  - split; [constructor|]. split.
    + split; simpl; try lia; try set_solver; try apply ordered_nil. done.
    + split; simpl; try done; try set_solver; try apply ordered_nil.
  - intros pre pre' post st s st1 s1 Hl (HF & HR & HI) Hs.
    destruct (step_spec _ _ _ _ _ Hs) as (st2 & Hp & t & Ht & Hst).
    split; [apply Forall2_app; [done|]; constructor; [by eapply placed_only|done]|].
    split; [by eapply range_inv_step|].
    assert (seg_inv l x0 va0 (pre ++ [s]) (pre' ++ [s1]) st2) as HI2.
    { eapply (seg_inv_placed l x0 va0 pre pre' post st s); try done.
      - intros ->. by eapply Hh.
      - by eapply Forall2_length. }
    destruct t as [t|]; [|by subst st1]. destruct Hst as (ph & -> & Hty & _).
    apply seg_inv_phs; [|done]. rewrite Hty. apply p_type_of_spec in Ht.
    destruct (decide _); [|done]. injection Ht as ->. apply special_type_not_load.
Qed.

(** The other headers, with the index of the section they describe. *)
Definition nonloads (phs : list Phdr) : list Phdr := filter (fun ph => ¬ is_load ph) phs.
Definition specials (names : strtab) (l : list section) : list (nat * section) :=
  filter (fun x => is_special names x.2) (imap pair l).
Definition special_ok (pre' : list section) (ph : Phdr) (x : nat * section) : Prop :=
  describes ph x.2 /\
  forall j sp, x.1 = S j -> pre' !! j = Some sp -> flags sp = flags x.2 -> alloc x.2 = true -> p_vaddr ph = addr x.2.

Lemma nonloads_app a b : nonloads (a ++ b) = nonloads a ++ nonloads b.
Proof. apply filter_app. Qed.
Lemma nonloads_closed st : (forall ph, ly_cur st = Some ph -> p_type ph = 1) -> nonloads (closed st) = nonloads (ly_phs st).
Proof.
  intros H. unfold closed. destruct (ly_cur st) as [ph|]; [|done]. rewrite nonloads_app.
  unfold nonloads at 2. rewrite filter_cons, decide_False; [by rewrite app_nil_r|]. intros Hn. apply Hn. by apply H.
Qed.
Lemma specials_snoc names l s : specials names (l ++ [s]) =
  specials names l ++ (if decide (is_special names s) then [(length l, s)] else []).
Proof.
  unfold specials. rewrite imap_app. simpl. rewrite filter_app, filter_cons. simpl. rewrite Nat.add_0_r.
  destruct (decide _); done.
Qed.

Lemma Forall2_weaken {A B} (P Q : A -> B -> Prop) l k :
  Forall2 P l k -> (forall x y, y ∈ k -> P x y -> Q x y) -> Forall2 Q l k.
Proof. induction 1 as [|x y l k Hxy HF IH]; intros HPQ; constructor; [apply HPQ; [set_solver|done]|]. apply IH. set_solver. Qed.

Record spec_inv (names : strtab) (pre pre' : list section) (st : layout) : Prop := {
  si_len : Forall2 only_placed pre pre';
  si_ok : cur_ok st;
  si_cur : forall ph, ly_cur st = Some ph -> p_type ph = 1;
  si_flags : forall s, last pre' = Some s -> ly_flags st = flags s;
  si_names : Forall (fun s => exists t, p_type_of names (sc_sh s) = Ok t) pre';
  si_list : Forall2 (special_ok pre') (nonloads (ly_phs st)) (reverse (specials names pre')) }.

Lemma spec_inv_step names pre pre' st s st' s' : spec_inv names pre pre' st -> layout_step names st s = Ok (st', s') ->
  spec_inv names (pre ++ [s]) (pre' ++ [s']) st'.
Proof.
  intros [I1 I2 I3 I4 I5 I6] Hs. destruct (step_spec _ _ _ _ _ Hs) as (st1 & Hp & t & Ht & Hst).
  pose proof (placed_only _ _ _ _ Hp) as Ho. pose proof (cur_ok_placed _ _ _ _ I2 Hp) as Hok.
  assert (Hn : nonloads (ly_phs st1) = nonloads (ly_phs st)).
  { destruct Hp; simpl; try done; by apply nonloads_closed. }
  assert (Hc1 : forall ph, ly_cur st1 = Some ph -> p_type ph = 1).
  { destruct Hp; simpl; try done.
    - by intros ph [= <-].
    - intros ph0 [= <-]. simpl. by apply I3. }
  assert (Hf1 : ly_flags st1 = flags s') by (rewrite (op_flags _ _ Ho); destruct Hp; simpl; done).
  assert (Hlist : Forall2 (special_ok (pre' ++ [s'])) (nonloads (ly_phs st)) (reverse (specials names pre'))).
  { eapply Forall2_weaken; [exact I6|]. intros ph [i x] Hin [Hd Hv]. rewrite elem_of_reverse in Hin.
    split; [done|]. intros j sp Hj Hsp. apply (Hv j sp Hj). unfold specials in Hin. apply elem_of_list_filter in Hin as [_ Hin].
    apply elem_of_lookup_imap in Hin as (k & y & [= -> ->] & Hk). apply lookup_lt_Some in Hk. simpl in Hj.
    rewrite lookup_app_l in Hsp by lia. done. }
  pose proof (p_type_of_spec _ _ _ Ht) as Hts.
  assert (Hlast : forall s0, last (pre' ++ [s']) = Some s0 -> ly_flags st1 = flags s0).
  { rewrite last_snoc. by intros s0 [= <-]. }
  assert (Hnames : Forall (fun s => exists t, p_type_of names (sc_sh s) = Ok t) (pre' ++ [s'])).
  { apply Forall_app. split; [done|]. constructor; [by eexists|done]. }
  assert (HF : Forall2 only_placed (pre ++ [s]) (pre' ++ [s'])) by (apply Forall2_app; [done|by constructor]).
  destruct (decide (is_special names s')) as [Hsp|Hsp]; subst t.
  - destruct Hst as (ph & -> & T1 & T2 & T3 & T4 & T5 & T6 & T7 & T8).
    split; [done|done|done|done|done|]. rewrite specials_snoc. rewrite decide_True by done.
    rewrite reverse_app. simpl. unfold nonloads. rewrite filter_cons, decide_True.
    2:{ unfold is_load. rewrite T1. apply special_type_not_load. }
    constructor; [|fold (nonloads (ly_phs st1)); by rewrite Hn].
    split; [repeat split; try done; congruence|]. simpl. intros j sp Hj Hl Hfl Hal.
    rewrite T2. rewrite lookup_app_l in Hl by lia.
    assert (last pre' = Some sp) as Hla by (rewrite last_lookup; by rewrite Hj).
    specialize (I4 _ Hla).
    destruct Hp as [x Hf Ha Hx|Hf Ha|ph0 Hf Hcur|Hf Hcur].
    + exfalso. apply Hf. rewrite I4, Hfl. by rewrite (op_flags _ _ Ho).
    + rewrite (op_alloc _ _ Ho) in Hal. congruence.
    + done.
    + exfalso. rewrite (op_alloc _ _ Ho) in Hal. unfold alloc in Hal. rewrite Hf in Hal. apply I2 in Hal. done.
  - subst st'. split; [done|done|done|done|done|]. rewrite specials_snoc. rewrite decide_False by done.
    rewrite app_nil_r. by rewrite Hn.
Qed.
Lemma spec_inv_all names l va0 fo0 first st' l' :
  mapM_st (layout_step names) l (mkLayout fo0 va0 first 0 None []) = Ok (st', l') -> spec_inv names l l' st'.
Proof.
  intros H. apply (mapM_st_trace (fun pre pre' st => spec_inv names pre pre' st)) in H; [done| |].
  - split; simpl; try done; constructor.
  - intros pre pre' post st s st1 s1 _ HI Hs. by eapply spec_inv_step.
Qed.

Lemma loads_nonloads phs : loads phs ++ nonloads phs ≡ₚ phs.
Proof.
  unfold loads, nonloads. induction phs as [|ph phs IH]; [done|]. rewrite !filter_cons.
  destruct (decide (is_load ph)) as [H|H].
  - rewrite (decide_False (P := ¬ is_load ph)) by (by intros H2). simpl. by rewrite IH.
  - rewrite (decide_True (P := ¬ is_load ph)) by done. rewrite <- Permutation_middle. by rewrite IH.
Qed.
