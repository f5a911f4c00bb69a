(** Instructions of the inputs at run time (C71-C74). *)
From Verif Require Import SpecRun ProofExec ProofImage ProofBind ProofEnc PropMerge PropSyms PropFields ProofLoader ProofCall.

(** * Instructions with a 32-bit field at their end *)
Ltac cases H := repeat match type of H with
  | (?x ≫= _) = _ => let E := fresh "E" in destruct x eqn:E; [cbn [mbind option_bind] in H|discriminate H]
  | (if decide ?P then _ else _) = _ => let C := fresh "C" in destruct (decide P) as [C|C]
  end; try discriminate H.
Lemma decode_branch base data k b d : rd 1 data k = Some b -> b = 0xe8 \/ b = 0xe9 -> rd_z 4 data (k + 1) = Some d ->
  SpecReloc.decode_at base data k = Some ((if decide (b = 0xe8) then CallRel else JmpRel) (base + Z.of_N k + 5 + d)%Z, 5).
Proof. intros H [-> | ->] Hd; unfold SpecReloc.decode_at; rewrite H; cbn [mbind option_bind]; repeat (destruct decide; [|congruence] || (destruct decide; [congruence|])); rewrite Hd; reflexivity. Qed.
Lemma decode_call_ind base data off ea n : SpecReloc.decode_at base data off = Some (CallInd ea, n) -> n = 6 /\ exists d, rd_z 4 data (off + 2) = Some d /\ ea = (base + Z.of_N off + 6 + d)%Z.
Proof. intros H. unfold SpecReloc.decode_at in H. cases H. injection H as <- <-. split; [reflexivity|]. by eexists. Qed.
Lemma decode_load base data off r ea n : SpecReloc.decode_at base data off = Some (MovLoad r ea, n) -> n = 7 /\ exists d, rd_z 4 data (off + 3) = Some d /\ ea = (base + Z.of_N off + 7 + d)%Z.
Proof. intros H. unfold SpecReloc.decode_at in H. cases H. injection H as <- <- <-. split; [reflexivity|]. by eexists. Qed.

Section prog.
  Context {wd : world} {lo : lib_oracle} {l : linker} {fuel : nat} {w : writer} {secs : list section} {data : bytes}.
  Context (R : runnable wd lo l fuel w secs data) (LW : low secs).
  Let G := rn_good _ _ _ _ _ _ _ R.

  Lemma field_target s at_ ty S slot entry T : s ∈ secs -> code s -> field_is s at_ ty S (-4) slot entry -> (forall P, psabi ty S (-4) P slot entry = Some (4%nat, (T + -4 - P)%Z)) -> (0 <= T <= 2^31)%Z ->
    rd_z 4 (contents s) at_ = Some (T - 4 - Z.of_N (addr s + at_))%Z.
  Proof using R LW.
    intros Hs (K1 & K2 & _) (n & v & Hp & Hr) HT B. rewrite HT in Hp. injection Hp as <- <-. unfold rd_z. rewrite Hr. cbn [fmap option_fmap option_map]. f_equal. unfold wrap.
    assert (Hl : addr s + at_ + 4 <= 2^31). { apply rd_Some in Hr as [[Hr _]|[? _]]; [|discriminate]. rewrite (sec_length R s Hs K2) in Hr. specialize (LW s Hs K1). lia. }
    change (8 * Z.of_nat 4)%Z with 32%Z. rewrite signed_mod; [lia|lia|]. change (2 ^ (32 - 1))%Z with (2^31)%Z. lia.
  Qed.
  Lemma sec_end s : s ∈ secs -> alloc s = true -> (0 <= Z.of_N (addr s + memsz s) <= 2^31)%Z.
  Proof using LW. intros Hs Ha. specialize (LW s Hs Ha). lia. Qed.

  Lemma go_branch es evs x q off env p c s b T : loading wd lo l fuel es evs -> rel_site es x q off -> opcode es x q b -> alive env w secs p -> proper env (w_program_headers w) -> the_sec w secs (si_name x) s -> code s ->
    rd_z 4 (contents s) (field_off off q) = Some (Z.of_N T - 4 - Z.of_N (addr s + field_off off q))%Z -> T < 2^64 -> ip c = addr s + field_off off q - 1 ->
    forall y, goes env (p, gone b c T (addr s + field_off off q + 4)) y -> goes env (p, c) y.
  Proof using R.
    intros L (_ & Hn & Hd & _ & j & Hj & ->) ((B1 & B2) & Hb & Hu & Hbb) A PE Ts C Hz HT Hip y Hy. destruct (C45_partial _ _ _ _ _ _ _ _ _ j x G L Hn Hj Hd) as (s' & Ts' & H). pose proof (the_one _ _ _ _ _ Ts Ts'). subst s'.
    unfold field_off in *. set (o := ntotal _) in *. set (g := gr_offset (ri_rel q)) in *. specialize (H (g - 1) ltac:(lia) Hu). rewrite Hb in H.
    assert (H1 : rd 1 (contents s) (o + (g - 1)) = Some b). { apply rd_Some. left. pose proof (lookup_lt_Some _ _ _ H). split; [lia|]. erewrite drop_S by exact H. cbn [take firstn le_val]. rewrite N.mul_0_r, N.add_0_r. reflexivity. }
    replace (o + g) with (o + (g - 1) + 1) in Hz at 1 by lia. pose proof (decode_branch (Z.of_N (addr s)) _ _ _ _ H1 Hbb Hz) as D.
    replace (Z.of_N (addr s) + Z.of_N (o + (g - 1)) + 5 + (Z.of_N T - 4 - Z.of_N (addr s + (o + g))))%Z with (Z.of_N T) in D by lia.
    eapply (go_insn R env p c s (o + (g - 1)) _ _ _ _ A PE (proj1 Ts) C D); [lia| |exact Hy]. unfold gone. replace (ip c + 5) with (addr s + (o + g) + 4) by lia. destruct (decide (b = 0xe8)); rewrite addr_of_N by lia; reflexivity.
  Qed.

  (** ** A call of a library's function *)
  Lemma call_library es evs x q off n env p s b c : loading wd lo l fuel es evs -> no_nuls es -> rel_site es x q off -> rel_against es q n -> left_to_libraries es q n -> rel_type (ri_rel q) = 4 -> rel_addend q = (-4)%Z ->
    opcode es x q b -> proper env (w_program_headers w) -> alive env w secs p -> the_sec w secs (si_name x) s -> code s -> ip c = addr s + field_off off q - 1 ->
    exists p' g i, the_sec w secs ".got.plt" g /\ 8 * (i + 3) + 8 <= memsz g /\
      goes env (p, c) (p', gone b c (en_addr env (string_bytes n)) (addr s + field_off off q + 4)) /\ alive env w secs p' /\ word (pr_mem p') (addr g + 8 * (i + 3)) = Some (en_addr env (string_bytes n)) /\
      (forall a, a < addr g + 8 * (i + 3) \/ addr g + 8 * (i + 3) + 8 <= a -> pr_mem p' a = pr_mem p a) /\
      (word (pr_mem p) (addr g + 8 * (i + 3)) = Some (en_addr env (string_bytes n)) -> p' = p).
  Proof using R LW.
    intros L NN RS RA LL Hty Hadd OP PE A Ts C Hip. destruct (C66_plt _ _ _ _ _ _ _ _ _ _ _ _ G L NN RS RA LL Hty) as (s' & pl & g & rp & kk & i & j & d & Ts' & Tpl & Tg & Trp & Hf & ST & Hr & (ds & sd & Tds & Tsd & Y1 & Y2)).
    pose proof (the_one _ _ _ _ _ Ts Ts'). subst s'. rewrite Hadd in Hf.
    assert (PS : plt_slot w secs i kk (string_bytes n)) by (exists pl, g, rp, ds, sd, j, d; split_and!; assumption).
    pose proof (plt_kind R pl Tpl) as (P1 & P2 & _). pose proof (sec_end pl (proj1 Tpl) P1) as Bp.
    assert (He : 16 * (i + 1) <= memsz pl). { destruct ST as (S1 & _). unfold SpecReloc.decode_at in S1. destruct (rd 1 (contents pl) (16 * (i + 1))) eqn:E; [|discriminate S1]. apply rd_Some in E as [[E _]|[? _]]; [|discriminate]. rewrite (sec_length R pl (proj1 Tpl) P2) in E. lia. }
    pose proof (field_target s (field_off off q) 4 0 None _ (Z.of_N (addr pl + 16 * (i + 1))) (proj1 Ts) C Hf (fun P => eq_refl) ltac:(lia)) as Hz.
    destruct (through_plt R env p pl g i kk (string_bytes n) (gone b c (addr pl + 16 * (i + 1)) (addr s + field_off off q + 4)) A PE Tpl Tg PS eq_refl) as (p' & Hg & A' & W' & O' & F').
    exists p', g, i. split; [exact Tg|]. split; [exact (slot_range R _ _ _ _ Tg ST)|]. split; [|split_and!; assumption].
    exact (go_branch es evs x q off env p c s b (addr pl + 16 * (i + 1)) L RS OP A PE Ts C Hz ltac:(lia) Hip _ Hg).
  Qed.

  (** ** A load and a call through the GOT *)
  Lemma got_known es evs x q off n env p s : loading wd lo l fuel es evs -> no_nuls es -> rel_site es x q off -> rel_against es q n -> left_to_libraries es q n -> rel_type (ri_rel q) = 41 \/ rel_type (ri_rel q) = 42 -> rel_addend q = (-4)%Z ->
    alive env w secs p -> the_sec w secs (si_name x) s -> code s ->
    exists a, rd_z 4 (contents s) (field_off off q) = Some (Z.of_N a - 4 - Z.of_N (addr s + field_off off q))%Z /\ a < 2^64 /\ word (pr_mem p) a = Some (en_addr env (string_bytes n)).
  Proof using R LW.
    intros L NN RS RA LL Hty Hadd A Ts C. destruct (C66_got _ _ _ _ _ _ _ _ _ _ _ _ G L NN RS RA LL Hty) as (s' & got & rdy & recs & o & j & d & Ts' & Tgot & Trdy & Hf & Ho & Hrecs & Hfil & (ds & sd & Tds & Tsd & Y1 & Y2)).
    pose proof (the_one _ _ _ _ _ Ts Ts'). subst s'. rewrite Hadd in Hf. destruct (got_kind R _ got Tgot ltac:(member)) as (P1 & P2 & _). pose proof (sec_end got (proj1 Tgot) P1) as Bp. unfold filesz in Ho. rewrite P2 in Ho.
    exists (addr got + o). split; [|split; [lia|]].
    - apply (field_target s (field_off off q) (rel_type (ri_rel q)) 0 (Some (Z.of_N (addr got + o))) None); [exact (proj1 Ts)|exact C|exact Hf| |lia]. intros P. destruct Hty as [->| ->]; reflexivity.
    - assert (Hin : dyn_record (addr got + o) j 6 ∈ recs). { assert (H : dyn_record (addr got + o) j 6 ∈ filter (fun r => reloc_type r = 6 /\ r_offset r = addr got + o) recs) by (rewrite Hfil; by left). apply elem_of_list_filter in H as [_ H]. exact H. }
      apply (al_got _ _ _ _ A). exists rdy, ds, sd, recs, (dyn_record (addr got + o) j 6), d. rewrite record_sym, record_type by reflexivity. split_and!; try assumption; reflexivity.
  Qed.

  (** ** Inside the program *)
  Lemma input_memory es evs x off env p s k : loading wd lo l fuel es evs -> alive env w secs p -> si_name x <> "" -> offset_of es x off -> si_data x <> None -> the_sec w secs (si_name x) s ->
    alloc s = true -> writable s = false -> k < si_size x -> unrelocated es x k -> pr_mem p (addr s + off + k) = si_bytes x !! N.to_nat k.
  Proof using R.
    intros L A Hn (j & Hj & ->) Hd Ts Ha Hw Hk Hu. destruct (C45_partial _ _ _ _ _ _ _ _ _ j x G L Hn Hj Hd) as (s' & Ts' & H). pose proof (the_one _ _ _ _ _ Ts Ts'). subst s'.
    destruct (C40_partial _ _ _ _ _ _ _ _ (si_name x) G L Hn) as (s' & Ts2 & Hsz & _ & _ & HC); [by intros E; rewrite E in Hj|]. pose proof (the_one _ _ _ _ _ Ts Ts2). subst s'.
    assert (Kn : is_nobits s = false). { destruct (is_nobits s); [|reflexivity]. destruct HC as [_ HC]. destruct Hd. apply HC. by eapply elem_of_list_lookup_2. }
    destruct (al_fixed _ _ _ _ A s (proj1 Ts) Ha Hw) as [M _]. rewrite Kn in M. rewrite <- N.add_assoc, M; [exact (H k Hk Hu)|].
    rewrite Hsz. clear -Hj Hk. pose proof (take_drop_middle _ _ _ Hj) as E. rewrite <- E at 2. rewrite fmap_app, ntotal_app, fmap_cons, ntotal_cons. lia.
  Qed.
  Lemma home_end es evs n x off y : loading wd lo l fuel es evs -> defined_in es n x off y -> few_sections secs -> exists s sym, the_sec w secs (si_name x) s /\ symtab_entry w secs n sym /\ st_value sym = addr s + (off + st_value (yi_sym y)) /\
    off + st_value (yi_sym y) <= memsz s /\ is_nobits s = false.
  Proof using R.
    intros L (H1 & H2 & H3 & H4 & H5 & H6 & H7) FS. destruct (C16_partial _ _ _ _ _ _ _ _ n x y off G L H1 H2 FS H3 H4 H5) as (s & sym & Ts & Hs & _ & _ & _ & Hv); [intros E; contradiction|].
    exists s, sym. split; [exact Ts|]. split; [exact Hs|]. split; [lia|]. destruct H5 as (j & Hj & ->).
    destruct (C40_partial _ _ _ _ _ _ _ _ (si_name x) G L (proj1 (proj2 H2))) as (s' & Ts2 & Hsz & _ & _ & HC); [by intros E; rewrite E in Hj|]. pose proof (the_one _ _ _ _ _ Ts Ts2). subst s'. split.
    - rewrite Hsz. clear -Hj H7. pose proof (take_drop_middle _ _ _ Hj) as E. rewrite <- E at 2. rewrite fmap_app, ntotal_app, fmap_cons, ntotal_cons. lia.
    - destruct (is_nobits s); [|reflexivity]. destruct HC as [_ HC]. destruct H6. apply HC. by eapply elem_of_list_lookup_2.
  Qed.
  Lemma entry_one n sym sym' : symtab_entry w secs n sym -> symtab_entry w secs n sym' -> sym' = sym.
  Proof using.
    intros (t & s & i & T1 & T2 & H1 & H2 & H3) (t' & s' & i' & T1' & T2' & H1' & H2' & H3'). pose proof (the_one _ _ _ _ _ T1 T1'). pose proof (the_one _ _ _ _ _ T2 T2'). subst t' s'.
    pose proof (H3 _ _ H1' H2'). subst i'. congruence.
  Qed.
  Lemma call_near es evs x q off n x' off' y env p s b c : loading wd lo l fuel es evs -> few_sections secs -> rel_site es x q off -> rel_against es q n -> stays_in wd lo l n ->
    rel_type (ri_rel q) = 4 \/ rel_type (ri_rel q) = 2 -> rel_addend q = (-4)%Z -> opcode es x q b -> defined_in es n x' off' y -> proper env (w_program_headers w) -> alive env w secs p -> the_sec w secs (si_name x) s -> code s ->
    ip c = addr s + field_off off q - 1 ->
    exists s', the_sec w secs (si_name x') s' /\ (alloc s' = true -> goes env (p, c) (p, gone b c (addr s' + off' + st_value (yi_sym y)) (addr s + field_off off q + 4))).
  Proof using R LW.
    intros L FS RS RA NL Hty Hadd OP HD PE A Ts C Hip. assert (NN : no_nuls es) by exact (proj2 (proj2 (proj2 (proj1 HD)))). destruct (home_end es evs n x' off' y L HD FS) as (s' & sym & Ts' & Hs & Hv & Hb & Kn).
    destruct (C66_near _ _ _ _ _ _ _ _ x q off n G L NN RS RA NL) as (s2 & sym2 & Ts2 & Hs2 & Hf). { destruct Hty as [->| ->]; [by left|right]. apply (bool_decide_unpack _). vm_compute. exact I. }
    pose proof (the_one _ _ _ _ _ Ts Ts2). subst s2. pose proof (entry_one _ _ _ Hs Hs2). subst sym2. exists s'. split; [exact Ts'|]. intros Ha. rewrite Hadd, Hv in Hf. pose proof (sec_end s' (proj1 Ts') Ha) as B.
    assert (En : near_type (rel_type (ri_rel q)) = 2) by (destruct Hty as [->| ->]; reflexivity). rewrite En, N.add_assoc in Hf.
    pose proof (field_target s (field_off off q) 2 _ None None (Z.of_N (addr s' + off' + st_value (yi_sym y))) (proj1 Ts) C Hf (fun P => eq_refl) ltac:(lia)) as Hz.
    exact (go_branch es evs x q off env p c s b _ L RS OP A PE Ts C Hz ltac:(lia) Hip _ (go_done _ _)).
  Qed.
  Lemma lea_near es evs x q off n x' off' y env p s k c : loading wd lo l fuel es evs -> few_sections secs -> rel_site es x q off -> rel_against es q n -> stays_in wd lo l n ->
    rel_type (ri_rel q) = 42 -> rel_addend q = (-4)%Z -> defined_in es n x' off' y -> proper env (w_program_headers w) -> alive env w secs p -> the_sec w secs (si_name x) s -> code s ->
    gr_offset (ri_rel q) = k + 3 -> ip c = addr s + off + k ->
    exists s' reg ea, the_sec w secs (si_name x') s' /\ SpecReloc.decode_at (Z.of_N (addr s + off)) (si_bytes x) k = Some (MovLoad reg ea, 7) /\
      (alloc s' = true -> goes env (p, c) (p, mkCpu (addr s + off + k + 7) (pushed c) (set_reg (registers c) reg (addr s' + off' + st_value (yi_sym y))))).
  Proof using R LW.
    intros L FS RS RA NL Hty Hadd HD PE A Ts C Hk Hip. assert (NN : no_nuls es) by exact (proj2 (proj2 (proj2 (proj1 HD)))). destruct (home_end es evs n x' off' y L HD FS) as (s' & sym & Ts' & Hs & Hv & Hb & Kn).
    destruct (C66_lea _ _ _ _ _ _ _ _ x q off n G L NN RS RA NL Hty) as (s2 & sym2 & reg & ea & Ts2 & Hs2 & D1 & D2).
    pose proof (the_one _ _ _ _ _ Ts Ts2). subst s2. pose proof (entry_one _ _ _ Hs Hs2). subst sym2. rewrite Hk in D1, D2. replace (k + 3 - 3) with k in D1, D2 by lia. exists s', reg, ea. split; [exact Ts'|]. split; [exact D1|]. intros Ha.
    pose proof (sec_end s' (proj1 Ts') Ha) as B. rewrite Hadd, Hv in D2. replace (Z.of_N (addr s' + (off' + st_value (yi_sym y))) + -4 + 4)%Z with (Z.of_N (addr s' + off' + st_value (yi_sym y))) in D2 by lia.
    eapply (go_insn R env p c s (off + k) _ _ _ _ A PE (proj1 Ts) C D2); [lia|reflexivity|]. rewrite addr_of_N by lia. rewrite Hip. apply go_done.
  Qed.

  (** ** Words of data *)
  Lemma pointer es evs x q off n x' off' y p s : loading wd lo l fuel es evs -> few_sections secs -> rel_site es x q off -> rel_against es q n -> stays_in wd lo l n ->
    rel_type (ri_rel q) = 1 -> defined_in es n x' off' y -> the_sec w secs (si_name x) s -> in_memory p s ->
    exists s', the_sec w secs (si_name x') s' /\ word (pr_mem p) (addr s + field_off off q) = Some (addr_of (Z.of_N (addr s' + off' + st_value (yi_sym y)) + rel_addend q)).
  Proof using R.
    intros L FS RS RA NL Hty HD Ts M. assert (NN : no_nuls es) by exact (proj2 (proj2 (proj2 (proj1 HD)))). destruct (home_end es evs n x' off' y L HD FS) as (s' & sym & Ts' & Hs & Hv & Hb & Kn').
    destruct (C66_near _ _ _ _ _ _ _ _ x q off n G L NN RS RA NL) as (s2 & sym2 & Ts2 & Hs2 & Hf). { rewrite Hty. right. apply (bool_decide_unpack _). vm_compute. exact I. }
    pose proof (the_one _ _ _ _ _ Ts Ts2). subst s2. pose proof (entry_one _ _ _ Hs Hs2). subst sym2. exists s'. split; [exact Ts'|]. rewrite Hty, Hv, N.add_assoc in Hf.
    assert (Kn : is_nobits s = false). { destruct RS as (_ & Hn & Hd & _ & j & Hj & _). destruct (C40_partial _ _ _ _ _ _ _ _ (si_name x) G L Hn) as (s2 & Ts3 & _ & _ & _ & HC); [by intros E; rewrite E in Hj|].
      pose proof (the_one _ _ _ _ _ Ts Ts3). subst s2. destruct (is_nobits s); [|reflexivity]. destruct HC as [_ HC]. destruct Hd. apply HC. by eapply elem_of_list_lookup_2. }
    destruct Hf as (m & v & Hp & Hr). injection Hp as <- <-. eapply holds_word; [exact (memory_intact R p s (proj1 Ts) Kn M)|exact Hr].
  Qed.

  (** ** Where execution starts *)
  Lemma entry es evs x off y : loading wd lo l fuel es evs -> few_sections secs -> defined_in es "_start" x off y ->
    exists eh s, rd_ehdr data 0 = Some eh /\ the_sec w secs (si_name x) s /\ e_entry eh = addr s + off + st_value (yi_sym y).
  Proof using R.
    intros L FS (H1 & H2 & H3 & H4 & H5 & H6 & H7). destruct (C44_start _ _ _ _ _ _ _ _ x y off G L H1 H2 FS H3 H4 H5) as (s & Ts & He); [intros E; contradiction|].
    exists (w_eh w), s. split; [exact (proj1 (run_reads R))|]. split; [exact Ts|exact He].
  Qed.
  Lemma load_got es evs x q off n env p s k ins c : loading wd lo l fuel es evs -> no_nuls es -> rel_site es x q off -> rel_against es q n -> left_to_libraries es q n -> rel_type (ri_rel q) = 41 \/ rel_type (ri_rel q) = 42 -> rel_addend q = (-4)%Z ->
    proper env (w_program_headers w) -> alive env w secs p -> the_sec w secs (si_name x) s -> code s ->
    SpecReloc.decode_at (Z.of_N (addr s)) (contents s) k = Some ins -> ip c = addr s + k ->
    (forall r ea, ins = (MovLoad r ea, 7) -> field_off off q = k + 3 -> goes env (p, c) (p, mkCpu (ip c + 7) (pushed c) (set_reg (registers c) r (en_addr env (string_bytes n))))) /\
    (forall ea, ins = (CallInd ea, 6) -> field_off off q = k + 2 -> goes env (p, c) (p, mkCpu (en_addr env (string_bytes n)) (ip c + 6 :: pushed c) (registers c))).
  Proof using R LW.
    intros L NN RS RA LL Hty Hadd PE A Ts C D Hip. destruct (got_known es evs x q off n env p s L NN RS RA LL Hty Hadd A Ts C) as (a & Hz & Ba & Hw). split; intros.
    - subst ins. rewrite H0 in Hz. destruct (decode_load _ _ _ _ _ _ D) as (_ & d & Hd & ->). rewrite Hz in Hd. injection Hd as <-.
      replace (Z.of_N (addr s) + Z.of_N k + 7 + (Z.of_N a - 4 - Z.of_N (addr s + (k + 3))))%Z with (Z.of_N a) in D by lia.
      eapply (go_insn R env p c s k _ _ _ _ A PE (proj1 Ts) C D Hip); [|apply go_done]. cbv beta iota. rewrite addr_of_N by exact Ba. rewrite Hw. reflexivity.
    - subst ins. rewrite H0 in Hz. destruct (decode_call_ind _ _ _ _ _ D) as (_ & d & Hd & ->). rewrite Hz in Hd. injection Hd as <-.
      replace (Z.of_N (addr s) + Z.of_N k + 6 + (Z.of_N a - 4 - Z.of_N (addr s + (k + 2))))%Z with (Z.of_N a) in D by lia.
      eapply (go_insn R env p c s k _ _ _ _ A PE (proj1 Ts) C D Hip); [|apply go_done]. cbv beta iota. rewrite addr_of_N by exact Ba. rewrite Hw. reflexivity.
  Qed.
End prog.
