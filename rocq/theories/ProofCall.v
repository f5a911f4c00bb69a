(** Start-up, calls through the PLT and loads through the GOT (C70-C72). *)
From Verif Require Import SpecRun ProofExec ProofImage ProofBind ProofHashLink PropLayout PropFile ProofLoader.

Ltac member := apply (bool_decide_unpack _); vm_compute; exact I.

Lemma memory_ext p p' s : pr_phs p' = pr_phs p -> (forall a, addr s <= a < addr s + memsz s -> pr_mem p' a = pr_mem p a) -> in_memory p s -> in_memory p' s.
Proof.
  intros Hp Hm [H1 H2]. split; intros k Hk.
  - rewrite Hm by lia. exact (H1 k Hk).
  - rewrite Hm by lia. rewrite Hp. exact (H2 k Hk).
Qed.
Lemma addr_of_N x : x < 2^64 -> addr_of (Z.of_N x) = x.
Proof. intros H. unfold addr_of. rewrite Z.mod_small by lia. apply N2Z.id. Qed.
Lemma rd_table_at {A} (rd1 : bytes -> N -> option A) sz n data off l k : rd_table rd1 sz n data off = Some l -> (k < n)%nat -> l !! k = rd1 data (off + sz * N.of_nat k).
Proof.
  revert off l k. induction n as [|n IH]; intros off l k H Hk; [lia|]. cbn [rd_table] in H.
  destruct (rd1 data off) as [x|] eqn:E; [|discriminate H]. cbn [mbind option_bind] in H. destruct (rd_table rd1 sz n data (off + sz)) as [l'|] eqn:E'; [|discriminate H]. cbn [mbind option_bind] in H. injection H as <-.
  destruct k as [|k].
  - rewrite N.mul_0_r, N.add_0_r. symmetry. exact E.
  - change ((x :: l') !! S k) with (l' !! k). rewrite (IH _ _ k E') by lia. f_equal. lia.
Qed.
Lemma relas_at data recs k r : rd_relas data = Some recs -> rd_rela data (24 * k) = Some r -> recs !! N.to_nat k = Some r.
Proof.
  intros H Hr. unfold rd_relas in H. rewrite (rd_table_at _ _ _ _ _ _ (N.to_nat k) H).
  - rewrite <- Hr. f_equal. lia.
  - unfold rd_rela in Hr. repeat match type of Hr with (?x ≫= _) = _ => let E := fresh "E" in destruct x eqn:E; [cbn [mbind option_bind] in Hr|discriminate Hr] end.
    assert (Hl : (N.to_nat (24 * k) + 24 <= length data)%nat).
    { match goal with E : rd_z 8 data (24 * k + 16) = Some _ |- _ => unfold rd_z in E; destruct (rd 8 data (24 * k + 16)) as [v|] eqn:E'; [|discriminate E]; clear E; apply rd_Some in E' as [[? _]|[? _]]; [lia|discriminate] end. }
    apply (Nat.lt_le_trans _ (N.to_nat k + 1)); [lia|]. apply Nat.div_le_lower_bound; lia.
Qed.

Section run.
  Context {wd : world} {lo : lib_oracle} {l : linker} {fuel : nat} {w : writer} {secs : list section} {data : bytes}.
  Context (R : runnable wd lo l fuel w secs data).
  Let G := rn_good _ _ _ _ _ _ _ R.

  Lemma copyrel_writable s : s ∈ secs -> sec_name w s = Some ".copyrel" -> writable s = true.
  Proof using R.
    intros Hs Hn. destruct (own_kind R ".copyrel" s 13 (8, 3, false, Some KCopyRel, 64) Hs Hn) as (_ & _ & Hf); [member|destruct (opt_hash_style _); reflexivity|lia|reflexivity|]. unfold writable. by rewrite Hf.
  Qed.
  Lemma got_kind n s : the_sec w secs n s -> n ∈ [".got"; ".got.plt"; ".dynamic"] -> kind s true false.
  Proof using R. intros (H & Hn & _) Hin. exact (proj1 (kinds R n s H Hn) Hin). Qed.
  Lemma plt_kind s : the_sec w secs ".plt" s -> kind s false true.
  Proof using R. intros (H & Hn & _). exact (proj1 (proj2 (kinds R ".plt" s H Hn)) eq_refl). Qed.
  Lemma table_kind n s : the_sec w secs n s -> n ∈ [".dynstr"; ".dynsym"; ".rela.dyn"; ".rela.plt"] -> kind s false false.
  Proof using R. intros (H & Hn & _) Hin. exact (proj2 (proj2 (kinds R n s H Hn)) Hin). Qed.
  Lemma other_sec n s n' s' : the_sec w secs n s -> the_sec w secs n' s' -> n <> n' -> kind s true false \/ kind s false false \/ kind s false true -> n <> ".copyrel" ->
    kind s' true false \/ kind s' false false \/ kind s' false true -> n' <> ".copyrel" -> addr s + memsz s <= addr s' \/ addr s' + memsz s' <= addr s.
  Proof using R.
    intros T T' Hne K Hc K' Hc'. apply (apart_secs R).
    - exact (proj1 T).
    - exact (proj1 T').
    - by destruct K as [[? _]|[[? _]|[? _]]].
    - by destruct K' as [[? _]|[[? _]|[? _]]].
    - rewrite (proj1 (proj2 T)). intros [= ->]. contradiction.
    - rewrite (proj1 (proj2 T')). intros [= ->]. contradiction.
    - intros ->. destruct T as (_ & T & _), T' as (_ & T' & _). rewrite T in T'. injection T' as ->. contradiction.
  Qed.
  (** A section that is not writable is apart from .got and .got.plt. *)
  Lemma fixed_apart s n g : s ∈ secs -> alloc s = true -> writable s = false -> the_sec w secs n g -> n ∈ [".got"; ".got.plt"; ".dynamic"] -> addr s + memsz s <= addr g \/ addr g + memsz g <= addr s.
  Proof using R.
    intros Hs Ha Hw T Hin. destruct (got_kind n g T Hin) as (Ka & _ & Kw & _). apply (apart_secs R); try assumption.
    - exact (proj1 T).
    - intros E. rewrite (copyrel_writable s Hs E) in Hw. discriminate Hw.
    - rewrite (proj1 (proj2 T)). intros [= ->]. revert Hin. clear. rewrite !elem_of_cons, elem_of_nil. intros [E|[E|[E|[]]]]; discriminate E.
    - intros ->. congruence.
  Qed.
  Lemma slot_range pl g i k : the_sec w secs ".got.plt" g -> stub_for pl g i k -> 8 * (i + 3) + 8 <= memsz g.
  Proof using R.
    intros T (_ & _ & _ & H). destruct (got_kind _ g T ltac:(member)) as (_ & Kn & _). apply rd_Some in H as [[H _]|[? _]]; [|discriminate]. rewrite (sec_length R g (proj1 T) Kn) in H. lia.
  Qed.
  Lemma got_range a name : got_slot w secs a name -> exists got o, the_sec w secs ".got" got /\ a = addr got + o /\ o mod 8 = 0 /\ o + 8 <= memsz got.
  Proof using R.
    intros (rdy & ds & sd & recs & r & y & T1 & _ & _ & Hr & Hin & Hty & <- & _). destruct (good_glob_dat G) as (got & rdy' & ss & ds' & sd' & recs' & U1 & U2 & _ & _ & _ & Hr' & _ & Hg & Hall).
    rewrite (the_one _ _ _ _ _ T1 U2) in Hr'. assert (recs' = recs) as -> by congruence. destruct (Hall r Hin) as [E5|[_ (n & s & off & Hs & Hd & Ho & Eo)]]; [rewrite Hty in E5; discriminate E5|].
    destruct (Hg n s off Hs Hd Ho) as (Hb & _). exists got, off. split; [exact U1|]. split; [exact Eo|]. split; [exact (got_aligned R n s off Hs Ho)|].
    destruct (got_kind _ got U1 ltac:(member)) as (_ & Kn & _). unfold filesz in Hb. by rewrite Kn in Hb.
  Qed.
  Lemma slot_one i k name k' name' : plt_slot w secs i k name -> plt_slot w secs i k' name' -> k' = k /\ name' = name.
  Proof using R.
    intros (p & g & rp & ds & sd & j & y & T1 & T2 & T3 & T4 & T5 & S & Hr & Hy & Hn) (p' & g' & rp' & ds' & sd' & j' & y' & T1' & T2' & T3' & T4' & T5' & S' & Hr' & Hy' & Hn').
    pose proof (the_one _ _ _ _ _ T1 T1'). pose proof (the_one _ _ _ _ _ T2 T2'). pose proof (the_one _ _ _ _ _ T3 T3'). pose proof (the_one _ _ _ _ _ T4 T4'). pose proof (the_one _ _ _ _ _ T5 T5'). subst p' g' rp' ds' sd'.
    destruct S as (_ & S & _), S' as (_ & S' & _). rewrite S in S'. injection S' as Ek. assert (k' = k) as -> by lia. split; [reflexivity|]. rewrite Hr in Hr'. apply (inj Some) in Hr'. unfold dyn_record in Hr'. injection Hr' as Ej. assert (j' = j) as -> by lia. congruence.
  Qed.

  (** ** Start-up *)
  Lemma started env : no_objects w secs -> proper env (w_program_headers w) -> exists p, start env data = Some p /\ alive env w secs p /\
    (forall s, s ∈ secs -> alloc s = true -> (forall n, sec_name w s = Some n -> n ∉ [".copyrel"; ".got"; ".got.plt"]) -> in_memory p s) /\
    (forall pl g i k name, the_sec w secs ".plt" pl -> the_sec w secs ".got.plt" g -> plt_slot w secs i k name -> word (pr_mem p) (addr g + 8 * (i + 3)) = Some (addr pl + 16 * (i + 1) + 6)).
  Proof using R.
    intros NO PE. destruct (image R) as (p0 & Hm & Hp0 & Him). destruct (tables R) as (es & d & ds & sd & rdy & rp & g & S). destruct (globs R NO) as (got & rdy' & ds' & sd' & recs & Tgot & U1 & U2 & U3 & Hr & Hrec).
    pose proof (the_one _ _ _ _ _ (se_rdy _ _ _ _ _ _ _ _ _ S) U1). pose proof (the_one _ _ _ _ _ (se_ds _ _ _ _ _ _ _ _ _ S) U2). pose proof (the_one _ _ _ _ _ (se_sd _ _ _ _ _ _ _ _ _ S) U3). subst rdy' ds' sd'.
    pose proof (se_g _ _ _ _ _ _ _ _ _ S) as Tg. pose proof (se_d _ _ _ _ _ _ _ _ _ S) as Td.
    destruct (got_kind _ got Tgot ltac:(member)) as (Kga & Kgn & Kgw & _). destruct (got_kind _ g Tg ltac:(member)) as (Kpa & Kpn & Kpw & _). destruct (got_kind _ d Td ltac:(member)) as (Kda & Kdn & _ & _).
    assert (NC : forall n s, the_sec w secs n s -> n <> ".copyrel" -> sec_name w s <> Some ".copyrel") by (intros n s (_ & T & _) Hne E; rewrite T in E; injection E as ->; contradiction).
    pose proof (Him got (proj1 Tgot) Kga (NC _ _ Tgot ltac:(discriminate))) as Mgot. pose proof (Him g (proj1 Tg) Kpa (NC _ _ Tg ltac:(discriminate))) as Mg. pose proof (Him d (proj1 Td) Kda (NC _ _ Td ltac:(discriminate))) as Md.
    assert (Ht : forall n s, the_sec w secs n s -> n ∈ [".dynstr"; ".dynsym"; ".rela.dyn"; ".rela.plt"] -> in_memory p0 s /\ is_nobits s = false).
    { intros n s T Hin. destruct (table_kind n s T Hin) as (K1 & K2 & _). split; [|exact K2]. apply Him; [exact (proj1 T)|exact K1|]. apply (NC n s T). intros ->. revert Hin. clear. rewrite !elem_of_cons, elem_of_nil. intros [E|[E|[E|[E|[]]]]]; discriminate E. }
    assert (It : forall n s, the_sec w secs n s -> n ∈ [".dynstr"; ".dynsym"; ".rela.dyn"; ".rela.plt"] -> intact p0 s).
    { intros n s T Hin. destruct (Ht n s T Hin) as [K1 K2]. apply (memory_intact R); [exact (proj1 T)|exact K2|exact K1]. }
    pose (nm := fun r => match rd_sym (contents ds) (24 * reloc_sym r) with Some y => default [] (cstr_at (contents sd) (st_name y)) | None => [] end).
    pose (ok := fun p => pr_phs p = w_program_headers w /\ intact p ds /\ intact p sd).
    assert (Wgot : forall k, k < memsz got -> can_write (w_program_headers w) (addr got + k) = true). { intros k Hk. destruct Mgot as [_ M]. destruct (M k Hk) as (_ & M1 & _). rewrite Hp0 in M1. by rewrite M1. }
    assert (Wg : forall k, k < memsz g -> can_write (w_program_headers w) (addr g + k) = true). { intros k Hk. destruct Mg as [_ M]. destruct (M k Hk) as (_ & M1 & _). rewrite Hp0 in M1. by rewrite M1. }
    assert (AP : forall n s, the_sec w secs n s -> n ∈ [".dynstr"; ".dynsym"; ".rela.dyn"; ".rela.plt"] -> addr s + memsz s <= addr got \/ addr got + memsz got <= addr s).
    { intros n s T Hin. destruct (table_kind n s T Hin) as (K1 & K2 & K3 & _). exact (fixed_apart s ".got" got (proj1 T) K1 K3 Tgot ltac:(member)). }
    destruct (reloc_run env es ok nm (addr got) (memsz got) recs) with (p := p0) as (p1 & E1 & (O1 & O2 & O3) & F1 & A1 & A2 & A3).
    { intros p a v (K1 & K2 & K3) Ha1 Ha2. split; [apply store_word; intros k Hk; rewrite K1; replace (a + k) with (addr got + (a - addr got + k)) by lia; apply Wgot; lia|].
      split; [exact K1|]. split; cbn [pr_mem]; apply poke_holds_old; try assumption; change (blen (word_bytes v)) with 8; unfold blen.
      - rewrite (sec_length R ds (proj1 (se_ds _ _ _ _ _ _ _ _ _ S)) (proj2 (Ht _ _ (se_ds _ _ _ _ _ _ _ _ _ S) ltac:(member)))). pose proof (AP _ _ (se_ds _ _ _ _ _ _ _ _ _ S) ltac:(member)). lia.
      - rewrite (sec_length R sd (proj1 (se_sd _ _ _ _ _ _ _ _ _ S)) (proj2 (Ht _ _ (se_sd _ _ _ _ _ _ _ _ _ S) ltac:(member)))). pose proof (AP _ _ (se_sd _ _ _ _ _ _ _ _ _ S) ltac:(member)). lia. }
    { intros p r (K1 & K2 & K3) Hin. destruct (Hrec r Hin) as (_ & o & y & name & _ & _ & _ & Y1 & Y2 & _). exists y. unfold nm. rewrite Y1, Y2. exact (symbol_found R _ _ _ _ _ _ _ _ _ _ _ S K2 K3 Y1 Y2). }
    { intros r Hin. destruct (Hrec r Hin) as (Hty & o & y & name & B1 & B2 & B3 & _). split; [exact Hty|]. exists o. split_and!; assumption. }
    { split; [exact Hp0|]. split; [exact (It _ _ (se_ds _ _ _ _ _ _ _ _ _ S) ltac:(member))|exact (It _ _ (se_sd _ _ _ _ _ _ _ _ _ S) ltac:(member))]. }
    destruct (good_plt G) as (pl & g' & c & Tpl & Tg' & _ & Sz & _ & _). pose proof (the_one _ _ _ _ _ Tg Tg'). subst g'. assert (Sg : 24 <= memsz g) by (unfold filesz in Sz; rewrite Kpn in Sz; lia).
    pose (p2 := mkProcess (pr_phs p1) (poke (pr_mem p1) (addr g + 8) (word_bytes (en_map env)))). pose (p3 := mkProcess (pr_phs p2) (poke (pr_mem p2) (addr g + 16) (word_bytes (en_resolver env)))).
    assert (E2 : store p1 (addr g + 8) (word_bytes (en_map env)) = Some p2) by (apply store_word; intros k Hk; rewrite O1, <- N.add_assoc; apply Wg; lia).
    assert (E3 : store p2 (addr g + 16) (word_bytes (en_resolver env)) = Some p3) by (apply store_word; intros k Hk; cbn [p2 pr_phs]; rewrite O1, <- N.add_assoc; apply Wg; lia).
    exists p3. split.
    { unfold start. rewrite Hm. cbn [mbind option_bind]. rewrite (se_table _ _ _ _ _ _ _ _ _ S p0 Hp0 (memory_intact R p0 d (proj1 Td) Kdn Md)). cbn [mbind option_bind].
      rewrite (proj1 (records_found R _ _ _ _ _ _ _ p0 recs S) (It _ _ (se_rdy _ _ _ _ _ _ _ _ _ S) ltac:(member)) Hr). cbn [mbind option_bind]. rewrite E1. cbn [mbind option_bind]. rewrite (se_3 _ _ _ _ _ _ _ _ _ S). cbn [mbind option_bind]. rewrite E2. cbn [mbind option_bind]. exact E3. }
    assert (Hout : forall a, a < addr got \/ addr got + memsz got <= a -> a < addr g + 8 \/ addr g + 24 <= a -> pr_mem p3 a = pr_mem p0 a).
    { intros a H1 H2. cbn [p3 p2 pr_mem]. rewrite !poke_out by (change (blen (word_bytes _)) with 8; lia). exact (A1 a H1). }
    assert (Hph : pr_phs p3 = pr_phs p0) by (cbn [p3 p2 pr_phs]; exact F1).
    assert (GG : addr got + memsz got <= addr g \/ addr g + memsz g <= addr got).
    { apply (apart_secs R); try assumption; [exact (proj1 Tgot)|exact (proj1 Tg)|exact (NC _ _ Tgot ltac:(discriminate))|exact (NC _ _ Tg ltac:(discriminate))|]. intros E. destruct Tgot as (_ & T1 & _), Tg as (_ & T2 & _). rewrite <- E, T1 in T2. discriminate T2. }
    assert (Hrest : forall s, s ∈ secs -> alloc s = true -> (forall n, sec_name w s = Some n -> n ∉ [".copyrel"; ".got"; ".got.plt"]) -> in_memory p3 s).
    { intros s Hs Ha Hn. assert (Hc : sec_name w s <> Some ".copyrel") by (intros E; apply (Hn _ E); member). apply (memory_ext p0); [exact Hph| |exact (Him s Hs Ha Hc)].
      assert (D1 : addr s + memsz s <= addr got \/ addr got + memsz got <= addr s).
      { apply (apart_secs R); try assumption; [exact (proj1 Tgot)|exact (NC _ _ Tgot ltac:(discriminate))|]. intros ->. apply (Hn _ (proj1 (proj2 Tgot))). member. }
      assert (D2 : addr s + memsz s <= addr g \/ addr g + memsz g <= addr s).
      { apply (apart_secs R); try assumption; [exact (proj1 Tg)|exact (NC _ _ Tg ltac:(discriminate))|]. intros ->. apply (Hn _ (proj1 (proj2 Tg))). member. }
      intros a Hin. apply Hout; lia. }
    assert (Hslot : forall pl' g' i k name, the_sec w secs ".plt" pl' -> the_sec w secs ".got.plt" g' -> plt_slot w secs i k name -> word (pr_mem p3) (addr g' + 8 * (i + 3)) = Some (addr pl' + 16 * (i + 1) + 6)).
    { intros pl' g' i k name T1 T2 (p' & g'' & rp' & ds' & sd' & j & y & T1' & T2' & _ & _ & _ & ST & _). rewrite (the_one _ _ _ _ _ T1' T1). rewrite (the_one _ _ _ _ _ Tg T2). pose proof (the_one _ _ _ _ _ Tg T2'). subst g''.
      pose proof (slot_range _ _ _ _ Tg ST) as B. rewrite (word_ext (pr_mem p0)).
      - exact (holds_word _ _ _ _ _ (memory_intact R p0 g (proj1 Tg) Kpn Mg) (proj2 (proj2 (proj2 ST)))).
      - intros x Hx. apply Hout; lia. }
    split; [|split; [exact Hrest|exact Hslot]]. constructor.
    - by rewrite Hph.
    - intros s Hs Ha Hw. apply Hrest; [exact Hs|exact Ha|]. intros n Hn. rewrite !elem_of_cons, elem_of_nil. intros [->|[->|[->|[]]]].
      + rewrite (copyrel_writable s Hs Hn) in Hw. discriminate Hw.
      + rewrite (proj2 (proj2 Tgot) s Hs Hn), Kgw in Hw. discriminate Hw.
      + rewrite (proj2 (proj2 Tg) s Hs Hn), Kpw in Hw. discriminate Hw.
    - intros d' T'. rewrite (the_one _ _ _ _ _ Td T'). apply Hrest; [exact (proj1 Td)|exact Kda|]. rewrite (proj1 (proj2 Td)). intros n [= <-]. apply (bool_decide_unpack _). vm_compute. exact I.
    - intros a name Hgs. destruct Hgs as (rdy' & ds' & sd' & recs' & r & y & T1' & T2' & T3' & Hr' & Hin & Hty & Ea & Y1 & Y2).
      rewrite (the_one _ _ _ _ _ U1 T1') in Hr'. assert (recs' = recs) as -> by congruence. rewrite (the_one _ _ _ _ _ U2 T2') in Y1. rewrite (the_one _ _ _ _ _ U3 T3') in Y2.
      destruct (Hrec r Hin) as (_ & o & y' & name' & B1 & B2 & B3 & _ & _ & Hf). assert (En : nm r = name) by (unfold nm; rewrite Y1, Y2; reflexivity).
      rewrite <- Ea, B1. rewrite <- En. rewrite (word_ext (pr_mem p1)).
      + apply A3; [exact B2|exact Hf|exact (pe_addr _ _ PE _)].
      + intros x Hx. cbn [p3 p2 pr_mem]. rewrite !poke_out by (change (blen (word_bytes _)) with 8; lia). reflexivity.
    - intros g' T'. rewrite (the_one _ _ _ _ _ Tg T'). split.
      + cbn [p3 p2 pr_mem]. rewrite word_other by lia. apply word_new. exact (pe_map _ _ PE).
      + cbn [p3 p2 pr_mem]. apply word_new. exact (pe_resolver _ _ PE).
    - intros pl' g' i k name T1 T2 T3. left. exact (Hslot pl' g' i k name T1 T2 T3).
  Qed.

  (** ** Execution *)
  Lemma fixed_memory env p s : alive env w secs p -> s ∈ secs -> kind s false true \/ kind s false false -> in_memory p s /\ intact p s.
  Proof using R.
    intros A Hs K. assert (H : in_memory p s) by (destruct K as [(K1 & K2 & K3 & _)|(K1 & K2 & K3 & _)]; exact (al_fixed _ _ _ _ A s Hs K1 K3)).
    split; [exact H|]. apply (memory_intact R); [exact Hs| |exact H]. by destruct K as [(_ & ? & _)|(_ & ? & _)].
  Qed.
  Lemma exec env p s off ins n : alive env w secs p -> proper env (w_program_headers w) -> s ∈ secs -> kind s false true -> SpecReloc.decode_at (Z.of_N (addr s)) (contents s) off = Some (ins, n) ->
    SpecReloc.decode_at (Z.of_N (addr s + off)) (fetch p (addr s + off) 7) 0 = Some (ins, n) /\ addr s + off <> en_resolver env /\ addr s + off < 2^64.
  Proof using R.
    intros A PE Hs K Hd. destruct (fixed_memory env p s A Hs (or_introl K)) as [[M1 M2] I1]. destruct K as (K1 & K2 & K3 & K4). pose proof (sec_length R s Hs K2) as Hl.
    assert (HR : forall i, (i < length (contents s))%nat -> can_run (pr_phs p) (addr s + N.of_nat i) = true). { intros i Hi. destruct (M2 (N.of_nat i)) as (_ & _ & H); [lia|]. by rewrite H. }
    split; [exact (fetch_decode p (addr s) (contents s) off (ins, n) I1 HR Hd)|].
    assert (Hb : off < memsz s).
    { unfold SpecReloc.decode_at in Hd. destruct (rd 1 (contents s) off) eqn:E; [|discriminate Hd]. apply rd_Some in E as [[E _]|[? _]]; [|discriminate]. lia. }
    split.
    - intros E. destruct (M2 off Hb) as (_ & _ & H). rewrite K4, E, (al_phs _ _ _ _ A), (pe_outside _ _ PE) in H. discriminate H.
    - pose proof (gl_addr _ _ _ _ _ _ G s Hs). lia.
  Qed.
  Lemma go_insn env p c s off ins n c' x : alive env w secs p -> proper env (w_program_headers w) -> s ∈ secs -> kind s false true -> SpecReloc.decode_at (Z.of_N (addr s)) (contents s) off = Some (ins, n) ->
    ip c = addr s + off ->
    match ins with
    | MovLoad r ea => v ← word (pr_mem p) (addr_of ea); Some (mkCpu (ip c + n) (pushed c) (set_reg (registers c) r v))
    | Lea r ea => Some (mkCpu (ip c + n) (pushed c) (set_reg (registers c) r (addr_of ea)))
    | CallInd ea => v ← word (pr_mem p) (addr_of ea); Some (mkCpu v ((ip c + n) :: pushed c) (registers c))
    | JmpInd ea => v ← word (pr_mem p) (addr_of ea); Some (mkCpu v (pushed c) (registers c))
    | CallRel t => Some (mkCpu (addr_of t) ((ip c + n) :: pushed c) (registers c))
    | JmpRel t => Some (mkCpu (addr_of t) (pushed c) (registers c))
    | PushMem ea => v ← word (pr_mem p) (addr_of ea); Some (mkCpu (ip c + n) (v :: pushed c) (registers c))
    | PushImm v => Some (mkCpu (ip c + n) (addr_of v :: pushed c) (registers c))
    end = Some c' -> goes env (p, c') x -> goes env (p, c) x.
  Proof using R.
    intros A PE Hs K Hd Hip Hc Hg. destruct (exec env p s off ins n A PE Hs K Hd) as (D & N & _). apply (go_step env p c c'); [by rewrite Hip| |exact Hg]. unfold execute. rewrite Hip, D. cbn [mbind option_bind]. rewrite Hip in Hc. exact Hc.
  Qed.

  (** Storing a function's address in its word of .got.plt. *)
  Lemma bound_alive env p g i k name : alive env w secs p -> proper env (w_program_headers w) -> the_sec w secs ".got.plt" g -> plt_slot w secs i k name ->
    let p' := mkProcess (pr_phs p) (poke (pr_mem p) (addr g + 8 * (i + 3)) (word_bytes (en_addr env name))) in
    store p (addr g + 8 * (i + 3)) (word_bytes (en_addr env name)) = Some p' /\ alive env w secs p' /\ word (pr_mem p') (addr g + 8 * (i + 3)) = Some (en_addr env name).
  Proof using R.
    intros A PE Tg PS p'. destruct (got_kind _ g Tg ltac:(member)) as (Kpa & Kpn & Kpw & _).
    assert (B : 8 * (i + 3) + 8 <= memsz g). { destruct PS as (pl & g' & rp & ds & sd & j & y & T1 & T2 & _ & _ & _ & ST & _). pose proof (the_one _ _ _ _ _ Tg T2). subst g'. exact (slot_range _ _ _ _ Tg ST). }
    assert (Hnew : word (pr_mem p') (addr g + 8 * (i + 3)) = Some (en_addr env name)) by (apply word_new; exact (pe_addr _ _ PE _)).
    split.
    { apply store_word. intros q Hq. rewrite (al_phs _ _ _ _ A). destruct (image R) as (p0 & _ & Hp0 & Him). destruct (Him g (proj1 Tg) Kpa) as [_ M]; [rewrite (proj1 (proj2 Tg)); discriminate|].
      destruct (M (8 * (i + 3) + q)) as (_ & H & _); [lia|]. rewrite Hp0, N.add_assoc in H. by rewrite H. }
    split; [|exact Hnew].
    assert (Hk : forall s, addr s + memsz s <= addr g \/ addr g + memsz g <= addr s -> in_memory p s -> in_memory p' s).
    { intros s D M. apply (memory_ext p); [reflexivity| |exact M]. intros a Ha. cbn [p' pr_mem]. apply poke_out. change (blen (word_bytes _)) with 8. lia. }
    assert (Hw : forall a, a + 8 <= addr g + 8 * (i + 3) \/ addr g + 8 * (i + 3) + 8 <= a -> word (pr_mem p') a = word (pr_mem p) a) by (intros a Ha; apply word_other; lia).
    constructor.
    - exact (al_phs _ _ _ _ A).
    - intros s Hs Ha Hwr. apply Hk; [exact (fixed_apart s ".got.plt" g Hs Ha Hwr Tg ltac:(member))|exact (al_fixed _ _ _ _ A s Hs Ha Hwr)].
    - intros d Td. apply Hk; [|exact (al_dyn _ _ _ _ A d Td)]. destruct (got_kind _ d Td ltac:(member)) as (Kda & _). apply (apart_secs R); try assumption; [exact (proj1 Td)|exact (proj1 Tg)|rewrite (proj1 (proj2 Td)); discriminate|rewrite (proj1 (proj2 Tg)); discriminate|].
      intros ->. destruct Td as (_ & T1 & _), Tg as (_ & T2 & _). rewrite T1 in T2. discriminate T2.
    - intros a name' Hgs. rewrite Hw; [exact (al_got _ _ _ _ A a name' Hgs)|]. destruct (got_range a name' Hgs) as (got & o & Tgot & -> & _ & Bo). destruct (got_kind _ got Tgot ltac:(member)) as (Kga & _).
      assert (D : addr got + memsz got <= addr g \/ addr g + memsz g <= addr got); [|lia]. apply (apart_secs R); try assumption; [exact (proj1 Tgot)|exact (proj1 Tg)|rewrite (proj1 (proj2 Tgot)); discriminate|rewrite (proj1 (proj2 Tg)); discriminate|].
      intros ->. destruct Tgot as (_ & T1 & _), Tg as (_ & T2 & _). rewrite T1 in T2. discriminate T2.
    - intros g' T'. rewrite (the_one _ _ _ _ _ Tg T'). destruct (al_head _ _ _ _ A g Tg) as [H1 H2]. rewrite !Hw by lia. split; assumption.
    - intros pl g' i' k' name' T1 T2 PS'. rewrite (the_one _ _ _ _ _ Tg T2). destruct (decide (i' = i)) as [->|Hne].
      + right. destruct (slot_one i k name k' name' PS PS') as [_ ->]. exact Hnew.
      + rewrite Hw by lia. exact (al_slot _ _ _ _ A pl g i' k' name' T1 Tg PS').
  Qed.
  Lemma binds env p g i k name : alive env w secs p -> proper env (w_program_headers w) -> the_sec w secs ".got.plt" g -> plt_slot w secs i k name ->
    bind_slot env p k = Some (mkProcess (pr_phs p) (poke (pr_mem p) (addr g + 8 * (i + 3)) (word_bytes (en_addr env name))), en_addr env name).
  Proof using R.
    intros A PE Tg PS. destruct (bound_alive env p g i k name A PE Tg PS) as (HS & _ & _). destruct (tables R) as (es & d & ds & sd & rdy & rp & g0 & S).
    destruct PS as (pl & g' & rp' & ds' & sd' & j & y & T1 & T2 & T3 & T4 & T5 & ST & Hr & Hy & Hn). pose proof (the_one _ _ _ _ _ Tg T2). subst g'.
    pose proof (the_one _ _ _ _ _ (se_rp _ _ _ _ _ _ _ _ _ S) T3). pose proof (the_one _ _ _ _ _ (se_ds _ _ _ _ _ _ _ _ _ S) T4). pose proof (the_one _ _ _ _ _ (se_sd _ _ _ _ _ _ _ _ _ S) T5). subst rp' ds' sd'.
    destruct (got_kind _ d (se_d _ _ _ _ _ _ _ _ _ S) ltac:(member)) as (_ & Kdn & _).
    assert (It : forall n s, the_sec w secs n s -> n ∈ [".dynstr"; ".dynsym"; ".rela.dyn"; ".rela.plt"] -> intact p s).
    { intros n s T Hin. exact (proj2 (fixed_memory env p s A (proj1 T) (or_intror (table_kind n s T Hin)))). }
    destruct (good_jump_slots G) as (_ & _ & rp2 & _ & _ & _ & recs & _ & _ & U3 & _ & _ & _ & Hrecs & _). rewrite (the_one _ _ _ _ _ T3 U3) in Hrecs.
    unfold bind_slot. rewrite (se_table _ _ _ _ _ _ _ _ _ S p (al_phs _ _ _ _ A) (memory_intact R p d (proj1 (se_d _ _ _ _ _ _ _ _ _ S)) Kdn (al_dyn _ _ _ _ A d (se_d _ _ _ _ _ _ _ _ _ S)))). cbn [mbind option_bind].
    rewrite (proj2 (records_found R _ _ _ _ _ _ _ p recs S) (It _ _ T3 ltac:(member)) Hrecs). cbn [mbind option_bind]. rewrite (relas_at _ _ _ _ Hrecs Hr). cbn [mbind option_bind]. rewrite record_sym by reflexivity.
    rewrite (symbol_found R _ _ _ _ _ _ _ p j y name S (It _ _ T4 ltac:(member)) (It _ _ T5 ltac:(member)) Hy Hn). cbn [mbind option_bind]. rewrite decide_True by (apply record_type; reflexivity). cbn [r_offset dyn_record]. rewrite HS. reflexivity.
  Qed.
  (** Entry [i + 1] of the PLT goes to the function. *)
  Lemma through_plt env p pl g i k name c : alive env w secs p -> proper env (w_program_headers w) -> the_sec w secs ".plt" pl -> the_sec w secs ".got.plt" g -> plt_slot w secs i k name -> ip c = addr pl + 16 * (i + 1) ->
    exists p', goes env (p, c) (p', mkCpu (en_addr env name) (pushed c) (registers c)) /\ alive env w secs p' /\ word (pr_mem p') (addr g + 8 * (i + 3)) = Some (en_addr env name) /\
      (forall a, a < addr g + 8 * (i + 3) \/ addr g + 8 * (i + 3) + 8 <= a -> pr_mem p' a = pr_mem p a) /\ (word (pr_mem p) (addr g + 8 * (i + 3)) = Some (en_addr env name) -> p' = p).
  Proof using R.
    intros A PE Tpl Tg PS Hip. pose proof (plt_kind pl Tpl) as Kpl. destruct (good_plt G) as (pl' & g' & c0 & Tpl' & Tg' & _ & _ & Hh & _). pose proof (the_one _ _ _ _ _ Tpl Tpl'). pose proof (the_one _ _ _ _ _ Tg Tg'). subst pl' g'.
    assert (ST : stub_for pl g i k /\ exists rp j, the_sec w secs ".rela.plt" rp /\ rd_rela (contents rp) (24 * k) = Some (dyn_record (addr g + 8 * (i + 3)) j 7)).
    { destruct PS as (pl' & g' & rp & ds & sd & j & y & T1 & T2 & T3 & _ & _ & ST & Hr & _). pose proof (the_one _ _ _ _ _ Tpl T1). pose proof (the_one _ _ _ _ _ Tg T2). subst pl' g'. split; [exact ST|]. exists rp, j. split; assumption. }
    destruct ST as [(S1 & S2 & S3 & S4) (rp & j & Trp & Hrr)]. pose proof (slot_range pl g i k Tg (conj S1 (conj S2 (conj S3 S4)))) as B. pose proof (gl_addr _ _ _ _ _ _ G g (proj1 Tg)) as Bg.
    destruct (decide (word (pr_mem p) (addr g + 8 * (i + 3)) = Some (en_addr env name))) as [Hw|Hnw]; [|destruct (al_slot _ _ _ _ A pl g i k name Tpl Tg PS) as [Hw|Hw]; [|contradiction]].
    2: {
      destruct (bound_alive env p g i k name A PE Tg PS) as (_ & A' & W'). set (p' := mkProcess (pr_phs p) (poke (pr_mem p) (addr g + 8 * (i + 3)) (word_bytes (en_addr env name)))) in *.
      exists p'. split; [|split; [exact A'|split; [exact W'|split; [intros a Ha; apply poke_out; change (blen (word_bytes _)) with 8; lia|intros E; contradiction]]]].
      destruct (al_head _ _ _ _ A g Tg) as [H1 H2]. destruct Hh as [D1 D2].
      assert (Bk : k < 2^64).
      { pose proof (table_kind _ rp Trp ltac:(member)) as (_ & Kn & _). pose proof (sec_length R rp (proj1 Trp) Kn) as Hl. pose proof (gl_addr _ _ _ _ _ _ G rp (proj1 Trp)).
        unfold rd_rela in Hrr. destruct (rd 8 (contents rp) (24 * k)) eqn:E; [|discriminate Hrr]. apply rd_Some in E as [[E _]|[? _]]; [lia|discriminate]. }
      eapply (go_insn env p c pl _ _ _ _ _ A PE (proj1 Tpl) Kpl S1 Hip); [rewrite ?addr_of_N by lia; rewrite Hw; reflexivity|].
      eapply (go_insn env p _ pl _ _ _ _ _ A PE (proj1 Tpl) Kpl S2); [cbn [ip]; lia|reflexivity|]. cbn [ip pushed registers].
      eapply (go_insn env p _ pl _ _ _ _ _ A PE (proj1 Tpl) Kpl S3); [cbn [ip]; lia|reflexivity|]. cbn [ip pushed registers].
      destruct (exec env p pl 0 _ _ A PE (proj1 Tpl) Kpl D1) as (_ & _ & Bp).
      eapply (go_insn env p _ pl _ _ _ _ _ A PE (proj1 Tpl) Kpl D1); [cbn [ip]; rewrite ?addr_of_N by lia; lia|rewrite ?addr_of_N by lia; rewrite H1; reflexivity|]. cbn [ip pushed registers].
      eapply (go_insn env p _ pl _ _ _ _ _ A PE (proj1 Tpl) Kpl D2); [cbn [ip]; rewrite ?addr_of_N by lia; lia|rewrite ?addr_of_N by lia; rewrite H2; reflexivity|]. cbn [ip pushed registers].
      eapply (go_bind env p _ k (pushed c)); [reflexivity|cbn [pushed]; rewrite ?addr_of_N by lia; reflexivity|exact (binds env p g i k name A PE Tg PS)|]. cbn [registers]. apply go_done. }
    exists p. split; [|split; [exact A|split; [exact Hw|split; [reflexivity|intros _; reflexivity]]]].
      eapply (go_insn env p c pl _ _ _ _ _ A PE (proj1 Tpl) Kpl S1 Hip); [rewrite ?addr_of_N by lia; rewrite Hw; reflexivity|]. apply go_done.
  Qed.
End run.
