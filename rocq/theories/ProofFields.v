(** Relocated fields of the output in terms of the relocations of the input. *)
From Verif Require Export ProofOwn SpecFields ProofLinks ProofArrays.
From Verif Require Import ProofBase.

Lemma rd_window w a (d b : bytes) off k v : blen a = off -> rd w d k = Some v -> rd w (a ++ d ++ b) (off + k) = Some v.
Proof.
  intros <- H. rewrite rd_skip. unfold rd in *. cbv zeta in *. case_decide as Hl; [|discriminate H]. rewrite take_length, drop_length in Hl.
  destruct (decide (w = 0%nat)) as [->|Hw]; [rewrite !take_0; exact H|].
  assert (Hk : (N.to_nat k + w <= length d)%nat) by lia.
  rewrite (drop_app_le d b) by lia. rewrite take_app_le by (rewrite drop_length; lia). rewrite decide_True; [exact H|]. rewrite take_length, drop_length. lia.
Qed.
Lemma decode_window base a (d b : bytes) off k v : blen a = off -> SpecReloc.decode_at (base + Z.of_N off) d k = Some v -> SpecReloc.decode_at base (a ++ d ++ b) (off + k) = Some v.
Proof.
  intros Ha. unfold SpecReloc.decode_at, rd_z.
  assert (W : forall w j x, rd w d j = Some x -> rd w (a ++ d ++ b) (off + j) = Some x) by (intros w j x; by apply rd_window).
  destruct (rd 1 d k) as [b0|] eqn:E0; [|discriminate]. rewrite (W _ _ _ E0). cbn [mbind option_bind].
  rewrite <- !N.add_assoc. replace (Z.of_N (off + k)) with (Z.of_N off + Z.of_N k)%Z by lia. rewrite !Z.add_assoc.
  repeat case_decide; try (intros H; exact H);
  repeat match goal with |- context [rd ?w d ?j] => let E := fresh "E" in destruct (rd w d j) eqn:E; [rewrite (W _ _ _ E)|intros K; discriminate K]; cbn [mbind option_bind fmap option_fmap option_map] end; try (intros K; exact K).
Qed.
Lemma omap_split {A B} (f : A -> option B) (l : list A) pre b post : omap f l = pre ++ b :: post ->
  exists l1 a l2, l = l1 ++ a :: l2 /\ f a = Some b /\ omap f l1 = pre /\ omap f l2 = post.
Proof.
  revert pre. induction l as [|x l IH]; intros pre H; [destruct pre; discriminate H|]. simpl in H. destruct (f x) as [y|] eqn:E.
  - destruct pre as [|z pre]; injection H as -> H.
    + exists [], x, l. done.
    + apply IH in H as (l1 & a & l2 & -> & Ha & <- & <-). exists (x :: l1), a, l2. simpl. by rewrite E.
  - apply IH in H as (l1 & a & l2 & -> & Ha & <- & <-). exists (x :: l1), a, l2. simpl. by rewrite E.
Qed.
Lemma bind_window {A} (f : A -> bytes) (l : list A) j a : l !! j = Some a -> exists p s, l ≫= f = p ++ f a ++ s /\ blen p = ntotal (blen <$> take j (f <$> l)).
Proof.
  revert j. induction l as [|x l IH]; intros j H; [discriminate H|]. rewrite bind_cons. destruct j as [|j].
  - injection H as ->. exists [], (l ≫= f). done.
  - destruct (IH j H) as (p & s & -> & Hp). exists (f x ++ p), s. rewrite fmap_cons, firstn_cons, fmap_cons, ntotal_cons, <- Hp. split; [by rewrite <- !app_assoc|]. unfold blen. rewrite app_length. lia.
Qed.

Section field.
  Context {wd : world} {lo : lib_oracle} {l : linker} {fuel : nat} {w : writer} {secs : list section}
    {w0 wr ws w1 : writer} {extra : N} {null : section} {rest rest' : list section} {st : layout} {w3 w4 w5 w6 w7 : writer}
    {null' : section} {out : list section}.
  Context (O : outcome wd lo l fuel w secs w0 wr ws w1 extra null rest rest' st w3 w4 w5 w6 w7 null' out).
  Context (Fin : mapM_res (sec_finalize (lo_writer lo) w) (w_sections w) = Ok secs).
  Context (V : valid_oracle (lo_writer lo)) (P : plain_inputs wd l) (NF : names_fit w).
  Context {es : list (string * elf_obj)} {evs : list event} (R : reads wd l es evs wr).
  Let sn := w_strtab wr.

  (** The chunk a relocation is applied in, and where that chunk is. *)
  Record rel_chunk (x : sec_in) (q : rel_in) (off : N) (b : section) (r : symref) (rel : Rela) (c6 c7 : chunk) (i : nat) : Prop := {
    rc_the : the_sec w secs (si_name x) b;
    rc_event : exists pre post sr, evs = pre ++ EvRel q r sr :: post;
    rc_at : c_relocations c6 !! i = Some (rel, r);
    rc_scan : scanned (w_symtab wr) (rela_of (ri_rel q), r) (rel, r);
    rc_addr : c_address c6 = if alloc b then Some (addr b + off) else None;
    rc_data : c_data c6 = si_bytes x;
    rc_apply : chunk_apply_relocations (sh_addr (hdr_of id_got (w_sections w6))) (sh_addr (hdr_of id_plt (w_sections w6))) (w_symtab w7) (w_dynsym w6) c6 = Ok c7;
    rc_alone : forall j rel' r' sym' sym, j <> i -> c_relocations c6 !! j = Some (rel', r') -> SpecReloc.apart (span rel' sym') (span rel sym);
    rc_where : exists p s, contents b = p ++ c_data c7 ++ s /\ blen p = off }.
  Lemma find_chunk x q off : x ∈ all_secs es -> si_name x <> "" -> si_data x <> None -> lone_rel es x q -> offset_of es x off ->
    exists b r rel c6 c7 i, rel_chunk x q off b r rel c6 c7 i.
  Proof using O Fin V P NF R.
    intros Hx Hxn Hxd (Hab & pre & post & Hsp & Hal) Hoff.
    rewrite <- (ld_rels _ _ _ _ _ R) in Hsp. apply omap_split in Hsp as (pre' & v & post' & Hev & Hv & <- & <-).
    destruct v as [?|?|q' r sr|?]; try discriminate Hv. injection Hv as ->.
    destruct (ld_ok _ _ _ _ _ R _ _ _ Hev) as [(x' & Hx' & Ho & Hi) _].
    assert (Hx2 : EvSec x' sr ∈ evs) by (rewrite Hev; apply elem_of_app; by left).
    assert (x' = x) as ->. { eapply all_secs_same; [by eapply (sec_from R)|exact Hx| |]; destruct Hab; congruence. }
    destruct (chunk_at O Fin V P NF R x sr Hx Hxn Hx2) as (k & ofs & pd & gd & a0 & a1 & a3 & a6 & a7 & b & c0 & U & Esr & Hc0 & Hof). specialize (Hof _ Hoff).
    pose proof (user_datas O P R _ _ _ _ _ _ _ _ _ _ _ U) as D. assert (Hin : x ∈ contribs (si_name x) (all_secs es)) by (by apply elem_contribs).
    destruct (is_nobits b) eqn:En; [exfalso; exact (Hxd (proj1 D x Hin))|]. destruct D as [D1 D2].
    destruct (nth_contrib O P R _ _ _ _ _ _ _ _ _ _ _ _ _ U Hx2 eq_refl) as [Hid Hj]. destruct (si_data x) as [dx|] eqn:Edx; [|done]. clear Hxd.
    destruct (user_chunk O Fin V P NF R _ _ _ _ _ _ _ _ _ _ _ _ _ U Hc0) as (c6 & c7 & Hc6 & Hc7 & F).
    pose proof (wr_sinv O R) as SI. pose proof (h_wr (us_hist _ _ _ _ _ _ _ _ _ _ _ U)) as Ha.
    destruct (sv_chunk _ _ _ _ SI _ _ _ _ Ha Hc0) as (Hrel & _). rewrite <- Esr, Hev, omap_app in Hrel.
    change (omap (rel_at sr) (EvRel q r sr :: post')) with (match rel_at sr (EvRel q r sr) with Some y => y :: omap (rel_at sr) post' | None => omap (rel_at sr) post' end) in Hrel.
    cbn [rel_at] in Hrel. rewrite decide_True in Hrel by done.
    pose proof (cf_rel _ _ _ _ _ F) as FR. rewrite Hrel in FR.
    assert (H0 : c_relocations c0 !! length (omap (rel_at sr) pre') = Some (rela_of (ri_rel q), r)) by (rewrite Hrel; by apply list_lookup_middle).
    destruct (Forall2_lookup_l _ _ _ _ _ (cf_rel _ _ _ _ _ F) H0) as ([rel r'] & Hr6 & Hsc). pose proof Hsc as (Er & _). cbn in Er. subst r'.
    exists b, r, rel, c6, c7, (length (omap (rel_at sr) pre')). split.
    - exact (us_the _ _ _ _ _ _ _ _ _ _ _ U).
    - by exists pre', post', sr.
    - exact Hr6.
    - exact Hsc.
    - rewrite (cf_addr _ _ _ _ _ F), Hof. reflexivity.
    - rewrite (cf_data _ _ _ _ _ F). assert (H : (c_data <$> sc_chunks a0) !! sr_chunk sr = Some (c_data c0)) by (rewrite list_lookup_fmap, Hc0; done). rewrite D2, list_lookup_fmap, Hj in H. by injection H.
    - exact (cf_apply _ _ _ _ _ F).
    - intros j rel' r' sym' sym Hne Hj6. destruct (Forall2_lookup_r _ _ _ _ _ (cf_rel _ _ _ _ _ F) Hj6) as ([rel0 r0] & Hj0 & Hsc').
      assert (Hq : exists v, v ∈ pre' ++ post' /\ rel_at sr v = Some (rel0, r0)).
      { rewrite Hrel in Hj0. apply lookup_app_Some in Hj0 as [Hj0|[Hge Hj0]].
        - apply elem_of_list_lookup_2, elem_of_list_omap in Hj0 as (v & Hv & E). exists v. split; [apply elem_of_app; by left|done].
        - destruct (j - length (omap (rel_at sr) pre'))%nat as [|m] eqn:Em; [lia|]. cbn in Hj0. apply elem_of_list_lookup_2, elem_of_list_omap in Hj0 as (v & Hv & E). exists v. split; [apply elem_of_app; by right|done]. }
      destruct Hq as (v & Hv & E). destruct v as [?|?|q' r1 sr'|?]; try discriminate E. cbn [rel_at] in E. case_decide as Es; [|discriminate E]. apply (inj Some) in E. injection E as <- <-. subst sr'.
      assert (Hv' : EvRel q' r1 sr ∈ evs) by (rewrite Hev; apply elem_of_app in Hv as [Hv|Hv]; apply elem_of_app; [by left|right; by right]).
      assert (Hab' : SpecMerge.about x q').
      { apply elem_of_list_split in Hv' as (p1 & p2 & Hev'). destruct (ld_ok _ _ _ _ _ R _ _ _ Hev') as [(y & Hy & Hyo & Hyi) _].
        assert (Hy' : EvSec y sr ∈ evs) by (rewrite Hev'; apply elem_of_app; by left).
        assert (Hn : si_name y = si_name x).
        { pose proof Hy' as Hs. apply elem_of_list_split in Hs as (s1 & s2 & He). destruct (sv_ref _ _ _ _ SI _ _ _ _ He) as [(o' & Hname) _].
          rewrite Hid in Hname. rewrite (us_name _ _ _ _ _ _ _ _ _ _ _ U) in Hname. by injection Hname. }
        destruct (nth_contrib O P R _ _ _ _ _ _ _ _ _ _ _ _ _ U Hy' Hn) as [_ Hyj].
        assert (Hyin : y ∈ contribs (si_name x) (all_secs es)) by (apply elem_contribs; split; [done|by eapply (sec_from R)]).
        destruct (D1 y Hyin) as [Hyd _]. destruct (si_data y) eqn:Eyd; [|done]. rewrite Hj in Hyj. injection Hyj as ->. done. }
      assert (Hq' : q' ∈ omap rel_of pre' ++ omap rel_of post').
      { apply elem_of_app in Hv as [Hv|Hv]; apply elem_of_app; [left|right]; apply elem_of_list_omap; by exists (EvRel q' r1 sr). }
      pose proof (Hal q' Hq' Hab') as Hap. destruct (span_within _ _ _ _ sym' Hsc') as [S1 S2]. destruct (span_within _ _ _ _ sym Hsc) as [S3 S4]. cbn [fst] in S1, S2, S3, S4.
      unfold SpecReloc.apart in *. clear -Hap S1 S2 S3 S4. lia.
    - destruct (bind_window c_data (sc_chunks b) (sr_chunk sr) c7 Hc7) as (p & s & E & Hp). exists p, s. split; [exact E|]. rewrite Hp. 
      pose proof (user_lengths O Fin V P NF _ _ _ _ _ _ _ _ _ _ _ U) as Hlen.
      rewrite <- Hof. rewrite <- !fmap_take, <- !list_fmap_compose. f_equal. apply list_eq_same_length with (n := length (take (sr_chunk sr) (sc_chunks a0))); [by rewrite fmap_length|rewrite fmap_length, !take_length; lia|].
      intros m u v Hm Hu Hv. apply list_lookup_fmap_Some in Hu as (d7 & Hu & ->). apply list_lookup_fmap_Some in Hv as (d0 & Hv & ->).
      apply lookup_take_Some in Hu as [Hu _]. apply lookup_take_Some in Hv as [Hv _].
      destruct (user_chunk O Fin V P NF R _ _ _ _ _ _ _ _ _ _ _ _ _ U Hv) as (d6 & d7' & _ & Hd7 & F'). rewrite Hu in Hd7. injection Hd7 as <-.
      destruct (chunk_frame _ _ _ _ _ _ (cf_apply _ _ _ _ _ F')) as [Hl' _]. unfold compose, blen. rewrite Hl', (cf_data _ _ _ _ _ F'). reflexivity.
  Qed.
End field.

Lemma apply_symbol got plt table dyn c c' i rel r : chunk_apply_relocations got plt table dyn c = Ok c' -> c_relocations c !! i = Some (rel, r) ->
  is_Some (c_address c) /\ is_Some (syt_get table r).
Proof.
  intros H Hi. apply chunk_apply_fold in H as (data' & H & _). rewrite <- (take_drop_middle _ _ _ Hi) in H. rewrite foldM_app in H.
  apply bind_Ok in H as (d & _ & H). simpl in H. apply bind_Ok in H as (d' & H & _). unfold apply_one in H. simpl in H. apply bind_Ok in H as (a & Ha & H). apply bind_Ok in H as (s & Hs & _).
  apply unwrap_Ok in Ha, Hs. rewrite Ha, Hs. split; eauto.
Qed.
Lemma scanned_type t x r rel : scanned t (rela_of x, r) (rel, r) ->
  r_offset rel = gr_offset x /\ r_addend rel = default 0%Z (gr_addend x) /\
  r_type (r_info rel) = if decide (rel_type x = 4 /\ s_dynamic <$> syt_get t r = Some None) then 2 else rel_type x.
Proof.
  intros (_ & Ho & Ha & Hi). cbn [fst snd] in *. split; [exact Ho|]. split; [exact Ha|]. rewrite rela_type in Hi. rewrite Hi. case_decide as D; [|apply rela_type].
  unfold r_type. rewrite N.add_comm, N.mul_comm, N.mod_add by done. reflexivity.
Qed.

(** The types whose value involves no table. *)
Lemma near_field ty : ty = 4 \/ ty ∈ direct -> near_type ty ∈ direct /\ near_type ty ∈ supported /\ near_type ty <> 41 /\ near_type ty <> 42.
Proof.
  intros H. assert (Hd : near_type ty ∈ direct).
  { unfold near_type. case_decide; [apply (bool_decide_unpack _); vm_compute; exact I|]. destruct H as [?|?]; [done|assumption]. }
  split; [exact Hd|]. revert Hd. generalize (near_type ty). apply Forall_forall. unfold direct. rewrite !Forall_cons, Forall_nil. split_and!; try done; apply (bool_decide_unpack _); vm_compute; exact I.
Qed.
Lemma field_direct s at_ ty S A slot entry slot' entry' : ty ∈ direct -> field_is s at_ ty S A slot entry -> field_is s at_ ty S A slot' entry'.
Proof.
  intros Hd (wd & v & Hp & Hr). exists wd, v. split; [|exact Hr]. rewrite <- Hp. revert ty Hd Hp. clear. intros ty Hd _. revert ty Hd. apply Forall_forall. unfold direct. rewrite !Forall_cons, Forall_nil. split_and!; done.
Qed.

Section value.
  Context {wd : world} {lo : lib_oracle} {l : linker} {fuel : nat} {w : writer} {secs : list section}
    {w0 wr ws w1 : writer} {extra : N} {null : section} {rest rest' : list section} {st : layout} {w3 w4 w5 w6 w7 : writer}
    {null' : section} {out : list section}.
  Context (O : outcome wd lo l fuel w secs w0 wr ws w1 extra null rest rest' st w3 w4 w5 w6 w7 null' out).
  Context {es : list (string * elf_obj)} {evs : list event}.
  (** What the field of a relocation against entry [s] holds in the end. *)
  Lemma rel_field x q off b r rel c6 c7 i s ga pa : rel_chunk (w := w) (secs := secs) (wr := wr) (w6 := w6) (w7 := w7) (evs := evs) x q off b r rel c6 c7 i ->
    syt_get (w_symtab w7) r = Some s -> s_dynamic <$> syt_get (w_symtab wr) r = Some (s_dynamic s) ->
    sh_addr (hdr_of id_got (w_sections w6)) = ga -> sh_addr (hdr_of id_plt (w_sections w6)) = pa ->
    alloc b = true /\
    let ty := if decide (rel_type (ri_rel q) = 4 /\ s_dynamic s = None) then 2 else rel_type (ri_rel q) in
      (ty ∈ supported -> ~ relaxed ty s -> exists S, target_value s (w_dynsym w) = Some S /\ field_is b (field_off off q) ty (Z.of_N S) (rel_addend q) (slot_of s ga) (entry_of s pa)) /\
      (ty = 42 -> s_dynamic s = None -> exists S reg ea0, target_value s (w_dynsym w) = Some S /\
        SpecReloc.decode_at (Z.of_N (addr b + off)) (si_bytes x) (gr_offset (ri_rel q) - 3) = Some (MovLoad reg ea0, 7) /\
        SpecReloc.decode_at (Z.of_N (addr b)) (contents b) (off + (gr_offset (ri_rel q) - 3)) = Some (Lea reg (Z.of_N S + rel_addend q + 4), 7)).
  Proof using O.
    intros [C1 C2 C3 C4 C5 C6 C7 C8 C9] Hs7 Hsd G5 G7.
    destruct (apply_symbol _ _ _ _ _ _ _ _ _ C7 C3) as [[a Ha] _]. rewrite Ha in C5. destruct (alloc b) eqn:Eal; [|discriminate C5]. apply (inj Some) in C5. subst a. split; [reflexivity|].
    assert (Ed : w_dynsym w = w_dynsym w6) by (destruct (run_fields (oc_run O)) as (_ & _ & _ & _ & _ & _ & _ & E & _); exact E).
    pose proof (scanned_type _ _ _ _ C4) as (T1 & T2 & T3). rewrite Hsd in T3.
    assert (T4 : r_type (r_info rel) = if decide (rel_type (ri_rel q) = 4 /\ s_dynamic s = None) then 2 else rel_type (ri_rel q)).
    { rewrite T3. clear. destruct (decide (rel_type (ri_rel q) = 4)) as [E|E], (s_dynamic s) as [d|]; repeat case_decide; try reflexivity; exfalso; intuition congruence. }
    cbv zeta. rewrite <- T4. destruct C9 as (p & sf & Hc & Hp).
    assert (A : forall j rel' r' sym', j <> i -> c_relocations c6 !! j = Some (rel', r') -> syt_get (w_symtab w7) r' = Some sym' -> SpecReloc.apart (span rel' sym') (span rel s)) by (intros j rel' r' sym' Hj Hl _; eapply C8; eauto).
    rewrite Ed. split.
    - intros Hsup Hrel. destruct (final_field _ _ _ _ _ _ _ _ _ _ C7 C3 Hs7 A Hsup Hrel) as (a & S & wd' & v & Ha' & HS & Hps & Hrd). rewrite Ha in Ha'. injection Ha' as <-.
      exists S. split; [exact HS|]. exists wd', v. unfold field_off, rel_addend. rewrite T1, T2 in Hps. rewrite G5, G7 in Hps. rewrite T1 in Hrd.
      replace (Z.of_N (addr b + (off + gr_offset (ri_rel q)))) with (Z.of_N (addr b + off) + Z.of_N (gr_offset (ri_rel q)))%Z by lia. split; [exact Hps|].
      rewrite Hc. by apply rd_window.
    - intros H42 Hdyn. destruct (lea_final _ _ _ _ _ _ _ _ _ _ C7 C3 Hs7 A H42 Hdyn) as (a & S & reg & ea0 & Ha' & HS & D1 & D2). rewrite Ha in Ha'. injection Ha' as <-.
      exists S, reg, ea0. split; [exact HS|]. rewrite T1 in D1, D2. rewrite T2 in D2. rewrite C6 in D1. split; [exact D1|]. rewrite Hc. apply decode_window; [exact Hp|].
      replace (Z.of_N (addr b) + Z.of_N off)%Z with (Z.of_N (addr b + off)) by lia. exact D2.
  Qed.
End value.

Section symbol.
  Context {wd : world} {lo : lib_oracle} {l : linker} {fuel : nat} {w : writer} {secs : list section}
    {w0 wr ws w1 : writer} {extra : N} {null : section} {rest rest' : list section} {st : layout} {w3 w4 w5 w6 w7 : writer}
    {null' : section} {out : list section}.
  Context (O : outcome wd lo l fuel w secs w0 wr ws w1 extra null rest rest' st w3 w4 w5 w6 w7 null' out).
  Context {es : list (string * elf_obj)} {evs : list event} (R : reads wd l es evs wr).
  Let sn := w_strtab wr.
  (** The addition of the symbol a relocation is against. *)
  Lemma rel_sym_event q r sr : EvRel q r sr ∈ evs -> exists y o, EvSym y o r ∈ evs /\ y ∈ all_syms es /\ yi_obj y = ri_obj q /\ sym_key (yi_sym y) = sym_key (ri_sym q).
  Proof using R.
    intros Hv. apply elem_of_list_split in Hv as (pre & post & Hev). destruct (ld_ok _ _ _ _ _ R _ _ _ Hev) as [_ (y & q' & Hy & Ho & Hk)].
    assert (Hy' : EvSym y q' r ∈ evs) by (rewrite Hev; apply elem_of_app; by left). exists y, q'. split; [done|]. split; [by eapply (sym_from R)|]. done.
  Qed.
  Lemma rel_named q r sr n : EvRel q r sr ∈ evs -> rel_against es q n ->
    r = RNamed (off_of sn n) /\ exists y, y ∈ named n (all_syms es) /\ binding (yi_sym y) = binding (ri_sym q).
  Proof using R.
    intros Hv (p & e & He & Hn & Ht). destruct (rel_sym_event _ _ _ Hv) as (y & q' & Hy & Hin & Ho & Hk). unfold sym_key in Hk. injection Hk as K1 K2 _ _ _.
    destruct (all_syms_obj _ _ Hin) as (p' & e' & He' & Hobj). destruct (obj_syms_obj _ _ _ _ Hobj) as (_ & _ & _ & Hnm). rewrite Ho, He in He'. injection He' as <- <-. rewrite K1, Hn in Hnm. injection Hnm as Hnm.
    assert (Ht' : typ (yi_sym y) <> 3) by (unfold typ in *; by rewrite K2). split; [rewrite (sym_ref R _ _ _ Hy Ht'), <- Hnm; reflexivity|].
    exists y. split; [apply elem_of_list_filter; done|]. unfold binding. by rewrite K2.
  Qed.
  Lemma dynamic_kept k s : syt_symbols (w_symtab w) !! k = Some s -> s_dynamic <$> syt_get (w_symtab wr) (RNamed k) = Some (s_dynamic s).
  Proof using O.
    intros Hs. destruct (keeps_all O sym_static) as [KA _]. destruct (keeps_lookup _ _ _ _ _ KA Hs) as (s0 & H0 & E). change (syt_get (w_symtab wr) (RNamed k)) with (syt_symbols (w_symtab wr) !! k). rewrite H0.
    unfold sym_static in E. injection E as _ _ _ _ _ _ _ E. cbn [fmap option_fmap option_map]. by rewrite E.
  Qed.
  Lemma home_of x y o r : x ∈ all_secs es -> EvSym y o r ∈ evs -> lies_in x y -> exists sr, o = Some sr /\ EvSec x sr ∈ evs.
  Proof using R.
    intros Hx Hv (Ho & Hi & Ha). apply elem_of_list_split in Hv as (pre & post & E). pose proof (ld_ok _ _ _ _ _ R _ _ _ E) as K. simpl in K. destruct o as [sr|].
    - destruct K as (x' & Hx' & Ho' & Hi'). assert (Hx2 : EvSec x' sr ∈ evs) by (rewrite E; apply elem_of_app; by left).
      assert (x' = x) as ->. { eapply all_secs_same; [by eapply (sec_from R)|done|congruence|]. rewrite Hi', <- Hi. apply Nat2N.id. }
      eauto.
    - exfalso. destruct (sec_input _ _ _ _ _ _ R Hx) as (p & e & He & Hsh & (_ & _ & Ht & _) & _). rewrite Ho in He. rewrite <- (Nat2N.id (si_idx x)), Hi in Hsh.
      specialize (K p e (si_sh x) He Hsh). unfold copied in K. apply negb_false_iff, bool_decide_eq_true in K. done.
  Qed.
  (** Distinct section symbols have distinct references. *)
  Lemma section_refs_apart y y' o o' k m : EvSym y o (RSection k m) ∈ evs -> EvSym y' o' (RSection k m) ∈ evs -> y = y' /\ o = o'.
  Proof using R.
    intros H1 H2. apply elem_of_list_lookup in H1 as [i H1]. apply elem_of_list_lookup in H2 as [j H2].
    assert (G : forall i j y y' o o', evs !! i = Some (EvSym y o (RSection k m)) -> evs !! j = Some (EvSym y' o' (RSection k m)) -> ~ (i < j)%nat).
    { clear -R. intros i j y y' o o' H1 H2 Hlt. pose proof (take_drop_middle _ _ _ H1) as E1. pose proof (take_drop_middle _ _ _ H2) as E2. symmetry in E1, E2.
      pose proof (yv_ref _ _ (yinv_wr R) _ _ _ _ _ E1) as R1. pose proof (yv_ref _ _ (yinv_wr R) _ _ _ _ _ E2) as R2.
      destruct (decide (typ (yi_sym y) = 3)) as [T1|]; [|discriminate R1]. destruct (decide (typ (yi_sym y') = 3)) as [T2|]; [|discriminate R2]. injection R1 as K1 M1. injection R2 as K2 M2.
      assert (Ht : take j evs !! i = Some (EvSym y o (RSection k m))) by (rewrite lookup_take by done; exact H1). pose proof (take_drop_middle _ _ _ Ht) as E3. rewrite take_take, Nat.min_l in E3 by lia.
      rewrite <- E3, omap_app in M2. unfold sec_syms in M1, M2. rewrite filter_app, app_length in M2.
      change (omap sym_of (EvSym y o (RSection k m) :: drop (S i) (take j evs))) with (y :: omap sym_of (drop (S i) (take j evs))) in M2. rewrite filter_cons_True in M2 by (split; [done|congruence]). cbn [length] in M2. rewrite <- K1 in M1. rewrite <- K2 in M2. lia. }
    assert (i = j) as ->; [|rewrite H1 in H2; by injection H2].
    destruct (Nat.lt_trichotomy i j) as [?|[?|?]]; [|done|]; exfalso; [exact (G i j _ _ _ _ H1 H2 ltac:(assumption))|exact (G j i _ _ _ _ H2 H1 ltac:(assumption))].
  Qed.
  Lemma section_entry y o k m : EvSym y o (RSection k m) ∈ evs -> exists s, syt_get (w_symtab wr) (RSection k m) = Some s /\ s_dynamic s = None.
  Proof using R.
    intros H. apply elem_of_list_split in H as (pre & post & E). pose proof (yv_ref _ _ (yinv_wr R) _ _ _ _ _ E) as R1. case_decide as T; [|discriminate R1]. injection R1 as -> ->.
    pose proof (yv_sec _ _ (yinv_wr R) (st_shndx (yi_sym y))) as S. rewrite E, omap_app in S.
    change (omap sym_of (EvSym y o (RSection (st_shndx (yi_sym y)) (length (sec_syms (st_shndx (yi_sym y)) (omap sym_of pre)))) :: post)) with (y :: omap sym_of post) in S.
    unfold sec_syms in S at 1. rewrite filter_app, filter_cons_True in S by done. fold (sec_syms (st_shndx (yi_sym y)) (omap sym_of pre)) in S. fold (sec_syms (st_shndx (yi_sym y)) (omap sym_of post)) in S.
    cbn [syt_get]. destruct (syt_section_syms (w_symtab wr) !! st_shndx (yi_sym y)) as [v|].
    - cbn [default from_option id] in S. cbn [mbind option_bind]. unfold id in S. rewrite S, list_lookup_fmap, list_lookup_middle by done. eexists. split; [reflexivity|]. reflexivity.
    - exfalso. cbn in S. destruct (sec_syms (st_shndx (yi_sym y)) (omap sym_of pre)); discriminate S.
  Qed.
End symbol.

Section good.
  Context {wd : world} {lo : lib_oracle} {l : linker} {fuel : nat} {w : writer} {secs : list section}.
  Context (G : good_link wd lo l fuel w secs).
  Context {es : list (string * elf_obj)} {evs : list event} (L : loading wd lo l fuel es evs).
  Context (Hnn : forall y, y ∈ all_syms es -> nonul (yi_name y)).

  (** The value a relocation against a named symbol gets, by the type it has
      after the scan. *)
  Lemma good_rel x q off n : x ∈ all_secs es -> si_name x <> "" -> si_data x <> None -> lone_rel es x q -> offset_of es x off -> rel_against es q n ->
    exists b s got plt k ss, the_sec w secs (si_name x) b /\ alloc b = true /\ symtab_entry w secs n (s_sym s) /\ syt_symbols (w_symtab w) !! k = Some s /\
      the_sec w secs ".strtab" ss /\ cstr_at (contents ss) k = Some (string_bytes n) /\ the_sec w secs ".got" got /\ the_sec w secs ".plt" plt /\
      (stays_in wd lo l n -> s_dynamic s = None) /\
      (n <> "" -> all_standard n (all_syms es) -> binding (ri_sym q) <> 0 -> ~ object_defines es n -> ~ linker_defines es n -> is_Some (s_dynamic s) /\ st_shndx (s_sym s) = 0) /\
      let ty := if decide (rel_type (ri_rel q) = 4 /\ s_dynamic s = None) then 2 else rel_type (ri_rel q) in
      (ty ∈ supported -> ~ relaxed ty s -> exists S, target_value s (w_dynsym w) = Some S /\ field_is b (field_off off q) ty (Z.of_N S) (rel_addend q) (slot_of s (addr got)) (entry_of s (addr plt))) /\
      (ty = 42 -> s_dynamic s = None -> exists S reg ea0, target_value s (w_dynsym w) = Some S /\
        SpecReloc.decode_at (Z.of_N (addr b + off)) (si_bytes x) (gr_offset (ri_rel q) - 3) = Some (MovLoad reg ea0, 7) /\
        SpecReloc.decode_at (Z.of_N (addr b)) (contents b) (off + (gr_offset (ri_rel q) - 3)) = Some (Lea reg (Z.of_N S + rel_addend q + 4), 7)).
  Proof using G L Hnn.
    intros Hx Hxn Hxd Hq Hoff Hn. pose proof (good_only G L) as Hon.
    destruct (links_outcome _ _ _ _ _ _ (gl_links _ _ _ _ _ _ G)) as (w0 & wr & ws & w1 & extra & null & rest & rest' & st & w3 & w4 & w5 & w6 & w7 & null' & out & O).
    pose proof (proj2 (gl_links _ _ _ _ _ _ G)) as Fin. destruct G as [_ V P PL NF AF SF].
    destruct L as (wr' & Hr & R). rewrite (oc_resolve O) in Hr. injection Hr as <-.
    destruct (find_chunk O Fin V P NF R x q off Hx Hxn Hxd Hq Hoff) as (b & r & rel & c6 & c7 & i & C). pose proof C as [C1 C2 C3 C4 C5 C6 C7 C8 C9].
    destruct C2 as (pre & post & sr & Hev). assert (Hv : EvRel q r sr ∈ evs) by (rewrite Hev; apply elem_of_app; right; by left).
    destruct (rel_named R _ _ _ _ Hv Hn) as (-> & y & Hy & Hb).
    assert (Hne : named n (all_syms es) <> []) by (intros E; rewrite E in Hy; by apply elem_of_nil in Hy). pose proof (named_known R n Hne) as Hk.
    destruct (apply_symbol _ _ _ _ _ _ _ _ _ C7 C3) as [[a Ha] [s Hs]]. rewrite Ha in C5. destruct (alloc b) eqn:Eal; [|discriminate C5]. apply (inj Some) in C5. subst a.
    assert (Ew : w_symtab w = w_symtab w7) by (destruct (run_fields (oc_run O)) as (_ & _ & _ & _ & _ & _ & E & _); exact E).
    pose proof Hs as Hs7. change (syt_symbols (w_symtab w7) !! off_of (w_strtab wr) n = Some s) in Hs. rewrite <- Ew in Hs.
    destruct (own_all O Fin V P NF) as (pd & gd & _ & Hown).
    destruct (Hown 5%nat ".got") as [got Hgot]; [lia|destruct (opt_hash_style (lk_options l)); vm_compute; reflexivity|].
    destruct (Hown 7%nat ".plt") as [plt Hplt]; [lia|destruct (opt_hash_style (lk_options l)); vm_compute; reflexivity|].
    assert (Hnn' : nonul n) by (apply elem_of_list_filter in Hy as [[_ <-] Hy]; by apply Hnn).
    pose proof (entry_written O Fin V P NF R PL SF n s Hk Hnn' Hnn Hs) as Hent.
    pose proof Hent as (_ & ss & _ & _ & Hss & _ & Hcs & _). rewrite (sym_keyed O PL _ _ Hs) in Hcs.
    exists b, s, got, plt, (off_of (w_strtab wr) n), ss. split; [exact C1|]. split; [exact Eal|]. split; [exact Hent|]. split; [exact Hs|]. split; [exact Hss|]. split; [exact Hcs|].
    split; [exact (os_the _ _ _ _ _ Hgot)|]. split; [exact (os_the _ _ _ _ _ Hplt)|].
    split.
    { intros [Hu|[Hun Hm]].
      - destruct (s_dynamic s) as [d|] eqn:Ed; [|reflexivity]. destruct (dynamic_listed O NF R n s Hk Hs ltac:(rewrite Ed; eauto)) as [d' Hd']. exfalso. exact (Hu d' Hd').
      - pose proof (dynamic_kept O _ _ Hs) as Hd. cbn [syt_get] in Hd. destruct (syt_symbols (w_symtab wr) !! off_of (w_strtab wr) n) as [s0|] eqn:E0; [|discriminate Hd]. cbn [fmap option_fmap option_map] in Hd. apply (inj Some) in Hd. rewrite <- Hd.
        exact (proj1 (resolve_own_entry wd l n lo (vo_sym _ V) Hun fuel wr s0 Hm (oc_resolve O) E0)). }
    split.
    { intros Hn0 Hst Hbq Hod Hld. destruct (must_dynamic O Fin V P NF R n y (link_settled _ _ _ _ _ (proj1 (gl_links _ _ _ _ _ _ G))) Hn0 Hy Hst) as (s' & Hs' & H1 & H2); [by rewrite Hb|exact Hod|exact Hld| |].
      - intros b' kd Hbs Hbn. apply (Hon b'); [done|done|by destruct kd|]. destruct kd; apply (bool_decide_unpack _); vm_compute; exact I.
      - rewrite Hs in Hs'. injection Hs' as <-. done. }
    assert (G5 : sh_addr (hdr_of id_got (w_sections w6)) = addr got) by exact (os_six _ _ _ _ _ Hgot). assert (G7 : sh_addr (hdr_of id_plt (w_sections w6)) = addr plt) by exact (os_six _ _ _ _ _ Hplt).
    exact (proj2 (rel_field O _ _ _ _ _ _ _ _ _ _ _ _ C Hs7 (dynamic_kept O _ _ Hs) G5 G7)).
  Qed.

  (** Relocations against section symbols. *)
  Lemma good_sec_rel x q off x' off' : x ∈ all_secs es -> si_name x <> "" -> si_data x <> None -> lone_rel es x q -> offset_of es x off ->
    x' ∈ all_secs es -> si_name x' <> "" -> rel_section q x' -> offset_of es x' off' ->
    exists b b', the_sec w secs (si_name x) b /\ alloc b = true /\ the_sec w secs (si_name x') b' /\
      let S := Z.of_N (addr b' + if is_nobits b' then 0 else off') in
      (rel_type (ri_rel q) = 4 \/ rel_type (ri_rel q) ∈ direct -> field_is b (field_off off q) (near_type (rel_type (ri_rel q))) S (rel_addend q) None None) /\
      (rel_type (ri_rel q) = 42 -> exists reg ea0,
        SpecReloc.decode_at (Z.of_N (addr b + off)) (si_bytes x) (gr_offset (ri_rel q) - 3) = Some (MovLoad reg ea0, 7) /\
        SpecReloc.decode_at (Z.of_N (addr b)) (contents b) (off + (gr_offset (ri_rel q) - 3)) = Some (Lea reg (S + rel_addend q + 4), 7)).
  Proof using G L.
    clear Hnn. intros Hx Hxn Hxd Hq Hoff Hx' Hxn' (Ht & Ho & Hi & Hab) Hoff'.
    destruct (links_outcome _ _ _ _ _ _ (gl_links _ _ _ _ _ _ G)) as (w0 & wr & ws & w1 & extra & null & rest & rest' & st & w3 & w4 & w5 & w6 & w7 & null' & out & O).
    pose proof (proj2 (gl_links _ _ _ _ _ _ G)) as Fin. destruct G as [_ V P PL NF AF SF].
    destruct L as (wr' & Hr & R). rewrite (oc_resolve O) in Hr. injection Hr as <-.
    destruct (find_chunk O Fin V P NF R x q off Hx Hxn Hxd Hq Hoff) as (b & r & rel & c6 & c7 & i & C). pose proof (rc_event _ _ _ _ _ _ _ _ _ C) as (pre & post & sr & Hev).
    assert (Hv : EvRel q r sr ∈ evs) by (rewrite Hev; apply elem_of_app; right; by left).
    destruct (rel_sym_event R _ _ _ Hv) as (y & o & Hy & Hin & Hyo & Hk). unfold sym_key in Hk. injection Hk as K1 K2 K3 K4 _.
    assert (Ht' : typ (yi_sym y) = 3) by (unfold typ in *; by rewrite K2). destruct (section_ref_of R _ _ _ Hy Ht') as [m ->].
    assert (Hl : lies_in x' y) by (split; [congruence|]; split; [congruence|]; congruence).
    destruct (home_of R _ _ _ _ Hx' Hy Hl) as (sr' & -> & Hsr').
    destruct (own_all O Fin V P NF) as (pd & gd & _ & Hown).
    destruct (Hown 5%nat ".got") as [got Hgot]; [lia|destruct (opt_hash_style (lk_options l)); vm_compute; reflexivity|].
    destruct (Hown 7%nat ".plt") as [plt Hplt]; [lia|destruct (opt_hash_style (lk_options l)); vm_compute; reflexivity|].
    assert (G5 : sh_addr (hdr_of id_got (w_sections w6)) = addr got) by exact (os_six _ _ _ _ _ Hgot). assert (G7 : sh_addr (hdr_of id_plt (w_sections w6)) = addr plt) by exact (os_six _ _ _ _ _ Hplt).
    destruct (chunk_at O Fin V P NF R x' sr' Hx' Hxn' Hsr') as (k & ofs & pd' & gd' & a0 & a1 & a3 & a6 & a7 & b' & c0 & U & Esr & Hc0 & Hof). specialize (Hof _ Hoff').
    assert (Hdef : defines (EvSym y (Some sr') (RSection (st_shndx (yi_sym y)) m)) sr' (RSection (st_shndx (yi_sym y)) m)) by (exists y; split; [reflexivity|]; congruence).
    assert (Hreg : RSection (st_shndx (yi_sym y)) m ∈ c_symbols c0).
    { destruct (sv_chunk _ _ _ _ (wr_sinv O R) _ _ _ _ (h_wr (us_hist _ _ _ _ _ _ _ _ _ _ _ U)) Hc0) as (_ & _ & _ & Hd). apply Hd. eexists. split; [exact Hy|]. rewrite <- Esr. exact Hdef. }
    assert (Hnn0 : forall n, name_ref (w_strtab wr) n <> Some (RSection (st_shndx (yi_sym y)) m)) by (intros n E; unfold name_ref in E; destruct (st_get (w_strtab wr) n); discriminate E).
    assert (Hns : ~ special_ref (w_strtab wr) (RSection (st_shndx (yi_sym y)) m)) by (intros (n & _ & E); exact (Hnn0 n E)).
    pose proof (sym_once O Fin V P NF R _ _ _ _ _ _ _ _ _ _ _ _ _ _ U Hc0 Hreg Hns) as Honce. destruct (section_entry R _ _ _ _ Hy) as (s0 & Hs0 & Hd0).
    pose proof (core_w6 O (RSection (st_shndx (yi_sym y)) m) (fun n _ => Hnn0 n)) as Hcore. rewrite Hs0 in Hcore.
    assert (H6 : exists s6, syt_get (w_symtab w6) (RSection (st_shndx (yi_sym y)) m) = Some s6 /\ s_dynamic s6 = None).
    { destruct (syt_get (w_symtab w6) (RSection (st_shndx (yi_sym y)) m)) as [s6|]; [|discriminate Hcore]. cbn [fmap option_fmap option_map] in Hcore. apply (inj Some) in Hcore. unfold core in Hcore. injection Hcore as _ Hc. exists s6. split; [reflexivity|]. by rewrite Hc. }
    destruct H6 as (s6 & H6 & Hd6). rewrite H6, Hof in Honce. cbn [fmap option_fmap option_map] in Honce.
    assert (H7 : syt_get (w_symtab w7) (RSection (st_shndx (yi_sym y)) m) = Some (patch_symbol (u16 (sc_index b')) (addr b' + (if is_nobits b' then 0 else off')) (RSection (st_shndx (yi_sym y)) m) s6)).
    { apply Honce. intros v sr2 Hv2 (y2 & -> & _) _. destruct (section_refs_apart R _ _ _ _ _ _ Hy Hv2) as [_ E]. injection E as <-. exact Esr. }
    assert (Hsd : s_dynamic <$> syt_get (w_symtab wr) (RSection (st_shndx (yi_sym y)) m) = Some (s_dynamic (patch_symbol (u16 (sc_index b')) (addr b' + (if is_nobits b' then 0 else off')) (RSection (st_shndx (yi_sym y)) m) s6))) by (rewrite Hs0; cbn [fmap option_fmap option_map]; rewrite Hd0; symmetry; f_equal; exact Hd6).
    destruct (rel_field O _ _ _ _ _ _ _ _ _ _ _ _ C H7 Hsd G5 G7) as (Hal & Hty).
    cbv zeta in Hty. set (s7 := patch_symbol _ _ _ s6) in *. assert (Hd7 : s_dynamic s7 = None) by exact Hd6. assert (Htv : target_value s7 (w_dynsym w) = Some (addr b' + (if is_nobits b' then 0 else off'))).
    { unfold target_value. rewrite Hd7. by destruct (decide (st_shndx (s_sym s7) = 0)). }
    exists b, b'. split; [exact (rc_the _ _ _ _ _ _ _ _ _ C)|]. split; [exact Hal|]. split; [exact (us_the _ _ _ _ _ _ _ _ _ _ _ U)|]. rewrite Htv in Hty. clear -Hty Hd7. cbv zeta. split.
    - intros Hd. destruct Hty as [Hty _]. apply near_field in Hd as (E & E1 & E2 & E3).
      assert (Ed : (if decide (rel_type (ri_rel q) = 4 /\ s_dynamic s7 = None) then 2 else rel_type (ri_rel q)) = near_type (rel_type (ri_rel q))) by (unfold near_type; repeat case_decide; intuition).
      rewrite Ed in Hty. destruct Hty as (S & HS & Hf); [exact E1|intros [[?|?] _]; [exact (E2 ltac:(assumption))|exact (E3 ltac:(assumption))]|]. injection HS as <-. by eapply field_direct.
    - intros H42. destruct Hty as [_ Hty]. rewrite H42 in Hty. destruct Hty as (S & reg & ea0 & HS & D1 & D2); [reflexivity|exact Hd7|]. injection HS as <-. eauto.
  Qed.

  (** The .dynsym entry of a symbol bound to a shared library's. *)
  Lemma good_dynamic k s d : syt_symbols (w_symtab w) !! k = Some s -> s_dynamic s = Some d ->
    exists ss ds sd j dd, the_sec w secs ".strtab" ss /\ the_sec w secs ".dynsym" ds /\ the_sec w secs ".dynstr" sd /\
      syt_get (w_dynsym w) d = Some dd /\ rd_sym (contents ds) (24 * j) = Some (s_sym dd) /\ same_string (contents ss) (contents sd) k (st_name (s_sym dd)).
  Proof using G.
    clear L Hnn. intros Hs Hd.
    destruct (links_outcome _ _ _ _ _ _ (gl_links _ _ _ _ _ _ G)) as (w0 & wr & ws & w1 & extra & null & rest & rest' & st & w3 & w4 & w5 & w6 & w7 & null' & out & O).
    pose proof (proj2 (gl_links _ _ _ _ _ _ G)) as Fin. destruct G as [_ V P PL NF AF SF].
    destruct (own_all O Fin V P NF) as (pd & gd & _ & Hown).
    destruct (Hown 2%nat ".strtab") as [ss Oss]; [lia|destruct (opt_hash_style (lk_options l)); vm_compute; reflexivity|].
    destruct (Hown 9%nat ".dynsym") as [ds Ods]; [lia|destruct (opt_hash_style (lk_options l)); vm_compute; reflexivity|].
    destruct (Hown 3%nat ".dynstr") as [sd Osd]; [lia|destruct (opt_hash_style (lk_options l)); vm_compute; reflexivity|].
    destruct (slots_ws O _ _ Hs) as (s0 & Hs0 & _ & Ed). rewrite Ed in Hd. destruct (ws_link O PL _ _ _ Hs0 Hd) as (m & _ & -> & _). destruct (the_records O V PL NF) as (dr & I & _).
    assert (Hk : k ∈ the_keys (lo := lo) (ws := ws)) by (apply (elem_keys V); eauto). destruct (dri_found _ _ _ _ _ I _ _ _ Hk Hs0 Hd) as [[j Hj] _].
    destruct (linked O V PL NF _ _ _ _ (proj2 SF) Hs0 Hd Hj) as (dd & L1 & L2 & L3 & _). exists ss, ds, sd, j, dd.
    split; [exact (os_the _ _ _ _ _ Oss)|]. split; [exact (os_the _ _ _ _ _ Ods)|]. split; [exact (os_the _ _ _ _ _ Osd)|]. split; [exact L2|].
    rewrite (os_bytes _ _ _ _ _ Ods), (os_bytes _ _ _ _ _ Oss), (os_bytes _ _ _ _ _ Osd). split; [exact L1|exact L3].
  Qed.
End good.

Lemma the_one w secs n s s' : the_sec w secs n s -> the_sec w secs n s' -> s' = s.
Proof. intros (_ & _ & H) (H1 & H2 & _). by apply H. Qed.
Lemma dyn_named ss ds sd k j n : dyn_entry ss ds sd k j -> cstr_at (contents ss) k = Some (string_bytes n) ->
  exists d, rd_sym (contents ds) (24 * j) = Some d /\ cstr_at (contents sd) (st_name d) = Some (string_bytes n).
Proof. intros (d & Hd & nm & H1 & H2) Hn. exists d. split; [exact Hd|]. rewrite Hn in H1. by injection H1 as <-. Qed.

Section users.
  Context {wd : world} {lo : lib_oracle} {l : linker} {fuel : nat} {w : writer} {secs : list section}.
  Context (G : good_link wd lo l fuel w secs).
  Context {es : list (string * elf_obj)} {evs : list event} (L : loading wd lo l fuel es evs).
  Context (Hnn : forall y, y ∈ all_syms es -> nonul (yi_name y)).
  Context (x : sec_in) (q : rel_in) (off : N) (n : string).
  Context (Hx : x ∈ all_secs es) (Hxn : si_name x <> "") (Hxd : si_data x <> None) (Hq : lone_rel es x q) (Hoff : offset_of es x off) (Hn : rel_against es q n).
  Let ty := rel_type (ri_rel q).

  Lemma near_rel : stays_in wd lo l n -> ty = 4 \/ ty ∈ direct ->
    exists b sym, the_sec w secs (si_name x) b /\ symtab_entry w secs n sym /\ field_is b (field_off off q) (near_type ty) (Z.of_N (st_value sym)) (rel_addend q) None None.
  Proof using All.
    intros Hl Hty. destruct (good_rel G L Hnn x q off n Hx Hxn Hxd Hq Hoff Hn) as (b & s & got & plt & k & ss & Hb & _ & He & _ & _ & _ & _ & _ & Hd & _ & H & _). clear -Hb He Hd H Hl Hty.
    exists b, (s_sym s). split; [exact Hb|]. split; [exact He|]. pose proof (Hd Hl) as Es. clear Hd Hl.
    assert (Ed : (if decide (rel_type (ri_rel q) = 4 /\ s_dynamic s = None) then 2 else rel_type (ri_rel q)) = near_type ty) by (unfold near_type, ty; repeat case_decide; intuition).
    rewrite Ed in H. destruct (near_field _ Hty) as (E & E1 & E2 & E3). destruct H as (S & HS & Hf); [exact E1|intros [[?|?] _]; [exact (E2 ltac:(assumption))|exact (E3 ltac:(assumption))]|].
    unfold target_value in HS. rewrite Es in HS. assert (S = st_value (s_sym s)) as -> by (destruct (decide (st_shndx (s_sym s) = 0)); by injection HS). by eapply field_direct.
  Qed.
  Lemma direct_rel : ty ∈ direct -> exists b sym, the_sec w secs (si_name x) b /\ symtab_entry w secs n sym /\
    (st_shndx sym <> 0 -> field_is b (field_off off q) ty (Z.of_N (st_value sym)) (rel_addend q) None None).
  Proof using All.
    intros Hty. destruct (good_rel G L Hnn x q off n Hx Hxn Hxd Hq Hoff Hn) as (b & s & got & plt & k & ss & Hb & _ & He & _ & _ & _ & _ & _ & _ & _ & H & _). clear -Hb He H Hty.
    exists b, (s_sym s). split; [exact Hb|]. split; [exact He|]. intros Hdef. assert (H4 : ty <> 4) by (revert Hty; clear; intros H E; rewrite E in H; revert H; apply (bool_decide_unpack _); vm_compute; exact I).
    rewrite decide_False in H by (intros [? _]; by apply H4). fold ty in H. destruct (near_field ty (or_intror Hty)) as (E & E1 & E2 & E3). unfold near_type in *. rewrite decide_False in * by done.
    destruct H as (S & HS & Hf); [exact E1|intros [[?|?] _]; [exact (E2 ltac:(assumption))|exact (E3 ltac:(assumption))]|].
    unfold target_value in HS. rewrite decide_False in HS by done. injection HS as <-. by eapply field_direct.
  Qed.
  Lemma lea_rel : stays_in wd lo l n -> ty = 42 -> exists b sym reg ea0, the_sec w secs (si_name x) b /\ symtab_entry w secs n sym /\
    SpecReloc.decode_at (Z.of_N (addr b + off)) (si_bytes x) (gr_offset (ri_rel q) - 3) = Some (MovLoad reg ea0, 7) /\
    SpecReloc.decode_at (Z.of_N (addr b)) (contents b) (off + (gr_offset (ri_rel q) - 3)) = Some (Lea reg (Z.of_N (st_value sym) + rel_addend q + 4), 7).
  Proof using All.
    intros Hl Hty. destruct (good_rel G L Hnn x q off n Hx Hxn Hxd Hq Hoff Hn) as (b & s & got & plt & k & ss & Hb & _ & He & _ & _ & _ & _ & _ & Hd & _ & _ & H). clear -Hb He Hd H Hl Hty.
    pose proof (Hd Hl) as Es. clear Hd Hl. fold ty in H. rewrite Hty in H.
    destruct H as (S & reg & ea0 & HS & D1 & D2); [reflexivity|exact Es|]. unfold target_value in HS. rewrite Es in HS. assert (S = st_value (s_sym s)) as -> by (destruct (decide (st_shndx (s_sym s) = 0)); by injection HS).
    exists b, (s_sym s), reg, ea0. done.
  Qed.

  (** Names only a shared library defines. *)
  Context (Hn0 : n <> "") (Hst : all_standard n (all_syms es)) (Hbq : binding (ri_sym q) <> 0) (Hod : ~ object_defines es n) (Hld : ~ linker_defines es n).
  Lemma plt_rel : ty = 4 -> exists b p g rp k i j d, the_sec w secs (si_name x) b /\ the_sec w secs ".plt" p /\ the_sec w secs ".got.plt" g /\ the_sec w secs ".rela.plt" rp /\
    field_is b (field_off off q) 4 0 (rel_addend q) None (Some (Z.of_N (addr p + 16 * (i + 1)))) /\ stub_for p g i k /\
    rd_rela (contents rp) (24 * k) = Some (dyn_record (addr g + 8 * (i + 3)) j 7) /\ dynsym_entry w secs n j d.
  Proof using All.
    intros Hty. destruct (good_rel G L Hnn x q off n Hx Hxn Hxd Hq Hoff Hn) as (b & s & got & plt & k & ss & Hb & _ & He & Hk & Hss & Hcs & _ & Hplt & _ & Hd & H & _). destruct (Hd Hn0 Hst Hbq Hod Hld) as [Hdyn Hun].
    destruct (good_jump_slots G) as (p & g & rp & ss' & ds & sd & recs & J1 & J2 & J3 & J4 & J5 & J6 & _ & _ & Hsz & J7 & _).
    assert (p = plt) as -> by (eapply the_one; [exact Hplt|exact J1]). assert (ss' = ss) as -> by (eapply the_one; [exact Hss|exact J4]).
    rewrite decide_False in H by (intros [_ E]; rewrite E in Hdyn; by destruct Hdyn). fold ty in H. rewrite Hty in H.
    destruct H as (S & HS & Hf); [apply (bool_decide_unpack _); vm_compute; exact I|intros [[?|?] _]; lia|]. destruct Hf as (wd' & v & Hps & Hrd).
    destruct (entry_of s (addr plt)) as [e|] eqn:Ee; [|discriminate Hps]. unfold entry_of in Ee. destruct (s_in_plt s) as [i|] eqn:Ei; [|discriminate Ee]. cbn in Ee. apply (inj Some) in Ee.
    destruct (J7 _ _ _ Hk Ei) as (k' & j & Hst' & Hrec & Hrr & Hde). destruct (dyn_named _ _ _ _ _ _ Hde Hcs) as (d & Hd1 & Hd2).
    exists b, plt, g, rp, k', i, j, d. split; [exact Hb|]. split; [exact Hplt|]. split; [exact J2|]. split; [exact J3|]. split.
    - exists wd', v. split; [|exact Hrd]. rewrite <- Hps. cbn [psabi mbind option_bind]. rewrite <- Ee. unfold plt_entry_at. do 2 f_equal. lia.
    - split; [exact Hst'|split; [exact Hrr|exists ds, sd; done]].
  Qed.
  Lemma got_rel : ty = 41 \/ ty = 42 -> exists b got rdy recs o j d, the_sec w secs (si_name x) b /\ the_sec w secs ".got" got /\ the_sec w secs ".rela.dyn" rdy /\
    field_is b (field_off off q) ty 0 (rel_addend q) (Some (Z.of_N (addr got + o))) None /\ o + 8 <= filesz got /\
    rd_relas (contents rdy) = Some recs /\ filter (fun r => reloc_type r = 6 /\ r_offset r = addr got + o) recs = [dyn_record (addr got + o) j 6] /\ dynsym_entry w secs n j d.
  Proof using All.
    intros Hty. destruct (good_rel G L Hnn x q off n Hx Hxn Hxd Hq Hoff Hn) as (b & s & got & plt & k & ss & Hb & _ & He & Hk & Hss & Hcs & Hgot & _ & _ & Hd & H & _). destruct (Hd Hn0 Hst Hbq Hod Hld) as [Hdyn Hun].
    destruct (good_glob_dat G) as (got' & rdy & ss' & ds & sd & recs & J1 & J2 & J3 & J4 & J5 & J6 & _ & J7 & _).
    assert (got' = got) as -> by (eapply the_one; [exact Hgot|exact J1]). assert (ss' = ss) as -> by (eapply the_one; [exact Hss|exact J3]).
    rewrite decide_False in H by (intros [_ E]; rewrite E in Hdyn; by destruct Hdyn). fold ty in H.
    destruct H as (S & HS & Hf); [destruct Hty as [-> | ->]; apply (bool_decide_unpack _); vm_compute; exact I|intros [_ E]; rewrite E in Hdyn; by destruct Hdyn|]. destruct Hf as (wd' & v & Hps & Hrd).
    destruct (slot_of s (addr got)) as [e|] eqn:Ee; [|destruct Hty as [E|E]; rewrite E in Hps; discriminate Hps]. unfold slot_of in Ee. destruct (s_in_got s) as [o|] eqn:Ei; [|discriminate Ee]. cbn in Ee. apply (inj Some) in Ee.
    destruct (J7 _ _ _ Hk Hdyn Ei) as (Hbd & j & Hde & Hf). destruct (dyn_named _ _ _ _ _ _ Hde Hcs) as (d & Hd1 & Hd2).
    exists b, got, rdy, recs, o, j, d. split; [exact Hb|]. split; [exact Hgot|]. split; [exact J2|]. split; [|split; [exact Hbd|split; [exact J6|split; [exact Hf|exists ds, sd; done]]]].
    exists wd', v. split; [|exact Hrd]. rewrite <- Hps, <- Ee. replace (Z.of_N (addr got + o)) with (Z.of_N o + Z.of_N (addr got))%Z by lia. destruct Hty as [-> | ->]; reflexivity.
  Qed.
  Lemma copied_rel : ty ∈ direct -> exists b j d, the_sec w secs (si_name x) b /\ dynsym_entry w secs n j d /\
    field_is b (field_off off q) ty (Z.of_N (st_value d)) (rel_addend q) None None.
  Proof using All.
    intros Hty. destruct (good_rel G L Hnn x q off n Hx Hxn Hxd Hq Hoff Hn) as (b & s & got & plt & k & ss & Hb & _ & He & Hk & Hss & Hcs & _ & _ & _ & Hd & H & _). destruct (Hd Hn0 Hst Hbq Hod Hld) as [[dr Hdyn] Hun].
    destruct (good_dynamic G _ _ _ Hk Hdyn) as (ss' & ds & sd & j & dd & J1 & J2 & J3 & J4 & J5 & nm & J6 & J7). assert (ss' = ss) as -> by (eapply the_one; [exact Hss|exact J1]). rewrite Hcs in J6. injection J6 as <-.
    exists b, j, (s_sym dd). split; [exact Hb|]. split; [exists ds, sd; done|].
    assert (H4 : ty <> 4) by (revert Hty; clear; intros H E; rewrite E in H; revert H; apply (bool_decide_unpack _); vm_compute; exact I).
    rewrite decide_False in H by (intros [? _]; by apply H4). fold ty in H. destruct (near_field ty (or_intror Hty)) as (E & E1 & E2 & E3). unfold near_type in *. rewrite decide_False in * by done.
    destruct H as (S & HS & Hf); [exact E1|intros [[?|?] _]; [exact (E2 ltac:(assumption))|exact (E3 ltac:(assumption))]|].
    unfold target_value in HS. rewrite decide_True in HS by done. rewrite Hdyn, J4 in HS. injection HS as <-. by eapply field_direct.
  Qed.
End users.
