(** Arrays of functions (C79). *)
From Verif Require Import SpecInit ProofExec ProofImage ProofBind ProofHist ProofMerge PropMerge PropSyms PropFields ProofDyn PropLayout PropFile ProofLoader ProofCall ProofProg.

Lemma last_same es t v : (forall e : N * N, e ∈ es -> e.1 = t -> e.2 = v) -> (t, v) ∈ es -> last_value es t = Some v.
Proof.
  intros H Hin. unfold last_value. assert (K : forall q : list (N * N), q <> [] -> (forall e, e ∈ q -> e.2 = v) -> last q.*2 = Some v).
  { induction q as [|a q IH]; intros Hn Hq; [done|]. destruct q as [|b q]; [cbn; by rewrite (Hq a ltac:(left))|]. rewrite !fmap_cons in *. cbn [last]. apply IH; [done|]. intros e He. apply Hq. by right. }
  apply K.
  - intros E. assert (F : (t, v) ∈ filter (fun e : N * N => e.1 = t) es) by (apply elem_of_list_filter; split; [reflexivity|exact Hin]). rewrite E in F. by apply elem_of_nil in F.
  - intros e He. apply elem_of_list_filter in He as [E He]. by apply H.
Qed.
Lemma last_none es t : (forall e : N * N, e ∈ es -> e.1 <> t) -> last_value es t = None.
Proof.
  intros H. unfold last_value. destruct (filter (fun e : N * N => e.1 = t) es) as [|a q] eqn:E; [reflexivity|]. exfalso. assert (Ha : a ∈ a :: q) by left. rewrite <- E in Ha. apply elem_of_list_filter in Ha as [E1 Ha]. by apply (H a).
Qed.
Lemma words_of m a (data : bytes) n : holds m a data -> (8 * n <= length data)%nat -> exists vs, words_at m a n = Some vs /\ length vs = n /\ forall k, (k < n)%nat -> vs !! k = word m (a + 8 * N.of_nat k).
Proof.
  intros H Hl. assert (G : forall n a0, (forall k, (k < n)%nat -> exists v, word m (a0 + 8 * N.of_nat k) = Some v) -> exists vs, words_at m a0 n = Some vs /\ length vs = n /\ forall k, (k < n)%nat -> vs !! k = word m (a0 + 8 * N.of_nat k)).
  { clear. induction n as [|n IH]; intros a0 H; [exists []; split; [reflexivity|]; split; [reflexivity|]; intros; lia|]. destruct (H 0%nat) as [v Hv]; [lia|]. replace (a0 + 8 * N.of_nat 0) with a0 in Hv by lia.
    destruct (IH (a0 + 8)) as (vs & E & L & K). { intros k Hk. destruct (H (S k)) as [v' Hv']; [lia|]. exists v'. rewrite <- Hv'. f_equal. lia. }
    exists (v :: vs). cbn [words_at]. rewrite Hv. cbn [mbind option_bind]. rewrite E. cbn [mbind option_bind]. split; [reflexivity|]. split; [cbn; by rewrite L|]. intros [|k] Hk; cbn [lookup list_lookup]; [rewrite <- Hv; f_equal; lia|].
    change (vs !! k = word m (a0 + 8 * N.of_nat (S k))). rewrite K by lia. f_equal. lia. }
  apply G. intros k Hk. exists (le_val (take 8 (drop (8 * k) data))). apply (holds_word m a data); [exact H|]. apply rd_Some. left. split; [lia|]. do 3 f_equal. lia.
Qed.
Definition no_arrays_b (hs : ModelWriter.hash_style) : bool := forallb (fun r : string * N * bool * N => negb (r.1.1.2 =? 14) && negb (r.1.1.2 =? 15)) (own_rows hs).
Lemma no_arrays hs i n ty al e : own_rows hs !! i = Some (n, ty, al, e) -> ty <> 14 /\ ty <> 15.
Proof.
  intros Hi. assert (HB : no_arrays_b hs = true) by (destruct hs; vm_compute; reflexivity). unfold no_arrays_b in HB. rewrite forallb_forall in HB.
  apply elem_of_list_lookup_2, elem_of_list_In, HB in Hi. cbn [fst snd] in Hi. apply andb_true_iff in Hi as [H1 H2]. apply negb_true_iff, N.eqb_neq in H1, H2. by split.
Qed.

Section init.
  Context {wd : world} {lo : lib_oracle} {l : linker} {fuel : nat} {w : writer} {secs : list section} {data : bytes}.
  Context (R : runnable wd lo l fuel w secs data).
  Let G := rn_good _ _ _ _ _ _ _ R.

  (** The table is the contents of .dynamic. *)
  Lemma dyn_read env p : alive env w secs p -> exists d needed facts, d ∈ secs /\ dynamic_table p = Some (needed ++ facts ++ [(0, 0)]) /\ Forall (fun e => e.1 = 1) needed /\
    (forall e, e ∈ facts -> exists s, s ∈ secs /\ states w s e) /\
    (forall s e, s ∈ secs -> states w s e -> (forall n, sec_name w s = Some n -> n ∈ [".init"; ".fini"] -> e.1 ∈ [12; 13]) -> e ∈ facts).
  Proof using R.
    intros A. destruct (C38 _ _ _ _ _ _ (gl_oracle _ _ _ _ _ _ G) (gl_links _ _ _ _ _ _ G) (gl_inputs _ _ _ _ _ _ G) (proj1 (gl_names _ _ _ _ _ _ G)) (rn_fit _ _ _ _ _ _ _ R)) as (d & needed & facts & Hd & Ht & Hone & Hrd & Hsz & Hnd & Hf1 & Hf2 & _).
    exists d, needed, facts. split; [exact Hd|]. split; [|split; [exact Hnd|split; [exact Hf1|exact Hf2]]].
    destruct (tables R) as (es & d' & ds & sd & rdy & rp & g & S). pose proof (se_d _ _ _ _ _ _ _ _ _ S) as Td. assert (d' = d) as ->.
    { symmetry. apply (proj2 (proj2 Td)); [exact Hd|]. exact (proj1 (typed R d Hd) Ht). }
    destruct (C34_partial _ _ _ _ _ _ (gl_oracle _ _ _ _ _ _ G) (gl_links _ _ _ _ _ _ G) (gl_inputs _ _ _ _ _ _ G) (proj1 (gl_names _ _ _ _ _ _ G))) as [_ (d' & ph & Hd' & Ht' & Hf & Q1 & _ & _ & Q4)].
    assert (d' = d) as -> by (apply Hone; assumption). unfold dynamic_table. rewrite (al_phs _ _ _ _ A), Hf, Q1, Q4. destruct (got_kind R _ d Td ltac:(member)) as (_ & Kn & _).
    rewrite (holds_peek_all _ _ _ _ (memory_intact R p d Hd Kn (al_dyn _ _ _ _ A d Td)) (sec_length R d Hd Kn)). exact Hrd.
  Qed.
  (** Sections of these types come from inputs. *)
  Lemma array_home es evs ty s : loading wd lo l fuel es evs -> ty = 14 \/ ty = 15 -> s ∈ secs -> sh_type (sc_sh s) = ty ->
    exists n x, sec_name w s = Some n /\ n ∉ reserved /\ head (contribs n (all_secs es)) = Some x /\ sh_type (si_sh x) = ty /\ n <> "".
  Proof using R.
    intros L Hty Hs Et. destruct (links_outcome _ _ _ _ _ _ (gl_links _ _ _ _ _ _ G)) as (w0 & wr & ws & w1 & extra & null & rest & rest' & st & w3 & w4 & w5 & w6 & w7 & null' & out & O).
    destruct (secs_class O (proj2 (gl_links _ _ _ _ _ _ G)) (gl_oracle _ _ _ _ _ _ G) (gl_inputs _ _ _ _ _ _ G) s (proj1 (gl_names _ _ _ _ _ _ G)) Hs) as (n & Hn & [(e & Hr)|(Hnr & _ & Hge)]).
    - apply no_arrays in Hr. exfalso. destruct Hr, Hty; congruence.
    - destruct (decide (n = "")) as [->|Hne].
      + exfalso. pose proof (proj2 (gl_links _ _ _ _ _ _ G)) as Fin. rewrite (oc_secs O) in Hs. apply elem_of_cons in Hs as [->|Hs].
        { destruct (null_facts O) as (N0 & _). rewrite N0 in Hge. pose proof (n0_ge O). lia. }
        apply elem_of_list_lookup in Hs as [k Hk]. destruct (history O Fin (gl_oracle _ _ _ _ _ _ G)) as (pd & gd & _ & Hh). destruct (Hh k s Hk) as (a0 & a1 & a3 & a6 & a7 & HH).
        pose proof (oc_winv O) as HI. destruct (wi_names _ _ _ HI (sc_id s) a0 Hge (h_wr HH)) as (n2 & o2 & H1 & H2).
        assert (Hn2 : sec_name w s = Some n2).
        { unfold sec_name. destruct (hist_decl _ _ _ _ _ _ _ _ _ HH) as (D0 & _). rewrite (decl_name _ _ D0), H2, (names_w O). eapply entry_name; [exact (wi_st _ _ _ HI)| |exact H1]. destruct (gl_names _ _ _ _ _ _ G) as [Ht _]. by rewrite (names_w O) in Ht. }
        rewrite Hn in Hn2. injection Hn2 as <-. destruct (ok_first _ (st_reach_ok _ (wi_st _ _ _ HI))) as (tl & Ht).
        assert (E0 : sc_id s = 0%nat) by (eapply (names_unique _ _ _ _ _ _ _ _ HI); [exact H1|]; rewrite Ht; reflexivity). pose proof (n0_ge O). lia.
      + pose proof (C40_only _ _ _ _ _ _ _ _ s n G L Hs Hn Hne Hnr) as Hc. destruct (C40_partial _ _ _ _ _ _ _ _ n G L Hne Hc) as (s' & Ts' & _ & _ & (x & Hx & Hxt & _) & _).
        assert (s' = s) as -> by (symmetry; by apply (proj2 (proj2 Ts'))). exists n, x. split; [exact Hn|]. split; [exact Hnr|]. split; [exact Hx|]. split; [congruence|exact Hne].
  Qed.
  Lemma array_one es evs ty n : loading wd lo l fuel es evs -> ty = 14 \/ ty = 15 -> one_array es ty n ->
    exists s, the_sec w secs n s /\ sh_type (sc_sh s) = ty /\ n ∉ reserved /\ alloc s = true /\ memsz s = array_bytes es n /\ (forall s', s' ∈ secs -> sh_type (sc_sh s') = ty -> s' = s).
  Proof using R.
    intros L Hty [[Hn Hni] Hs Ht Hl]. destruct (C40_partial _ _ _ _ _ _ _ _ n G L Hn Hs) as (s & Ts & Hm & _ & (x & Hx & Hxt & Hxf) & _).
    assert (Hxn : x ∈ all_secs es /\ si_name x = n). { apply head_Some_elem_of, elem_of_list_filter in Hx. tauto. }
    assert (Et : sh_type (sc_sh s) = ty) by (rewrite Hxt; apply Ht; tauto).
    destruct (array_home es evs ty s L Hty (proj1 Ts) Et) as (n' & x' & Hn' & Hnr & _). rewrite (proj1 (proj2 Ts)) in Hn'. injection Hn' as <-.
    exists s. split; [exact Ts|]. split; [exact Et|]. split; [exact Hnr|]. split; [unfold alloc; rewrite Hxf; apply Hl; by apply head_Some_elem_of|]. split; [exact Hm|].
    intros s' Hs' Et'. destruct (array_home es evs ty s' L Hty Hs' Et') as (n2 & x2 & Hn2 & _ & Hx2 & Hxt2 & _). apply head_Some_elem_of, elem_of_list_filter in Hx2 as [E2 Hx2].
    apply (proj2 (proj2 Ts)); [exact Hs'|]. rewrite Hn2. f_equal. rewrite <- E2. by apply (Ht x2 Hx2).
  Qed.
  Lemma array_tags es evs ty t tsz n s env p : loading wd lo l fuel es evs -> (ty, t, tsz) ∈ array_kinds -> one_array es ty n -> the_sec w secs n s -> alive env w secs p ->
    calls p t tsz = words_at (pr_mem p) (addr s) (N.to_nat (memsz s / 8)).
  Proof using R.
    intros L Hk OA Ts A. destruct (dyn_read env p A) as (d & needed & facts & _ & Hd & Hnd & Hf1 & Hf2).
    assert (Hty : ty = 14 \/ ty = 15) by (unfold array_kinds in Hk; rewrite !elem_of_cons, elem_of_nil in Hk; destruct Hk as [E|[E|[]]]; injection E as -> _ _; [by left|by right]).
    destruct (array_one es evs ty n L Hty OA) as (s' & Ts' & Et & _ & _ & _ & H1). pose proof (the_one _ _ _ _ _ Ts Ts'). subst s'.
    assert (K : last_value (needed ++ facts ++ [(0, 0)]) t = Some (addr s) /\ last_value (needed ++ facts ++ [(0, 0)]) tsz = Some (memsz s)).
    { assert (B : forall q v, (forall s' u, states w s' (q, u) -> sh_type (sc_sh s') = ty /\ (s' = s -> u = v)) -> states w s (q, v) -> q <> 1 -> q <> 0 -> last_value (needed ++ facts ++ [(0, 0)]) q = Some v).
      { intros q v B1 B2 Q1 Q0. apply last_same.
        - intros [q' u] He Eq. cbn [fst snd] in *. subst q'. rewrite !elem_of_app, elem_of_list_singleton in He. destruct He as [He|[He|He]].
          + apply (proj1 (Forall_forall _ _) Hnd) in He. cbn in He. contradiction.
          + destruct (Hf1 _ He) as (s' & Hs' & St). destruct (B1 _ _ St) as [B3 B4]. apply B4. by apply H1.
          + injection He as -> ->. contradiction.
        - rewrite !elem_of_app. right. left. apply (Hf2 s); [exact (proj1 Ts)|exact B2|]. intros m Hm Hin. exfalso. rewrite (proj1 (proj2 Ts)) in Hm. injection Hm as <-. exact (proj2 (oa_name _ _ _ OA) Hin). }
      unfold array_kinds in Hk. rewrite !elem_of_cons, elem_of_nil in Hk. destruct Hk as [E|[E|[]]]; injection E as -> -> ->; split; (apply B; [|split; [exact Et|reflexivity]|discriminate|discriminate]); intros s' u [U1 U2]; cbn [snd] in U2; (split; [exact U1|]; intros ->; exact U2). }
    unfold calls. rewrite Hd. cbn [mbind option_bind]. destruct K as [-> ->]. reflexivity.
  Qed.
  Lemma no_tags es evs ty t tsz env p : loading wd lo l fuel es evs -> (ty, t, tsz) ∈ array_kinds -> (forall x, x ∈ all_secs es -> sh_type (si_sh x) <> ty) -> alive env w secs p -> calls p t tsz = Some [].
  Proof using R.
    intros L Hk HN A. destruct (dyn_read env p A) as (d & needed & facts & _ & Hd & Hnd & Hf1 & _). unfold calls. rewrite Hd. cbn [mbind option_bind].
    assert (Hty : ty = 14 \/ ty = 15) by (unfold array_kinds in Hk; rewrite !elem_of_cons, elem_of_nil in Hk; destruct Hk as [E|[E|[]]]; injection E as -> _ _; [by left|by right]).
    rewrite last_none; [reflexivity|]. intros [q u] He Eq. cbn [fst] in Eq. subst q. rewrite !elem_of_app, elem_of_list_singleton in He.
    assert (Q : t <> 1 /\ t <> 0 /\ forall s, states w s (t, u) -> sh_type (sc_sh s) = ty).
    { unfold array_kinds in Hk. rewrite !elem_of_cons, elem_of_nil in Hk. destruct Hk as [E|[E|[]]]; injection E as -> -> ->; (split; [discriminate|split; [discriminate|]]); intros s [U1 _]; exact U1. }
    destruct Q as (Q1 & Q2 & Q3). destruct He as [He|[He|He]].
    - apply (proj1 (Forall_forall _ _) Hnd) in He. cbn in He. contradiction.
    - destruct (Hf1 _ He) as (s & Hs & St). destruct (array_home es evs ty s L Hty Hs (Q3 s St)) as (n & x & _ & _ & Hx & Hxt & _). apply head_Some_elem_of, elem_of_list_filter in Hx as [_ Hx]. exact (HN x Hx Hxt).
    - injection He as -> _. contradiction.
  Qed.
  Lemma array_called es evs ty t tsz n env : loading wd lo l fuel es evs -> (ty, t, tsz) ∈ array_kinds -> one_array es ty n -> no_objects w secs -> proper env (w_program_headers w) ->
    exists p s vs, start env data = Some p /\ the_sec w secs n s /\ in_memory p s /\ calls p t tsz = Some vs /\ N.of_nat (length vs) = array_bytes es n / 8 /\
      forall k, N.of_nat k < array_bytes es n / 8 -> vs !! k = word (pr_mem p) (addr s + 8 * N.of_nat k).
  Proof using R.
    intros L Hk OA NO PE. assert (Hty : ty = 14 \/ ty = 15) by (unfold array_kinds in Hk; rewrite !elem_of_cons, elem_of_nil in Hk; destruct Hk as [E|[E|[]]]; injection E as -> _ _; [by left|by right]).
    destruct (array_one es evs ty n L Hty OA) as (s & Ts & Et & Hnr & Ha & Hm & _). destruct (started R env NO PE) as (p & Hp & A & M & _).
    assert (Im : in_memory p s). { apply M; [exact (proj1 Ts)|exact Ha|]. intros m Em. rewrite (proj1 (proj2 Ts)) in Em. injection Em as <-. intros Hin. apply Hnr. revert Hin. clear. rewrite !elem_of_cons, elem_of_nil. intros [ ->|[ ->|[ ->|[]]]]; apply (bool_decide_unpack _); vm_compute; exact I. }
    assert (Kn : is_nobits s = false). { unfold is_nobits. rewrite Et. destruct Hty as [-> | ->]; reflexivity. }
    destruct (words_of (pr_mem p) (addr s) (contents s) (N.to_nat (memsz s / 8)) (memory_intact R p s (proj1 Ts) Kn Im)) as (vs & Hv & Hl & Hw). { rewrite (sec_length R s (proj1 Ts) Kn). pose proof (N.mul_div_le (memsz s) 8 ltac:(discriminate)). lia. }
    exists p, s, vs. split; [exact Hp|]. split; [exact Ts|]. split; [exact Im|]. split; [rewrite (array_tags es evs ty t tsz n s env p L Hk OA Ts A); exact Hv|]. rewrite Hm in *. split; [rewrite Hl; lia|]. intros k Hk'. apply Hw. lia.
  Qed.
End init.
