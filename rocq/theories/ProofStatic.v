(** What the stages after input keep of every symbol. *)
From Verif Require Export ProofFile.

(** [f] of every named symbol is the same in both tables. *)
Definition keeps {X} (f : symbol -> X) (t t' : symtab) : Prop := f <$> syt_symbols t' = f <$> syt_symbols t.
Lemma keeps_refl {X} (f : symbol -> X) t : keeps f t t.
Proof. reflexivity. Qed.
Lemma keeps_trans {X} (f : symbol -> X) a b c : keeps f a b -> keeps f b c -> keeps f a c.
Proof. unfold keeps. congruence. Qed.
Lemma keeps_alter {X} (f : symbol -> X) g n (m : gmap N symbol) : (forall s, f (g s) = f s) -> f <$> alter g n m = f <$> m.
Proof.
  intros Hg. apply map_eq. intros i. rewrite !lookup_fmap. destruct (decide (i = n)) as [->|Hne].
  - rewrite lookup_alter. destruct (m !! n) as [s|]; [|reflexivity]. cbn. by rewrite Hg.
  - by rewrite lookup_alter_ne.
Qed.
Lemma keeps_modify {X} (f : symbol -> X) t r g : (forall s, f (g s) = f s) -> keeps f t (syt_modify t r g).
Proof. intros Hg. unfold keeps, syt_modify. destruct r; [cbn; by apply keeps_alter|reflexivity]. Qed.
Lemma keeps_fold {X A} (f : symbol -> X) (g : symtab -> A -> symtab) l t : (forall t a, keeps f t (g t a)) -> keeps f t (fold_left g l t).
Proof. intros Hf. revert t. induction l as [|a l IH]; intros t; [apply keeps_refl|]. simpl. eapply keeps_trans; [apply Hf|apply IH]. Qed.
Lemma keeps_lookup {X} (f : symbol -> X) t t' n s' : keeps f t t' -> syt_symbols t' !! n = Some s' -> exists s, syt_symbols t !! n = Some s /\ f s' = f s.
Proof.
  intros H Hn. assert (E : (f <$> syt_symbols t') !! n = (f <$> syt_symbols t) !! n) by (by rewrite H). rewrite !lookup_fmap, Hn in E.
  destruct (syt_symbols t !! n) as [s|]; [|discriminate E]. cbn in E. apply (inj Some) in E. eauto.
Qed.
Lemma keeps_lookup' {X} (f : symbol -> X) t t' n s : keeps f t t' -> syt_symbols t !! n = Some s -> exists s', syt_symbols t' !! n = Some s' /\ f s' = f s.
Proof.
  intros H Hn. assert (E : (f <$> syt_symbols t') !! n = (f <$> syt_symbols t) !! n) by (by rewrite H). rewrite !lookup_fmap, Hn in E.
  destruct (syt_symbols t' !! n) as [s'|]; [|discriminate E]. cbn in E. apply (inj Some) in E. eauto.
Qed.

(** A field untouched by final addresses and by relocation records. *)
Class settled {X} (f : symbol -> X) : Prop := {
  st_val : forall s v, f (s <| s_sym := s_sym s <| st_value := v |> |>) = f s;
  st_shn : forall s v, f (s <| s_sym := s_sym s <| st_shndx := v |> |>) = f s;
  st_rel : forall s v, f (s <| s_relocation_offset := v |>) = f s }.
(** A field untouched by handing out slots. *)
Class unslotted {X} (f : symbol -> X) : Prop := {
  st_got : forall s v, f (s <| s_in_got := v |>) = f s;
  st_plt : forall s v v', f (s <| s_in_got_plt := v |> <| s_in_plt := v' |>) = f s }.

Section keep.
  Context {X : Type} (f : symbol -> X).
  Lemma keeps_scan `{!unslotted f} w w' : scan_relocations w = Ok w' -> keeps f (w_symtab w) (w_symtab w').
  Proof.
    intros H. destruct (scan_flat _ _ H) as (st & Hs & ->). cbn.
    assert (G : keeps f (sn_symbols (mkScan (w_symtab w) (w_got_len w) (w_got_plt w) (w_plt w))) (sn_symbols st)); [|exact G].
    revert Hs. generalize (mkScan (w_symtab w) (w_got_len w) (w_got_plt w) (w_plt w)). generalize (all_relocs (w_sections w')). intros k' s Hs.
    apply (mapM_st_trace (fun _ _ t' => keeps f (sn_symbols s) (sn_symbols t'))) in Hs; [exact Hs|apply keeps_refl|].
    intros _ _ _ t1 [rel r] t2 a' _ H1 H2. eapply keeps_trans; [exact H1|]. clear -H2 unslotted0. unfold scan_reloc in H2. cbv zeta in H2.
    destruct (needs_got _).
    - apply bind_Ok in H2 as (y & _ & H2). destruct (s_in_got y); injection H2 as <- <-; [apply keeps_refl|]. cbn. apply keeps_modify. intros. apply st_got.
    - destruct (_ =? _); [|injection H2 as <- <-; apply keeps_refl]. apply bind_Ok in H2 as (y & _ & H2).
      destruct (s_dynamic y); [|injection H2 as <- <-; apply keeps_refl]. destruct (or_insert _ _ _) as [gp off], (plt_insert _ _) as [pl ix]. injection H2 as <- <-. cbn. apply keeps_modify. intros. apply st_plt.
  Qed.
  Context `{!settled f}.
  Lemma keeps_patch s t : keeps f t (patch_symbol_values s t).
  Proof using settled0.
    unfold patch_symbol_values. generalize (sh_addr (sc_sh s)). generalize (sc_chunks s). intros cs. revert t.
    induction cs as [|c cs IH]; intros t base; [apply keeps_refl|]. simpl. eapply keeps_trans; [|apply IH]. apply keeps_fold. intros t1 r. apply keeps_modify.
    intros y. unfold patch_symbol. destruct r as [n|sh i].
    - cbn. etransitivity; [|apply (st_shn y (u16 (sc_index s)))]. etransitivity; [|apply (st_val (y <| s_sym := s_sym y <| st_shndx := u16 (sc_index s) |> |>) (st_value (s_sym y) + base))].
      f_equal. 
    - cbn. etransitivity; [|apply (st_shn y (u16 (sc_index s)))]. etransitivity; [|apply (st_val (y <| s_sym := s_sym y <| st_shndx := u16 (sc_index s) |> |>) (base))].
      f_equal.
  Qed.
  Lemma keeps_bound sn a b t s t' s' : bound_symbols sn a b t s = Ok (t', s') -> keeps f t t'.
  Proof using settled0.
    unfold bound_symbols. intros H. apply bind_Ok in H as (s1 & _ & H). destruct (st_get sn b); [|injection H as <- <-; apply keeps_refl].
    apply bind_Ok in H as (x & _ & H). destruct (sc_chunks s1); [discriminate H|]. injection H as <- <-. apply (keeps_modify f t (RNamed _)). intros. apply st_val.
  Qed.
  Lemma keeps_special_step sn secn skip t s t' s' : special_step sn secn skip t s = Ok (t', s') -> keeps f t t'.
  Proof using settled0.
    unfold special_step. destruct (bool_decide _); [intros [= <- <-]; apply keeps_refl|].
    destruct (bool_decide _); [apply keeps_bound|]. destruct (bool_decide _); [apply keeps_bound|]. intros [= <- <-]; apply keeps_refl.
  Qed.
  Lemma keeps_special w w' : handle_special_symbols w = Ok w' -> keeps f (w_symtab w) (w_symtab w') /\ keeps f (w_dynsym w) (w_dynsym w').
  Proof using settled0.
    unfold handle_special_symbols. intros H. apply bind_Ok in H as ([t secs] & H & [= <-]). cbn.
    assert (Hg : keeps f (w_symtab w) (w_symtab (set_got_symbol w)) /\ w_dynsym (set_got_symbol w) = w_dynsym w).
    { unfold set_got_symbol. destruct (st_get _ _); [|split; [apply keeps_refl|reflexivity]]. split; [|reflexivity]. cbn. apply (keeps_modify f _ (RNamed _)). intros y.
      etransitivity; [|apply (st_shn y (match get_section id_got_plt (w_sections w) with Some s => u16 (sc_index s) | None => 0 end))].
      etransitivity; [|eapply st_val]. reflexivity. }
    destruct Hg as [Hg Hd]. split.
    - eapply keeps_trans; [exact Hg|]. apply (mapM_st_trace (fun _ _ t' => keeps f (w_symtab (set_got_symbol w)) t')) in H; [exact H|apply keeps_refl|].
      intros pre pre' post t1 a t2 a' _ H1 Hs. eapply keeps_trans; [exact H1|]. eapply keeps_special_step; exact Hs.
    - rewrite Hd. unfold keeps. cbn. rewrite <- map_fmap_compose. apply map_fmap_ext. intros i y _. unfold compose.
      destruct (is_object y); [|reflexivity].
      set (v := st_value (s_sym y) + sh_addr (hdr_of id_copyrel secs)). set (ix := u16 _).
      etransitivity; [|apply (st_val y v)]. etransitivity; [|apply (st_shn (y <| s_sym := s_sym y <| st_value := v |> |>) ix)]. reflexivity.
  Qed.
  Lemma keeps_dynrel_step ix s n s' : dynrel_step ix s n = Ok s' -> f <$> dr_symbols s' = f <$> dr_symbols s /\ keeps f (dr_dynsym s) (dr_dynsym s').
  Proof using settled0.
    unfold dynrel_step. destruct (dr_symbols s !! n) as [sym|]; [|intros [= <-]; by split]. destruct (s_dynamic sym) as [d|]; [|intros [= <-]; by split].
    intros H. apply bind_Ok in H as (i & _ & H). apply bind_Ok in H as (ds & _ & [= <-]).
    assert (E : forall x : dynrel_state, f <$> dr_symbols x = f <$> dr_symbols s -> keeps f (dr_dynsym s) (dr_dynsym x) ->
      let y := match s_in_got_plt sym with
               | Some offset => x <| dr_symbols := alter (fun s => s <| s_relocation_offset := Some (blen (dr_plt_rels x)) |>) n (dr_symbols x) |>
                      <| dr_plt_rels := dr_plt_rels x ++ [rela offset (N.of_nat i) R_X86_64_JUMP_SLOT] |>
               | None => x end in f <$> dr_symbols y = f <$> dr_symbols s /\ keeps f (dr_dynsym s) (dr_dynsym y)).
    { intros x H1 H2. destruct (s_in_got_plt sym); cbn; [|by split]. split; [|exact H2]. rewrite keeps_alter; [exact H1|]. intros. apply st_rel. }
    apply E; clear E.
    - destruct (is_object ds), (s_in_got sym); reflexivity.
    - destruct (is_object ds), (s_in_got sym); cbn; try apply keeps_refl; apply keeps_modify; intros; apply st_val.
  Qed.
  Lemma keeps_dynrel ix l s s' : foldM (dynrel_step ix) l s = Ok s' -> f <$> dr_symbols s' = f <$> dr_symbols s /\ keeps f (dr_dynsym s) (dr_dynsym s').
  Proof using settled0.
    revert s. induction l as [|n l IH]; intros s H; simpl in H; [injection H as <-; by split|]. apply bind_Ok in H as (s1 & H1 & H).
    apply keeps_dynrel_step in H1 as [E1 E2]. apply IH in H as [E3 E4]. split; [congruence|]. eapply keeps_trans; [exact E2|exact E4].
  Qed.
End keep.

Section stages.
  Context {wd : world} {lo : lib_oracle} {l : linker} {fuel : nat} {w : writer} {secs : list section}
    {w0 wr ws w1 : writer} {extra : N} {null : section} {rest rest' : list section} {st : layout} {w3 w4 w5 w6 w7 : writer}
    {null' : section} {out : list section}.
  Context (O : outcome wd lo l fuel w secs w0 wr ws w1 extra null rest rest' st w3 w4 w5 w6 w7 null' out).
  Context {X : Type} (f : symbol -> X) `{!settled f}.

  Lemma keeps_sized : keeps f (w_symtab ws) (w_symtab w1) /\ keeps f (w_dynsym wr) (w_dynsym w1).
  Proof using O settled0.
    destruct (sz_rels _ _ _ _ _ (rn_sizing (oc_run O))) as (sd & Hd & Esy & Edy & _). apply (keeps_dynrel f) in Hd as [N1 N2]. cbn [dr_symbols dr_dynsym] in N1, N2.
    destruct (ws_fields O) as (_ & _ & _ & _ & F5). rewrite <- F5, Edy, Esy. split; [exact N1|exact N2].
  Qed.
  Lemma keeps_five : w_symtab w5 = w_symtab w1 /\ w_dynsym w5 = w_dynsym w1.
  Proof using O.
    destruct (run_w4 (oc_run O)) as (es & E4 & _). destruct (patch_plt_spec _ _ (rn_plt (oc_run O))) as [E5 K5].
    rewrite E5, E4, (rn_w3 (oc_run O)); split; reflexivity.
  Qed.
  Lemma keeps_late : keeps f (w_symtab w1) (w_symtab w6) /\ keeps f (w_symtab w1) (w_symtab w) /\ keeps f (w_dynsym w1) (w_dynsym w).
  Proof using O settled0.
    destruct (run_fields (oc_run O)) as (_ & _ & _ & _ & _ & _ & Es & Ed & _). destruct keeps_five as [Es5 Ed5].
    destruct (patch_plt_spec _ _ (rn_plt (oc_run O))) as [E5 K5].
    destruct (keeps_special f _ _ (rn_special (oc_run O))) as [M1 M2]. rewrite Es5 in M1. rewrite Ed5 in M2.
    destruct (special_spec _ _ (rn_special (oc_run O))) as [E6 K6].
    assert (K56 : Forall2 kept (w_sections w5) (w_sections w6)) by (eapply Forall2_impl; [exact K6|]; by intros ? ? [? _]).
    rewrite (w4_sections O), (run_w3_secs (oc_run O)) in K5. pose proof (F2_kept_trans _ _ _ K5 K56) as K36.
    destruct (F2_kept_head _ _ _ K36) as (n6 & r6 & Es6 & Kn6 & Kr6).
    destruct (handle_relocs_spec _ _ _ _ Es6 (rn_rel (oc_run O))) as (t & r7 & E7 & Et & F7).
    split; [exact M1|]. split; [|rewrite Ed; exact M2].
    rewrite Es. eapply keeps_trans; [exact M1|]. rewrite E7. cbn [w_symtab].
    change (keeps f (w_symtab w6) t). rewrite Et. apply keeps_fold. intros t1 s1. destruct (relocatable w6 s1); [apply (keeps_patch f)|apply keeps_refl].
  Qed.
  Lemma keeps_end : keeps f (w_symtab ws) (w_symtab w) /\ keeps f (w_dynsym wr) (w_dynsym w).
  Proof using O settled0.
    destruct keeps_sized as [A1 A2], keeps_late as (_ & B1 & B2). split; [exact (keeps_trans f _ _ _ A1 B1)|exact (keeps_trans f _ _ _ A2 B2)].
  Qed.
  Lemma keeps_all `{!unslotted f} : keeps f (w_symtab wr) (w_symtab w) /\ keeps f (w_dynsym wr) (w_dynsym w).
  Proof using O settled0.
    destruct keeps_end as [A1 A2]. split; [|exact A2]. eapply keeps_trans; [|exact A1]. exact (keeps_scan f _ _ (sz_scan _ _ _ _ _ (rn_sizing (oc_run O)))).
  Qed.
End stages.

(** What never changes after input. *)
Definition sym_static (s : symbol) : N * N * N * N * N * N * string * option symref :=
  (st_name (s_sym s), st_info (s_sym s), st_other (s_sym s), st_size (s_sym s), s_hash s, s_gnu_hash s, s_reference s, s_dynamic s).
Global Instance static_settled : settled sym_static.
Proof. split; reflexivity. Qed.
Global Instance static_unslotted : unslotted sym_static.
Proof. split; reflexivity. Qed.
(** The slots, once handed out. *)
Definition sym_slots (s : symbol) : option N * option N * option N := (s_in_got s, s_in_plt s, s_in_got_plt s).
Global Instance slots_settled : settled sym_slots.
Proof. split; reflexivity. Qed.
