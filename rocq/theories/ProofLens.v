(** Sections through the stages of a link: string tables, chunks, sizes. *)
From Verif Require Export ProofHist.

(** * The string tables are built by interning *)
Definition names_reach (w : writer) : Prop := st_reach (w_strtab w) /\ st_reach (w_dynstr w).
Lemma goc_reach t n t' e : st_get_or_create t n = (t', e) -> st_reach t -> st_reach t'.
Proof. intros H Hr. replace t' with (intern t n) by (unfold intern; by rewrite H). by constructor. Qed.
Lemma inner_reach sym sr name ref t st secs t' st' secs' r : add_symbol_inner sym sr name ref t st secs = Ok (t', st', secs', r) -> st_reach t -> st_reach t'.
Proof.
  unfold add_symbol_inner. destruct (st_get_or_create t name) as [t1 e] eqn:E. intros H Hr. pose proof (goc_reach _ _ _ _ E Hr) as H1.
  destruct (syt_add_symbol _ _ _ _ _) as [[sy r0]|]; [|done]. destruct sr as [sr|]; [|by injection H as <- <- <- <-].
  destruct (_ =? _); [by injection H as <- <- <- <-|]. apply bind_Ok in H as (s2 & _ & H). by injection H as <- <- <- <-.
Qed.
Local Transparent writer_new.
Lemma writer_new_strs opts w : writer_new opts = Ok w -> names_reach w.
Proof.
  unfold writer_new. intros H. apply bind_Ok in H as (n & _ & H).
  pose proof (goc_reach st_default n _ _ (surjective_pairing _) reach_default) as Hn.
  destruct (st_get_or_create st_default n) as [dn ie]. simpl in Hn. cbv zeta in H.
  repeat lazymatch type of H with (let '(_, _) := ?x in _) = _ => destruct x end.
  injection H as <-. split; [constructor|exact Hn].
Qed.
Local Opaque writer_new.
Lemma resolve_reach wd lo l fuel w : resolve wd lo l fuel = Ok w -> names_reach w.
Proof.
  apply (resolve_inv wd l names_reach).
  - intros w1 e name sh data w' r [H1 H2] _ _ H. unfold add_section in H. destruct (st_get_or_create (w_shstrtab w1) name) as [nm en].
    cbv zeta in H. destruct (en_new en); [injection H as <- <-; done|]. apply bind_Ok in H as (s & _ & H).
    destruct data; [by injection H as <- <-|]. destruct (sc_chunks _); [done|by injection H as <- <-].
  - intros w1 e sym sr name ref w' r [H1 H2] _ _ _ H. unfold add_symbol in H. apply bind_Ok in H as ([[[nm sy] secs] r0] & Hi & [= <- <-]).
    split; [simpl; by eapply inner_reach|exact H2].
  - intros w1 rel r sr w' HP H. unfold add_relocation in H. cbv zeta in H. destruct (_ || _); [done|]. apply bind_Ok in H as (s & _ & [= <-]). exact HP.
  - intros w1 path e sym name so w' r [H1 H2] _ _ _ _ _ H. unfold add_dyn_symbol in H. cbv zeta in H. apply bind_Ok in H as ([[[nm sy] secs] r0] & Hi & H).
    apply inner_reach in Hi; [|exact H2].
    assert (HP : names_reach w').
    { destruct (st_get _ _); [apply bind_Ok in H as (x & _ & [= <- <-])|injection H as <- <-]; split; [exact H1|exact Hi|exact H1|exact Hi]. }
    clear -HP. destruct HP as [H1 H2]. unfold add_needed. destruct (st_get_or_create (w_dynstr w') so) as [nm en] eqn:E. pose proof (goc_reach _ _ _ _ E H2).
    destruct (en_new en); split; done.
  - intros w0 H0. by eapply writer_new_strs.
Qed.

(** * Chunks through the pipeline *)

(** Same data, same relocations. *)
Definition same_bytes (c c' : chunk) : Prop := c_data c' = c_data c /\ c_relocations c' = c_relocations c.
Lemma same_bytes_contents s s' : Forall2 same_bytes (sc_chunks s) (sc_chunks s') -> contents s' = contents s.
Proof. unfold contents. induction 1 as [|c c' cs cs' [H _] HF IH]; [done|]. rewrite !bind_cons. by rewrite H, IH. Qed.
Lemma same_bytes_trans a b c : same_bytes a b -> same_bytes b c -> same_bytes a c.
Proof. intros [? ?] [? ?]. split; congruence. Qed.
Definition quiet (s : section) : Prop := Forall (fun c => c_relocations c = []) (sc_chunks s).
Lemma quiet_same s s' : Forall2 same_bytes (sc_chunks s) (sc_chunks s') -> quiet s -> quiet s'.
Proof. unfold quiet. induction 1 as [|c c' cs cs' [_ H] HF IH]; [done|]. intros Hq. apply Forall_cons in Hq as [H1 H2]. constructor; [congruence|by apply IH]. Qed.
Lemma reloc_quiet w6 w7 s s' : reloc_fn w6 w7 s s' -> quiet s -> Forall2 same_bytes (sc_chunks s) (sc_chunks s').
Proof.
  intros [_ H] Hq. destruct (relocatable w6 s).
  - unfold quiet in Hq. revert H Hq. generalize (sc_chunks s) (sc_chunks s'). intros cs. induction cs as [|c cs IH]; intros cs' H Hq; simpl in H; [injection H as <-; constructor|].
    apply bind_Ok in H as (c' & Hc & H). apply bind_Ok in H as (cs1 & H1 & [= <-]). apply Forall_cons in Hq as [Q1 Q2]. constructor; [|by apply IH].
    unfold chunk_apply_relocations in Hc. rewrite Q1 in Hc. apply bind_Ok in Hc as (d & Hd & [= <-]). injection Hd as <-. done.
  - subst s'. clear. induction (sc_chunks s); by constructor.
Qed.
Lemma patched_other w4 pd gd s : sc_id s <> id_plt -> sc_id s <> id_got_plt -> patched_plt w4 pd gd s = s.
Proof. intros H1 H2. unfold patched_plt. rewrite (on_ne id_plt) by done. destruct (w_got_plt w4); [done|]. by rewrite on_ne. Qed.
Lemma on_eq id f s : sc_id s = id -> on id f s = f s.
Proof. intros H. unfold on. by rewrite (proj2 (Nat.eqb_eq _ _) H). Qed.

(** What sizing puts into the sections the linker makes: the new chunks and the size. *)
Definition made (o : oracle) (ws : writer) (h : option hashtab) (g : option gnutab) (nd np extra : N) (id : nat) (sy : option synth) (sz : N) : list chunk * N :=
  match sy with
  | Some KShstr => ([], stt_total_len (w_shstrtab ws))
  | Some KStr => ([], stt_total_len (w_strtab ws))
  | Some KDynstr => ([], stt_total_len (w_dynstr ws))
  | Some KSym => ([chunk_new (syt_chunk_data (o_sym o) (w_symtab ws))], syt_total_len (w_symtab ws))
  | Some KDynsym => ([chunk_new (syt_chunk_data (o_dyn o) (w_dynsym ws))], syt_total_len (w_dynsym ws))
  | Some KHash => ([chunk_new (ser_hashtab (default ht_default h))], blen (ser_hashtab (default ht_default h)))
  | Some KGnuHash => ([chunk_new (ser_gnutab (default gt_default g))], blen (ser_gnutab (default gt_default g)))
  | Some KPlt => ([chunk_new (plt_data (w_plt ws))], (blen (w_plt ws) + 1) * 16)
  | Some KCopyRel => ([], cr_size (w_copyrel ws))
  | None =>
      match id with
      | 5%nat => ([chunk_new (zeros (8 * w_got_len ws))], blen (zeros (8 * w_got_len ws)))
      | 6%nat => ([chunk_new (zeros (8 * (blen (w_got_plt ws) + 3)))], blen (zeros (8 * (blen (w_got_plt ws) + 3))))
      | 10%nat => ([], (blen (w_dyn_entries ws) + (extra + 1)) * 2 * 8)
      | 11%nat => ([], nd * 24)
      | 12%nat => ([], np * 24)
      | _ => ([], sz)
      end
  end.
(** How the linker's own sections are declared. *)
Definition own (id : nat) (sy : option synth) (ty : N) : Prop :=
  match id with
  | 1 => sy = Some KShstr | 2 => sy = Some KStr | 3 => sy = Some KDynstr | 7 => sy = Some KPlt | 8 => sy = Some KSym
  | 9 => sy = Some KDynsym | 13 => sy = Some KCopyRel
  | 0 | 4 | 5 | 6 | 10 | 11 | 12 => sy = None
  | _ => sy = None \/ sy = Some KHash \/ sy = Some KGnuHash
  end%nat /\ (ty = 11 <-> id = 9%nat).
Lemma size_made o ws h g nd np extra s : own (sc_id s) (sc_synth s) (sh_type (sc_sh s)) ->
  let m := made o ws h g nd np extra (sc_id s) (sc_synth s) (memsz s) in
  sc_chunks (size_fn o ws h g nd np extra s) = sc_chunks s ++ m.1 /\ memsz (size_fn o ws h g nd np extra s) = m.2.
Proof.
  destruct s as [id ix lk sy sh cs]. unfold own. cbn [sc_id sc_synth sc_sh sc_chunks]. intros [Hsy Hty].
  assert (H9 : id <> 9%nat -> (sh_type sh =? SHT_DYNSYM) = false).
  { intros Hn. apply N.eqb_neq. intros E. apply Hn, Hty, E. }
  assert (H9' : id = 9%nat -> (sh_type sh =? SHT_DYNSYM) = true) by (intros E; apply N.eqb_eq, Hty, E).
  Local Ltac fin H := unfold size_fn, pre_dynamic, on, add_zeros; cbn [sc_id sc_sh sc_synth Nat.eqb id_got id_got_plt id_plt id_dynsym id_dynrel id_pltrel id_dynamic sh_type];
    rewrite H by lia; cbn [sec_expand sc_synth]; split; [first [by rewrite app_nil_r|reflexivity]|reflexivity].
  do 5 (destruct id as [|id]; [subst sy; fin H9|]).
  destruct id as [|id].
  { subst sy. unfold size_fn, pre_dynamic. rewrite (on_eq id_got) by reflexivity. rewrite (on_ne id_got_plt), (on_ne id_dynsym) by discriminate. cbv beta.
    change (sh_type (sc_sh (add_zeros (8 * w_got_len ws) (mkSection 5 ix lk None sh cs)))) with (sh_type sh). rewrite H9 by lia.
    change (sec_expand o (ws <| w_hash := h |> <| w_gnu_hash := g |>) (add_zeros (8 * w_got_len ws) (mkSection 5 ix lk None sh cs))) with (add_zeros (8 * w_got_len ws) (mkSection 5 ix lk None sh cs)).
    rewrite (on_ne id_dynrel), (on_ne id_pltrel), (on_ne id_dynamic) by discriminate. split; reflexivity. }
  destruct id as [|id].
  { subst sy. unfold size_fn, pre_dynamic. rewrite (on_ne id_got) by discriminate. rewrite (on_eq id_got_plt) by reflexivity. rewrite (on_ne id_dynsym) by discriminate. cbv beta.
    set (z := 8 * (blen (w_got_plt ws) + 3)).
    change (sh_type (sc_sh (add_zeros z (mkSection 6 ix lk None sh cs)))) with (sh_type sh). rewrite H9 by lia.
    change (sec_expand o (ws <| w_hash := h |> <| w_gnu_hash := g |>) (add_zeros z (mkSection 6 ix lk None sh cs))) with (add_zeros z (mkSection 6 ix lk None sh cs)).
    rewrite (on_ne id_dynrel), (on_ne id_pltrel), (on_ne id_dynamic) by discriminate. split; reflexivity. }
  do 2 (destruct id as [|id]; [subst sy; fin H9|]).
  destruct id as [|id].
  { subst sy. unfold size_fn, pre_dynamic. rewrite (on_ne id_got), (on_ne id_got_plt) by discriminate. rewrite (on_eq id_dynsym) by reflexivity. cbv beta.
    change (sh_type (sc_sh (sec_expand o ws (mkSection 9 ix lk (Some KDynsym) sh cs)))) with (sh_type sh). rewrite H9' by lia.
    rewrite (on_ne id_dynrel), (on_ne id_pltrel), (on_ne id_dynamic) by discriminate. split; reflexivity. }
  do 4 (destruct id as [|id]; [subst sy; fin H9|]).
  destruct Hsy as [->|[->| ->]]; fin H9.
Qed.
