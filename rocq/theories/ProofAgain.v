(** A library listed again is searched for nothing it has. *)
From Verif Require Import ProofArchive ProofWriter ProofTables ProofBase.
From Verif Require Export SpecUnused.

(** The library has nothing for a wanted name, and all its names can be read. *)
Definition spurned (e : elf_obj) (t : strtab) (r : symref) : Prop :=
  match r with
  | RNamed k => exists name, st_name_at t k = Some name /\ forall s, s ∈ eo_dynsyms e -> exists n, eo_dynstr e (st_name s) = Some n /\ n <> name
  | RSection _ _ => True
  end.
Lemma dynsyms_kept e path name syms w : (forall s, s ∈ syms -> exists n, eo_dynstr e (st_name s) = Some n /\ n <> name) -> match_dynsyms e path name syms false w = Ok (w, false).
Proof.
  induction syms as [|s syms IH]; intros H; cbn [match_dynsyms]; [reflexivity|]. destruct (H s) as (n & -> & Hne); [left|]. destruct (decide (name = n)) as [->|_]; [contradiction|]. apply IH. intros s' Hs'. apply H. by right.
Qed.
Lemma dynsyms_found e path name syms w w' b : match_dynsyms e path name syms true w = Ok (w', b) -> b = true.
Proof.
  revert w. induction syms as [|s syms IH]; intros w H; cbn [match_dynsyms] in H; [by injection H as _ <-|]. destruct (eo_dynstr e (st_name s)) as [n|]; [|discriminate H]. destruct (decide (name = n)); [|by apply IH in H].
  apply bind_Ok in H as ([w1 r] & _ & H). apply bind_Ok in H as (so & _ & H). by apply IH in H.
Qed.
Lemma dynsyms_spurned e path name syms w w' : match_dynsyms e path name syms false w = Ok (w', false) -> forall s, s ∈ syms -> exists n, eo_dynstr e (st_name s) = Some n /\ n <> name.
Proof.
  revert w. induction syms as [|s syms IH]; intros w H s' Hs; cbn [match_dynsyms] in H; [by apply elem_of_nil in Hs|]. destruct (eo_dynstr e (st_name s)) as [n|] eqn:En; [|discriminate H]. destruct (decide (name = n)) as [->|Hne].
  - apply bind_Ok in H as ([w1 r] & _ & H). apply bind_Ok in H as (so & _ & H). apply dynsyms_found in H. discriminate H.
  - apply elem_of_cons in Hs as [->|Hs]; [exists n; split; [exact En|congruence]|]. exact (IH _ H _ Hs).
Qed.
Lemma undefines_spurned e path us w w' us' : match_undefines e path us w = Ok (w', us') -> Forall (spurned e (w_strtab w)) us'.
Proof.
  revert w us'. induction us as [|u us IH]; intros w us' H; [cbn [match_undefines] in H; injection H as _ <-; constructor|]. 
  pose proof (undefines_rest _ _ _ _ _ _ H) as (E & _ & _). cbn [match_undefines] in H. apply bind_Ok in H as (name & Hn & H). apply bind_Ok in H as ([w1 found] & H1 & H). apply bind_Ok in H as ([w2 rest] & H2 & [= <- <-]).
  pose proof (undefines_rest _ _ _ _ _ _ H2) as (E2 & _ & _). assert (E1 : w_strtab w1 = w_strtab w) by congruence.
  pose proof (IH _ _ H2) as I. rewrite E1 in I. destruct found; [exact I|]. constructor; [|exact I]. destruct u as [k|]; [|exact Logic.I]. cbn [symbol_name] in Hn. apply bind_Ok in Hn as (nm & Hu & [= <-]).
  exists nm. split; [unfold unwrap in Hu; destruct (st_name_at _ _); [by injection Hu as ->|discriminate Hu]|]. exact (dynsyms_spurned _ _ _ _ _ _ H1).
Qed.
Lemma undefines_idle e path us w : Forall (spurned e (w_strtab w)) us -> match_undefines e path us w = Ok (w, us).
Proof.
  induction 1 as [|r us H _ IH]; cbn [match_undefines]; [reflexivity|]. destruct r as [k|i j]; cbn [symbol_name].
  - destruct H as (name & -> & H). cbn [unwrap mbind res_bind]. rewrite (dynsyms_kept _ _ _ _ _ H). cbn [mbind res_bind]. rewrite IH. reflexivity.
  - cbn [mbind res_bind]. rewrite IH. reflexivity.
Qed.
Lemma search_keeps wd st lib st' : search_lib wd st lib = Ok st' -> w_strtab st'.1 = w_strtab st.1 /\ st'.2 ⊆ st.2.
Proof.
  destruct st as [w us], st' as [w' us']. unfold search_lib. destruct (wd_elf wd lib.1) as [[e|]|]; [|discriminate..]. intros H. destruct (undefines_rest _ _ _ _ _ _ H) as (A & B & _). by split.
Qed.
Lemma fold_same {A S} (f : S -> A -> res S) k a b st : (forall st', foldM f a st' = foldM f b st') -> foldM f (k ++ a) st = foldM f (k ++ b) st.
Proof. intros H. revert st. induction k as [|x k IH]; intros st; cbn [app foldM]; [apply H|]. destruct (f st x); cbn [mbind res_bind]; [apply IH|reflexivity..]. Qed.
Lemma again_same wd pre x mid y post st : y.1 = x.1 -> foldM (search_lib wd) (pre ++ x :: mid ++ y :: post) st = foldM (search_lib wd) (pre ++ x :: mid ++ post) st.
Proof.
  intros Exy. apply fold_same. clear st. intros st. cbn [foldM]. destruct (search_lib wd st x) as [st1| |] eqn:E1; cbn [mbind res_bind]; [|reflexivity..].
  destruct st as [w us], st1 as [w1 us1]. pose proof (search_keeps _ _ _ _ E1) as [S1 _]. cbn [fst] in S1. unfold search_lib in E1. destruct (wd_elf wd x.1) as [[e|]|] eqn:Ex; [|discriminate E1..].
  pose proof (undefines_spurned _ _ _ _ _ _ E1) as F. rewrite <- S1 in F. clear E1 S1.
  revert w1 us1 F. induction mid as [|a mid IH]; intros w1 us1 F; cbn [app foldM].
  - assert (E2 : search_lib wd (w1, us1) y = Ok (w1, us1)) by (unfold search_lib; rewrite Exy, Ex; exact (undefines_idle _ _ _ _ F)). rewrite E2. reflexivity.
  - destruct (search_lib wd (w1, us1) a) as [[w2 us2]| |] eqn:E2; cbn [mbind res_bind]; [|reflexivity..]. apply IH. destruct (search_keeps _ _ _ _ E2) as [A B]. cbn [fst snd] in A, B. rewrite A. apply Forall_forall. intros r Hr. exact (proj1 (Forall_forall _ _) F _ (B _ Hr)).
Qed.
Section same.
  Context (wd : world) (l : linker) (libs : list (string * bool)) (H : forall st, foldM (search_lib wd) libs st = foldM (search_lib wd) (opt_shared_libs (lk_options l)) st).
  Lemma again_loop lo fuel round us w : resolve_loop wd lo (with_libs l libs) fuel round us w = resolve_loop wd lo l fuel round us w.
  Proof using H.
    revert round us w. induction fuel as [|fuel IH]; intros round us w; cbn [resolve_loop]; [reflexivity|].
    assert (E : find_undefined_symbols_in_libs wd (with_libs l libs) (lo_undef lo (2 * round) us) w = find_undefined_symbols_in_libs wd l (lo_undef lo (2 * round) us) w) by (exact (H _)). rewrite E.
    destruct (find_undefined_symbols_in_libs wd l _ w) as [[w1 us1]| |]; cbn [mbind res_bind]; [|reflexivity..].
    change (process_archives_containing wd lo round (with_libs l libs) (lo_undef lo (2 * round + 1) us1) w1) with (process_archives_containing wd lo round l (lo_undef lo (2 * round + 1) us1) w1).
    destruct (process_archives_containing wd lo round l _ w1) as [[w2 us2]| |]; cbn [mbind res_bind]; [|reflexivity..]. destruct (_ =? _)%nat; [reflexivity|]. apply IH.
  Qed.
  Local Transparent writer_new.
  Lemma again_new : writer_new (lk_options (with_libs l libs)) = writer_new (lk_options l).
  Proof using. reflexivity. Qed.
  Local Opaque writer_new.
  Lemma again_link lo fuel : link wd lo (with_libs l libs) fuel = link wd lo l fuel.
  Proof using H.
    assert (E : resolve wd lo (with_libs l libs) fuel = resolve wd lo l fuel).
    { unfold resolve. rewrite again_new. destruct (writer_new (lk_options l)) as [w0| |]; cbn [mbind res_bind]; [|reflexivity..]. change (load_objects wd (with_libs l libs) w0) with (load_objects wd l w0).
      destruct (load_objects wd l w0) as [w1| |]; cbn [mbind res_bind]; [|reflexivity..]. apply again_loop. }
    unfold link, link_bytes, link_writer. rewrite E. reflexivity.
  Qed.
End same.
