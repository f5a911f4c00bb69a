(** Members of archives that the index does not name play no part. *)
From Verif Require Import ProofStub ProofBase.
From Verif Require Export SpecMembers.

Lemma wanted_same w a b us : (forall n, ar_member_of_symbol b n = ar_member_of_symbol a n) -> wanted_members w b us = wanted_members w a us.
Proof.
  intros H. induction us as [|r us IH]; cbn [wanted_members]; [reflexivity|]. destruct (symbol_name w r) as [name| |]; cbn [mbind res_bind]; [|reflexivity..]. rewrite IH. destruct (wanted_members w a us) as [[ms un]| |]; cbn [mbind res_bind]; [|reflexivity..].
  destruct name as [n|]; cbn [mbind option_bind]; [rewrite H|]; reflexivity.
Qed.
Lemma wanted_listed w a us ms un m : wanted_members w a us = Ok (ms, un) -> m ∈ ms -> exists n, ar_member_of_symbol a n = Some m.
Proof.
  revert ms un. induction us as [|r us IH]; intros ms un H Hm; cbn [wanted_members] in H; [injection H as <- _; by apply elem_of_nil in Hm|]. apply bind_Ok in H as (name & _ & H). apply bind_Ok in H as ([ms1 un1] & H1 & H).
  destruct name as [n|]; cbn [mbind option_bind] in H; [|injection H as <- _; exact (IH _ _ H1 Hm)]. destruct (ar_member_of_symbol a n) as [m1|] eqn:En; injection H as <- _; [|exact (IH _ _ H1 Hm)].
  apply elem_of_cons in Hm as [->|Hm]; [eauto|exact (IH _ _ H1 Hm)].
Qed.
Lemma search_offered wd wd' lo round st p : (forall r p k, lo_members lo r p k ≡ₚ k) ->
  wd_archive wd' p = wd_archive wd p \/ (exists a b, wd_archive wd p = Some (Some a) /\ wd_archive wd' p = Some (Some b) /\ offers_same a b) -> search_archive wd' lo round st p = search_archive wd lo round st p.
Proof.
  intros Hlo H. destruct st as [w us]. unfold search_archive. destruct H as [->|(a & b & -> & -> & H1 & H2)]; [reflexivity|]. rewrite (wanted_same _ _ _ _ H1). destruct (wanted_members w a us) as [[ms un]| |] eqn:E; cbn [mbind res_bind]; [|reflexivity..].
  rewrite (foldM_ext (load_member b p) (load_member a p)); [reflexivity|]. intros m w1 Hm. rewrite (Hlo round p _) in Hm. apply (proj1 (elem_of_remove_dups _ _)) in Hm. destruct (wanted_listed _ _ _ _ _ _ E Hm) as [n Hn]. unfold load_member. rewrite (H2 _ _ Hn). reflexivity.
Qed.
Lemma offered_link wd wd' lo l fuel : (forall r p k, lo_members lo r p k ≡ₚ k) -> offered wd wd' l -> link wd' lo l fuel = link wd lo l fuel.
Proof.
  intros Hlo [O1 O2 O3 O4]. set (mid := mkWorld (wd_elf wd') (wd_archive wd) (wd_can_create wd')).
  assert (E1 : link mid lo l fuel = link wd lo l fuel) by (apply stub_link; split; [exact O1|reflexivity|exact O3|exact O2]). rewrite <- E1. clear E1.
  assert (L : forall fuel round us w, resolve_loop wd' lo l fuel round us w = resolve_loop mid lo l fuel round us w).
  { clear fuel. intros fuel. induction fuel as [|fuel IH]; intros round us w; cbn [resolve_loop]; [reflexivity|]. change (find_undefined_symbols_in_libs wd' l (lo_undef lo (2 * round) us) w) with (find_undefined_symbols_in_libs mid l (lo_undef lo (2 * round) us) w).
    destruct (find_undefined_symbols_in_libs mid l _ w) as [[w1 us1]| |]; cbn [mbind res_bind]; [|reflexivity..].
    assert (E : process_archives_containing wd' lo round l (lo_undef lo (2 * round + 1) us1) w1 = process_archives_containing mid lo round l (lo_undef lo (2 * round + 1) us1) w1).
    { unfold process_archives_containing. apply foldM_ext. intros p st Hp. apply search_offered; [exact Hlo|]. exact (O4 p Hp). }
    rewrite E. destruct (process_archives_containing mid lo round l _ w1) as [[w2 us2]| |]; cbn [mbind res_bind]; [|reflexivity..]. destruct (_ =? _)%nat; [reflexivity|]. apply IH. }
  assert (E : resolve wd' lo l fuel = resolve mid lo l fuel).
  { unfold resolve. destruct (writer_new (lk_options l)) as [w0| |]; cbn [mbind res_bind]; [|reflexivity..]. change (load_objects wd' l w0) with (load_objects mid l w0). destruct (load_objects mid l w0) as [w1| |]; cbn [mbind res_bind]; [|reflexivity..]. apply L. }
  unfold link, link_bytes, link_writer. rewrite E. reflexivity.
Qed.
