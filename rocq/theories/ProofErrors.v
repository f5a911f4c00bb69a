(** Every error has its cause in the inputs. *)
From Verif Require Export SpecErrors ProofMissing ProofSyms ProofTrace ProofTables.
From Verif Require Import ProofBase SpecArgs.

Definition why {A} (B : lerror -> Prop) (m : res A) : Prop := forall e, m = Err e -> B e.
Lemma why_bind {A C} B (m : res A) (g : A -> res C) : why B m -> (forall a, m = Ok a -> why B (g a)) -> why B (m ≫= g).
Proof. intros H1 H2 e. destruct m as [a|e'|p]; cbn [mbind res_bind]; [by apply H2| |discriminate]. intros [= <-]. by apply H1. Qed.
Lemma why_unwrap {A} B (o : option A) : why B (unwrap o).
Proof. by destruct o. Qed.
Lemma why_index {A} B (k : list A) i : why B (index k i).
Proof. unfold index. by destruct (_ !! _). Qed.
Lemma why_foldM {S A} B (g : S -> A -> res S) k s : (forall s a, a ∈ k -> why B (g s a)) -> why B (foldM g k s).
Proof.
  intros H. revert s. induction k as [|a k IH]; intros s; [done|]. apply why_bind; [apply H; by left|]. intros; apply IH. intros s' a' Ha'. apply H. by right.
Qed.
Lemma why_mapM {A C} B (g : A -> res C) k : (forall a, a ∈ k -> why B (g a)) -> why B (mapM_res g k).
Proof.
  intros H. induction k as [|a k IH]; [done|]. apply why_bind; [apply H; by left|]. intros b _. apply why_bind; [|done]. apply IH. intros a' Ha'. apply H. by right.
Qed.
Lemma why_mapM_st {S A} B (g : S -> A -> res (S * A)) k s : (forall s a, why B (g s a)) -> why B (mapM_st g k s).
Proof. intros H. revert s. induction k as [|a k IH]; intros s; [done|]. apply why_bind; [apply H|]. intros [s1 b] _. apply why_bind; [apply IH|]. by intros [? ?]. Qed.

(** * Once everything is read there are no errors *)
Definition none (e : lerror) : Prop := False.
Ltac why1 := match goal with
  | |- why _ (Ok _) => discriminate
  | |- why _ (Panic _) => discriminate
  | |- why _ (mbind _ _) => apply why_bind; [|intros ? _]
  | |- why _ (unwrap _) => apply why_unwrap
  | |- why _ (index _ _) => apply why_index
  | |- why _ (foldM _ _ _) => apply why_foldM; intros ? ? _
  | |- why _ (mapM_res _ _) => apply why_mapM; intros ? _
  | |- why _ (mapM_st _ _ _) => apply why_mapM_st; intros ? ?
  | |- why _ (let '(_, _) := ?x in _) => destruct x
  | |- why _ (match ?x with _ => _ end) => destruct x
  end.
Ltac why := repeat (cbv beta zeta; why1).
Lemma why_write B data off bs : why B (write_at data off bs).
Proof. unfold write_at. why. Qed.
Lemma why_write32 B data off v : why B (write_i32 data off v).
Proof. unfold write_i32. apply why_write. Qed.
Lemma why_walk B n cs i : why B (ht_walk n cs i).
Proof. revert i. induction n as [|n IH]; intros i; cbn [ht_walk]; why. apply IH. Qed.
Lemma why_apply B a data rel sym t g p : why B (apply_relocation a data rel sym t g p).
Proof. unfold apply_relocation, apply_got, reloc_S, plt_entry_addr, chk_i64, to_i32, to_i64, slice, usub. why; lazymatch goal with |- why _ (write_i32 _ _ _) => apply why_write32 | |- why _ (write_at _ _ _) => apply why_write end. Qed.
Lemma why_sizes B o w : why B (assign_sizes o w).
Proof.
  unfold assign_sizes, scan_relocations, scan_section, scan_chunk, scan_reloc, fill_hash_tables, ht_add_symbols, ht_step, gt_add_symbols, build_dynrels, dynrel_step, size_dynamic, dyn_entries. why; apply why_walk.
Qed.
Lemma why_layout B o w : why B (assign_layout o w).
Proof.
  unfold assign_layout, sort_sections, generate_program_headers, layout_step, p_type_of, add_dyn_entries, section_dyn_entries, patch_plt_and_got_plt, patch_plt_and_got_plt_in, patch_plt_header, patch_plt_step, plt_entry_addr, chk_i64, to_i32, to_i64. why; lazymatch goal with |- why _ (write_i32 _ _ _) => apply why_write32 | |- why _ (write_at _ _ _) => apply why_write end.
Qed.
Lemma why_compute B o w : why B (compute_sections o w).
Proof.
  unfold compute_sections, assign_section_addresses, handle_special_symbols, special_step, bound_symbols, handle_relocations, chunk_apply_relocations, finish_header. why; first [apply why_sizes|apply why_layout|apply why_apply].
Qed.
Local Transparent writer_new.
Lemma why_new B opts : why B (writer_new opts).
Proof.
  unfold writer_new. cbv zeta. repeat lazymatch goal with
  | |- why _ (let '(_, _) := ?x in _) => destruct x
  | |- why _ (mbind _ _) => apply why_bind; [apply why_unwrap|intros ? _]
  | |- why _ (Ok _) => discriminate
  end.
Qed.
Local Opaque writer_new.
Lemma why_name B w r : why B (symbol_name w r).
Proof. unfold symbol_name. why. Qed.
Lemma why_names B w us : why B (symbol_names_of w us).
Proof. induction us as [|u us IH]; cbn [symbol_names_of]; [discriminate|]. apply why_bind; [apply why_name|]. intros n _. apply why_bind; [exact IH|]. intros ns _. discriminate. Qed.
Lemma why_check o w e : check_undefined o w = Err e -> exists ns, e = EUndefined ns /\ ns <> [].
Proof.
  unfold check_undefined. destruct (undefined_symbols o w) as [|u us] eqn:Eu; [discriminate|]. intros H.
  destruct (symbol_names_of w (u :: us)) as [ns|e'|p] eqn:En; cbn [mbind res_bind] in H; [|exfalso; exact (why_names none w (u :: us) _ En)|discriminate H].
  injection H as <-. exists ns. split; [reflexivity|]. intros ->. cbn [symbol_names_of] in En. apply bind_Ok in En as (m & Hm & En). apply bind_Ok in En as (ns' & _ & En).
  assert (Hu : u ∈ undefined_symbols o w) by (rewrite Eu; by left). unfold undefined_symbols in Hu. apply elem_of_list_fmap in Hu as (k & -> & _).
  unfold symbol_name in Hm. apply bind_Ok in Hm as (s & _ & Hm). injection Hm as <-. discriminate En.
Qed.

(** * Reading, but for symbols defined twice *)
Section reading.
  Context (wd : world) (l : linker).
  Definition cause0 (e : lerror) : Prop := match e with EAlreadyDefined _ _ => True | EUndefined _ => False | _ => cause wd l e end.
  Lemma w_section w name sh data : why cause0 (add_section w name sh data).
  Proof using. unfold add_section. why. Qed.
  Lemma w_sections e w : is_input wd l e -> why cause0 (process_sections e w).
  Proof using.
    intros Hi. unfold process_sections. apply why_bind; [|by intros [? ?] _]. apply why_foldM. intros [w0 m] [i sh] Hx. unfold process_section.
    case_bool_decide as Hs; [discriminate|]. destruct (eo_shstr e (sh_name sh)) as [nm|] eqn:En.
    - unfold section_data, slice. why. apply w_section.
    - intros er [= <-]. left. exists e, sh. split; [exact Hi|]. split; [|by split]. apply elem_of_lookup_imap in Hx as (j & y & [= <- <-] & Hj). by eapply elem_of_list_lookup_2.
  Qed.
  Lemma w_inner sym sec name ref names t secs : why cause0 (add_symbol_inner sym sec name ref names t secs).
  Proof using. unfold add_symbol_inner, mod_chunk. why. intros e [= <-]. exact I. Qed.
  Lemma w_symbols e path w es : is_input wd l e -> why cause0 (process_symbols e path w es).
  Proof using.
    intros Hi. unfold process_symbols. apply why_foldM. intros [w0 es0] sym Hs. unfold process_symbol. destruct (eo_strtab e (st_name sym)) as [nm|] eqn:En.
    - unfold add_symbol. why. apply w_inner.
    - intros er [= <-]. right. left. exists e, sym. by split.
  Qed.
  Lemma w_relocations e es w : is_input wd l e -> why cause0 (process_relocations e es w).
  Proof using.
    intros Hi. unfold process_relocations. apply why_foldM. intros w0 [idx rels] Hx. apply why_foldM. intros w1 rel Hr. unfold process_relocation.
    destruct (N.eqb_spec (gr_sym rel) 0) as [E0|E0]; [discriminate|]. apply why_bind; [apply why_unwrap|]. intros sym _. apply why_bind; [unfold usub; why|]. intros t _.
    destruct (_ !! _); [|discriminate]. destruct (kassoc _ _); [|discriminate]. unfold add_relocation. cbn [r_info].
    assert (E : r_type (u64 (gr_sym rel * 2^32) + gr_type rel) = gr_type rel mod 2^32).
    { unfold r_type, u64, wrap. lia. }
    rewrite E. unfold R_X86_64_8, R_X86_64_16, R_X86_64_PC16, R_X86_64_PC8.
    destruct (_ || _) eqn:Et; [|unfold mod_chunk; why]. intros er [= <-]. split.
    - rewrite !orb_true_iff, !N.eqb_eq in Et. rewrite !elem_of_cons, elem_of_nil. tauto.
    - exists e, idx, rels, rel. done.
  Qed.
  Lemma w_member ar path w m n : path ∈ lk_archives l -> wd_archive wd path = Some (Some ar) -> ar_member_of_symbol ar n = Some m -> why cause0 (load_member ar path w m).
  Proof using.
    intros Hp Ha Hm. unfold load_member. destruct (ar_get ar m) as [o|] eqn:Eg; [|discriminate]. cbn [unwrap mbind res_bind]. destruct o as [e|].
    - assert (is_input wd l e) as Hi by (right; eauto 10). destruct (eo_is_object e); [|discriminate].
      apply why_bind; [by apply w_sections|]. intros [w1 s1] _. apply why_bind; [by apply w_symbols|]. intros [w2 s2] _. by apply w_relocations.
    - intros er [= <-]. right. right. right. exists path, ar, n, m. done.
  Qed.
  Lemma wanted_indexed w ar us ms un m : wanted_members w ar us = Ok (ms, un) -> m ∈ ms -> exists n, ar_member_of_symbol ar n = Some m.
  Proof using.
    revert ms un. induction us as [|u us IH]; intros ms un H Hm; cbn [wanted_members] in H; [injection H as <- <-; by apply elem_of_nil in Hm|].
    apply bind_Ok in H as (name & Hn & H). apply bind_Ok in H as ([ms1 us1] & H1 & H). destruct name as [name|]; cbn [mbind option_bind] in H; [|injection H as <- <-; by eapply IH].
    destruct (ar_member_of_symbol ar name) as [m0|] eqn:Em; injection H as <- <-; [|by eapply IH]. apply elem_of_cons in Hm as [->|Hm]; [eauto|by eapply IH].
  Qed.
  Lemma w_wanted w ar us : why cause0 (wanted_members w ar us).
  Proof using. induction us as [|u us IH]; cbn [wanted_members]; [discriminate|]. apply why_bind; [apply why_name|]. intros n _. apply why_bind; [exact IH|]. intros [ms un] _. discriminate. Qed.
  Lemma w_archives lo round us w : (forall r p k, lo_members lo r p k ≡ₚ k) -> why cause0 (process_archives_containing wd lo round l us w).
  Proof using.
    intros Hlo. unfold process_archives_containing. apply why_foldM. intros [w0 us0] p Hp. unfold search_archive.
    destruct (wd_archive wd p) as [[ar|]|] eqn:Ea; [|intros er [= <-]; right; right; left; exists p; split; [exact Hp|by auto]..].
    apply why_bind; [apply w_wanted|]. intros [ms un] Hw. apply why_bind; [|discriminate]. apply why_foldM. intros w1 m Hm. rewrite Hlo in Hm. apply (proj1 (elem_of_remove_dups _ _)) in Hm.
    destruct (wanted_indexed _ _ _ _ _ _ Hw Hm) as [n Hn]. by eapply w_member.
  Qed.
  Lemma w_dynsyms e path name syms found w : is_lib wd l path e -> (forall s, s ∈ syms -> s ∈ eo_dynsyms e) -> why cause0 (match_dynsyms e path name syms found w).
  Proof using.
    intros Hl. revert found w. induction syms as [|s syms IH]; intros found w Hs; cbn [match_dynsyms]; [discriminate|]. destruct (eo_dynstr e (st_name s)) as [nm|] eqn:En.
    - assert (Hs' : forall s0, s0 ∈ syms -> s0 ∈ eo_dynsyms e) by (intros; apply Hs; by right). destruct (decide _); [|by apply IH]. apply why_bind.
      + unfold add_dyn_symbol. apply why_bind; [apply w_inner|]. intros a _. why.
      + intros [w1 r] _. apply why_bind; [apply why_unwrap|]. intros so _. by apply IH.
    - intros er [= <-]. right. right. exists path, e, s. split; [exact Hl|]. split; [apply Hs; by left|exact En].
  Qed.
  Lemma w_undefines e path us w : is_lib wd l path e -> why cause0 (match_undefines e path us w).
  Proof using.
    intros Hl. revert w. induction us as [|u us IH]; intros w; cbn [match_undefines]; [discriminate|]. apply why_bind; [apply why_name|]. intros name _. apply why_bind.
    - destruct name; [|discriminate]. by apply w_dynsyms.
    - intros [w1 b] _. apply why_bind; [apply IH|]. by intros [? ?] _.
  Qed.
  Lemma w_libs us w : why cause0 (find_undefined_symbols_in_libs wd l us w).
  Proof using.
    unfold find_undefined_symbols_in_libs. apply why_foldM. intros [w0 us0] lib Hlib. unfold search_lib. assert (Hp : lib.1 ∈ (opt_shared_libs (lk_options l)).*1) by (apply elem_of_list_fmap; eauto).
    destruct (wd_elf wd lib.1) as [[e|]|] eqn:Ee; [|discriminate|]; [apply w_undefines; by split|]. intros er [= <-]. right. left. exists lib.1. by split.
  Qed.
  Lemma w_objects w : why cause0 (load_objects wd l w).
  Proof using.
    unfold load_objects. apply why_bind.
    - apply why_mapM. intros p Hp. unfold read_object. destruct (wd_elf wd p) eqn:Ee; [discriminate|]. intros er [= <-]. left. exists p. split; [exact Hp|by left].
    - intros inputs Hi. destruct (read_objects_eq wd _ _ Hi) as [Ein Hin]. 
      assert (Hx : forall x, x ∈ inputs -> x.1 ∈ lk_objects l /\ wd_elf wd x.1 = Some x.2).
      { intros x Hx. split; [rewrite Ein; apply elem_of_list_fmap; eauto|]. exact (proj1 (Forall_forall _ _) Hin x Hx). }
      apply why_bind.
      + apply why_foldM. intros [w0 elfs] [p o] Hpo. destruct (Hx _ Hpo) as [H1 H2]. cbn [fst snd] in H1, H2. unfold add_object_sections. cbn [snd]. destruct o as [e|].
        * destruct (eo_is_object e); [|discriminate]. apply why_bind; [apply w_sections; left; eauto|]. intros [? ?] _. discriminate.
        * intros er [= <-]. left. exists p. split; [exact H1|by right].
      + intros [w1 elfs] Hf. assert (He : forall x, x ∈ elfs -> is_input wd l x.1.2).
        { change elfs with ((w1, elfs).2). revert Hf. apply (foldM_trace (fun _ st => forall x, x ∈ st.2 -> is_input wd l x.1.2)); [intros x Hx'; by apply elem_of_nil in Hx'|].
          intros pre [p o] post [w2 e2] [w3 e3] El IH Hst. cbn [snd] in *. unfold add_object_sections in Hst. cbn [fst snd] in Hst. destruct o as [e|]; [|discriminate Hst].
          destruct (eo_is_object e); [|by injection Hst as <- <-]. apply bind_Ok in Hst as ([w4 s4] & _ & [= <- <-]). intros x [Hx'|Hx'%elem_of_list_singleton]%elem_of_app; [by apply IH|]. subst x. cbn [fst snd].
          destruct (Hx (p, Some e)) as [H1 H2]; [rewrite El; apply elem_of_app; right; left|]. left. exists p. by split. }
        apply why_foldM. intros w2 [[p e] s] Hy. pose proof (He _ Hy) as Hi'. cbn [fst snd] in Hi'. unfold add_object_symbols. apply why_bind; [by apply w_symbols|]. intros [? ?] _. by apply w_relocations.
  Qed.
  Lemma w_loop lo fuel round us w : (forall r p k, lo_members lo r p k ≡ₚ k) -> why cause0 (resolve_loop wd lo l fuel round us w).
  Proof using.
    intros Hlo. revert round us w. induction fuel as [|fuel IH]; intros round us w; cbn [resolve_loop]; [discriminate|]. apply why_bind; [apply w_libs|]. intros [w1 n1] _. apply why_bind; [by apply w_archives|]. intros [w2 n2] _.
    destruct (_ =? _)%nat; [discriminate|]. apply IH.
  Qed.
  Lemma w_resolve lo fuel : (forall r p k, lo_members lo r p k ≡ₚ k) -> why cause0 (resolve wd lo l fuel).
  Proof using. intros Hlo. unfold resolve. apply why_bind; [apply why_new|]. intros w _. apply why_bind; [apply w_objects|]. intros; by apply w_loop. Qed.
End reading.

(** * Symbols defined twice *)
Definition other (e : lerror) : Prop := match e with EAlreadyDefined _ _ => False | _ => True end.
Lemma foldM_fail {S A} (f : S -> A -> res S) k s e : foldM f k s = Err e ->
  exists pre a post s', k = pre ++ a :: post /\ foldM f pre s = Ok s' /\ f s' a = Err e.
Proof.
  revert s. induction k as [|a k IH]; intros s H; cbn [foldM] in H; [discriminate H|].
  destruct (f s a) as [s1|e1|p1] eqn:Ea; cbn [mbind res_bind] in H; [|injection H as ->; by exists [], a, k, s|discriminate H].
  destruct (IH s1 H) as (pre & b & post & s' & -> & H1 & H2). exists (a :: pre), b, post, s'. split; [done|]. split; [|done]. cbn [foldM]. rewrite Ea. exact H1.
Qed.
Lemma bind_Err {A B} (m : res A) (f : A -> res B) e : (m ≫= f) = Err e -> m = Err e \/ exists a, m = Ok a /\ f a = Err e.
Proof. destruct m as [a|e'|p]; cbn [mbind res_bind]; [eauto| |discriminate]. intros [= <-]. by left. Qed.
Lemma o_sections e w : why other (process_sections e w).
Proof. unfold process_sections, process_section, section_data, slice, add_section. why. intros ? [= <-]. exact I. Qed.
Lemma o_relocations e es w : why other (process_relocations e es w).
Proof. unfold process_relocations, process_relocation, add_relocation, mod_chunk, usub. why. intros ? [= <-]. exact I. Qed.
Lemma inner_undef sym o name ref names t secs : st_shndx sym = 0 -> why other (add_symbol_inner sym o name ref names t secs).
Proof.
  intros H0. unfold add_symbol_inner, mod_chunk. destruct (st_get_or_create names name) as [nm en]. cbv zeta.
  destruct (syt_add_symbol _ _ _ _ _) as [[t' r]|p] eqn:E; [why|]. exfalso. unfold syt_add_symbol in E. destruct (st_type _ =? _); [discriminate E|].
  destruct (syt_symbols t !! _) as [old|]; [|discriminate E]. destruct (merge_symbol _ _) eqn:Em; [discriminate E|]. apply merge_None in Em as (_ & _ & _ & D). apply D. exact H0.
Qed.
Lemma o_dynsyms e path name syms found w : why other (match_dynsyms e path name syms found w).
Proof.
  revert found w. induction syms as [|s syms IH]; intros found w; cbn [match_dynsyms]; [discriminate|]. destruct (eo_dynstr e (st_name s)) as [nm|]; [|intros ? [= <-]; exact I].
  destruct (decide _); [|apply IH]. apply why_bind; [unfold add_dyn_symbol; apply why_bind; [by apply inner_undef|intros ? _; why]|]. intros [w1 r] _. apply why_bind; [apply why_unwrap|]. intros so _. apply IH.
Qed.
Lemma o_undefines e path us w : why other (match_undefines e path us w).
Proof.
  revert w. induction us as [|u us IH]; intros w; cbn [match_undefines]; [discriminate|]. apply why_bind; [apply why_name|]. intros name _. apply why_bind.
  - destruct name; [|discriminate]. apply o_dynsyms.
  - intros [w1 b] _. apply why_bind; [apply IH|]. by intros [? ?] _.
Qed.
Lemma o_libs wd l us w : why other (find_undefined_symbols_in_libs wd l us w).
Proof.
  unfold find_undefined_symbols_in_libs. apply why_foldM. intros [w0 us0] lib _. unfold search_lib. destruct (wd_elf wd lib.1) as [[e|]|]; [|discriminate|]; [apply o_undefines|]. intros er [= <-]. exact I.
Qed.
Lemma o_wanted w ar us : why other (wanted_members w ar us).
Proof. induction us as [|u us IH]; cbn [wanted_members]; [discriminate|]. apply why_bind; [apply why_name|]. intros n _. apply why_bind; [exact IH|]. intros [ms un] _. discriminate. Qed.
Lemma all_syms_split es x rest : exists k, all_syms (es ++ x :: rest) = all_syms es ++ obj_syms (length es) x.1 x.2 ++ k.
Proof. unfold all_syms. rewrite imap_app, concat_app. eexists. cbn [imap concat]. rewrite Nat.add_0_r. reflexivity. Qed.

Section failing.
  Context (wd : world) (l : linker) (w0 : writer).
  Notation tr := (tr wd l w0).
  (** The run stops at a symbol. *)
  Definition stops (es : list (string * elf_obj)) (n p : string) : Prop :=
    exists ys y rest sk rk evs w o, all_syms es = ys ++ y :: rest /\ tr es sk ys rk evs w /\
      add_symbol w (yi_sym y) o (yi_name y) (yi_file y) = Err (EAlreadyDefined n p).
  Lemma symbols_pre es sk yk rk evs w k path e st syms w' st' : tr es sk yk rk evs w ->
    secs_known es evs k (es_sections st) -> foldM (process_symbol e path) syms (w, st) = Ok (w', st') ->
    exists new, tr es sk (yk ++ omap (obj_sym k path e) syms) rk (evs ++ new) w'.
  Proof using.
    intros HT Hse H.
    assert (G : exists new, tr es sk (yk ++ omap (obj_sym k path e) syms) rk (evs ++ new) (w', st').1 /\ es_sections (w', st').2 = es_sections st); [|destruct G as (new & G & _); eauto].
    revert H. apply (foldM_trace (fun pre s => exists new, tr es sk (yk ++ omap (obj_sym k path e) pre) rk (evs ++ new) s.1 /\ es_sections s.2 = es_sections st)); cbn [fst snd].
    - exists []. simpl. by rewrite !app_nil_r.
    - intros pre sym post [w1 s1] [w2 s2] Hl (new & HT1 & HS) Hst. cbn [fst snd] in *. unfold process_symbol in Hst.
      rewrite omap_app. simpl omap at 2. unfold obj_sym at 2.
      destruct (eo_strtab e (st_name sym)) as [name|] eqn:En; [|discriminate Hst]. cbn [fmap option_fmap option_map].
      apply bind_Ok in Hst as ([w3 r] & H3 & [= <- <-]). cbn [es_sections es_symbols].
      set (x := mkSymIn k sym name path). set (o := es_sections s1 !! N.to_nat (st_shndx sym)) in *.
      exists (new ++ [EvSym x o r]). rewrite (app_assoc evs). split; [|done].
      assert (Hok : event_ok wd l es (evs ++ new) (EvSym x o r)).
      { cbn [event_ok]. pose proof (secs_known_mono es evs new k _ Hse) as [K1 K2]. rewrite <- HS in K1, K2. fold o.
        unfold x. cbn [yi_obj yi_sym]. destruct o as [sr|] eqn:Eo; [by apply (K1 _ _ Eo)|]. intros p' e' sh Hk' Hi.
        destruct (copied sh) eqn:Ec; [|done]. destruct (K2 p' e' _ sh Hk' Hi Ec) as [y Hy]. subst o. congruence. }
      pose proof (tr_snoc _ _ _ _ _ _ _ _ _ (EvSym x o r) w3 HT1 H3 Hok) as HT3. cbn [sec_of sym_of rel_of option_list] in HT3.
      by rewrite !app_nil_r, <- app_assoc in HT3.
  Qed.
  Lemma symbols_stop es sk rk evs w pe path e rest st n p : es = pe ++ (path, e) :: rest -> tr es sk (all_syms pe) rk evs w ->
    secs_known es evs (length pe) (es_sections st) -> process_symbols e path w st = Err (EAlreadyDefined n p) -> stops es n p.
  Proof using.
    intros Ees HT Hse H. unfold process_symbols in H. apply foldM_fail in H as (pre & sym & post & [w1 s1] & El & H1 & H2).
    destruct (symbols_pre es sk (all_syms pe) rk evs w (length pe) path e st pre w1 s1 HT Hse H1) as (new & T1).
    unfold process_symbol in H2. destruct (eo_strtab e (st_name sym)) as [name|] eqn:En; [|discriminate H2].
    apply bind_Err in H2 as [H2|([? ?] & _ & H2)]; [|discriminate H2].
    destruct (all_syms_split pe (path, e) rest) as [k Hk]. cbn [fst snd] in Hk. rewrite <- Ees in Hk. unfold obj_syms in Hk. rewrite El, omap_app in Hk. cbn [omap list_omap] in Hk. unfold obj_sym at 2 in Hk. rewrite En in Hk. cbn [fmap option_fmap option_map] in Hk.
    eexists (all_syms pe ++ omap (obj_sym (length pe) path e) pre), (mkSymIn (length pe) sym name path), _, sk, rk, (evs ++ new), w1, _.
    split; [|split; [exact T1|exact H2]]. rewrite Hk. rewrite <- !app_assoc. reflexivity.
  Qed.
  Lemma member_stop ar path es evs w m n p : path ∈ lk_archives l -> wd_archive wd path = Some (Some ar) ->
    tr es (all_secs es) (all_syms es) (all_rels es) evs w -> load_member ar path w m = Err (EAlreadyDefined n p) ->
    exists e, is_member wd l (path, e) /\ stops (es ++ [(path, e)]) n p.
  Proof using.
    intros Hp Har HT H. unfold load_member in H. apply bind_Err in H as [H|([e|] & He & H)]; [unfold unwrap in H; by destruct (ar_get ar m)| |discriminate H]. apply unwrap_Ok in He.
    destruct (eo_is_object e) eqn:Eo; [|discriminate H]. apply bind_Err in H as [H|([w1 s1] & H1 & H)]; [exfalso; exact (o_sections _ _ _ H)|].
    set (es' := es ++ [(path, e)]). assert (Hk : es' !! length es = Some (path, e)) by (unfold es'; by rewrite lookup_app_r, Nat.sub_diag by lia).
    pose proof (tr_more wd l w0 es [(path, e)] _ _ _ _ HT) as HT'. fold es' in HT'.
    destruct (sections_tr wd l w0 es' _ _ _ evs w (length es) path e w1 s1 Hk HT' H1) as (n1 & T1 & K1 & K2).
    apply bind_Err in H as [H|([w2 s2] & H2 & H)]; [|exfalso; exact (o_relocations _ _ _ _ H)].
    exists e. split; [by exists ar, m|]. by eapply (symbols_stop es' _ _ _ w1 es path e [] s1 n p).
  Qed.
  Lemma objects_stop evs w n p : tr (cmd_objs wd l) [] [] [] evs w -> load_objects wd l w = Err (EAlreadyDefined n p) -> stops (cmd_objs wd l) n p.
  Proof using.
    intros HT H. unfold load_objects in H. apply bind_Err in H as [H|(inputs & Hi & H)].
    { exfalso. revert H. apply (why_mapM other). intros q _. unfold read_object. destruct (wd_elf wd q); [discriminate|]. intros ? [= <-]. exact I. }
    apply bind_Err in H as [H|([w1 elfs] & H1 & H2)].
    { exfalso. revert H. apply (why_foldM other). intros [w2 el] [q o] _. unfold add_object_sections. cbn [snd]. destruct o as [e|]; [|intros ? [= <-]; exact I]. destruct (eo_is_object e); [|discriminate].
      apply why_bind; [apply o_sections|]. intros [? ?] _. discriminate. }
    destruct (read_objects_eq wd _ _ Hi) as [Ein Hin]. set (es := cmd_objs wd l) in *.
    assert (Ees : es = omap (cmd_obj wd) inputs.*1) by (unfold es, cmd_objs; by rewrite Ein).
    assert (A : elfs.*1 = omap (cmd_obj wd) inputs.*1 /\ exists new, tr es (all_secs (omap (cmd_obj wd) inputs.*1)) [] [] (evs ++ new) w1 /\
      forall k x s, elfs !! k = Some (x, s) -> secs_known es (evs ++ new) k (es_sections s) /\ es_symbols s = []).
    { revert H1.
      apply (foldM_trace (fun pre st => st.2.*1 = omap (cmd_obj wd) pre.*1 /\ exists new, tr es (all_secs (omap (cmd_obj wd) pre.*1)) [] [] (evs ++ new) st.1 /\
        forall k x s, st.2 !! k = Some (x, s) -> secs_known es (evs ++ new) k (es_sections s) /\ es_symbols s = [])); cbn [fst snd].
      { split; [done|]. exists []. rewrite app_nil_r. split; [done|]. intros k x s Hk. by rewrite lookup_nil in Hk. }
      intros pre [path x] post [w2 e2] [w3 e3] Hl (HE & new & HT2 & HK) Hst. cbn [fst snd] in *. unfold add_object_sections in Hst. cbn [fst snd] in Hst.
      assert (Hx : wd_elf wd path = Some x).
      { rewrite Hl in Hin. apply Forall_app in Hin as [_ Hin]. by apply Forall_cons in Hin as [Hin _]. }
      rewrite fmap_app, omap_app. assert (E1 : omap (cmd_obj wd) ([(path, x)].*1) = match x with Some e => if eo_is_object e then [(path, e)] else [] | None => [] end) by (simpl; unfold cmd_obj; rewrite Hx; by destruct x as [e|]; [destruct (eo_is_object e)|]). rewrite E1.
      destruct x as [e|]; [|discriminate Hst]. destruct (eo_is_object e) eqn:Eo.
      2:{ injection Hst as <- <-. rewrite app_nil_r. split; [done|]. by exists new. }
      apply bind_Ok in Hst as ([w4 s4] & H4 & [= <- <-]).
      set (pe := omap (cmd_obj wd) pre.*1) in *.
      assert (Hk : es !! length pe = Some (path, e)).
      { rewrite Ees, Hl, fmap_app, omap_app. fold pe. rewrite lookup_app_r, Nat.sub_diag by lia. simpl. unfold cmd_obj. by rewrite Hx, Eo. }
      destruct (sections_tr wd l w0 es _ _ _ _ w2 (length pe) path e w4 s4 Hk HT2 H4) as (n4 & T4 & K4 & S4).
      split; [by rewrite fmap_app, HE|]. exists (new ++ n4). rewrite all_secs_snoc, app_assoc. split; [done|].
      intros k y s [Hy|[Hge Hy]]%lookup_app_Some.
      - destruct (HK k y s Hy). split; [by apply secs_known_mono|done].
      - assert (length e2 = length pe) as El by (rewrite <- HE; by rewrite fmap_length). rewrite El in Hge, Hy.
        destruct (k - length pe)%nat as [|j] eqn:Ej; [|done]. simpl in Hy. apply (inj Some) in Hy. assert (s = s4) as -> by congruence.
        assert (k = length pe) as -> by lia. by split. }
    rewrite <- Ees in A. destruct A as (EA & new & TA & KA).
    apply foldM_fail in H2 as (pre & [[path e] s] & post & w2 & El & H2 & H3).
    assert (B : exists new', tr es (all_secs es) (all_syms pre.*1) (all_rels pre.*1) (evs ++ new ++ new') w2).
    { revert H2. apply (foldM_trace (fun pre' w => exists new', tr es (all_secs es) (all_syms pre'.*1) (all_rels pre'.*1) (evs ++ new ++ new') w)).
      { exists []. rewrite app_nil_r. done. }
      intros pre1 [[path1 e1] s1] post1 w3 w4 Hl (new' & T2) Hst. unfold add_object_symbols in Hst. apply bind_Ok in Hst as ([w5 s5] & H4 & H5).
      assert (Hk : elfs !! length pre1 = Some (path1, e1, s1)) by (rewrite El, Hl, <- app_assoc; by rewrite lookup_app_r, Nat.sub_diag by lia).
      destruct (KA _ _ _ Hk) as [K1 K2]. rewrite app_assoc in T2. apply (secs_known_mono _ _ new') in K1.
      assert (Hk' : es !! length pre1 = Some (path1, e1)) by (rewrite <- EA, list_lookup_fmap, Hk; done).
      destruct (symbols_tr wd l w0 es _ _ _ _ w3 (length pre1) path1 e1 s1 w5 s5 Hk' T2 K1 K2 H4) as (n2 & T4 & E4 & K3 & K4 & K5).
      destruct (relocations_tr wd l w0 es _ _ _ _ w5 (length pre1) path1 e1 s5 w4 Hk' T4) as (n3 & T5); [by rewrite E4|done|done|done|].
      exists (new' ++ n2 ++ n3). rewrite fmap_app. cbn [fmap list_fmap fst]. rewrite all_syms_snoc, all_rels_snoc, fmap_length. cbn [fst snd].
      by rewrite !app_assoc in *. }
    destruct B as (new' & B). unfold add_object_symbols in H3. apply bind_Err in H3 as [H3|([w3 s3] & _ & H3)]; [|exfalso; exact (o_relocations _ _ _ _ H3)].
    assert (Hk : elfs !! length pre = Some (path, e, s)) by (rewrite El; by rewrite lookup_app_r, Nat.sub_diag by lia). destruct (KA _ _ _ Hk) as [K1 _]. apply (secs_known_mono _ _ new') in K1. rewrite <- app_assoc in K1.
    apply (symbols_stop es _ _ _ w2 pre.*1 path e post.*1 s n p) with (2 := B); [|by rewrite fmap_length|exact H3]. rewrite <- EA, El, fmap_app. reflexivity.
  Qed.
  Definition full := full wd l w0.
  Lemma archives_stop lo round us ms evs w n p : full ms evs w -> process_archives_containing wd lo round l us w = Err (EAlreadyDefined n p) ->
    exists ms', Forall (is_member wd l) ms' /\ stops (cmd_objs wd l ++ ms') n p.
  Proof using.
    intros HT H. unfold process_archives_containing in H. apply foldM_fail in H as (pre & path & post & [w1 us1] & El & H1 & H2).
    assert (G : exists ms' new, full ms' new (w1, us1).1).
    { revert H1. apply (foldM_trace (fun _ st => exists ms' new, full ms' new st.1)); [by exists ms, evs|].
      intros pre' q post' [w2 us2] [w3 us3] Hl (m1 & n1 & F1 & T1) H1. unfold search_archive in H1. cbn [fst] in T1.
      destruct (wd_archive wd q) as [[ar|]|] eqn:Ea; [|discriminate H1|discriminate H1].
      apply bind_Ok in H1 as ([mem un] & _ & H1). apply bind_Ok in H1 as (w4 & H3 & [= <- <-]). cbn [fst snd] in *.
      revert H3. apply (foldM_trace (fun _ st => exists ms' new, full ms' new st)); [by exists m1, n1|].
      intros pre2 m post2 w5 w6 _ (m4 & n4 & F4 & T4) H4.
      destruct (member_tr wd l w0 ar q (cmd_objs wd l ++ m4) n4 w5 m w6) as (e & n5 & M5 & T5); [|exact Ea|exact T4|exact H4|].
      { rewrite El, Hl. apply elem_of_app; left. apply elem_of_app; right; apply elem_of_list_here. }
      exists (m4 ++ [(q, e)]), (n4 ++ n5). split; [|by rewrite !app_assoc in *]. apply Forall_app. split; [done|]. by constructor. }
    destruct G as (m1 & n1 & F1 & T1). cbn [fst] in T1. unfold search_archive in H2. destruct (wd_archive wd path) as [[ar|]|] eqn:Ea; [|discriminate H2|discriminate H2].
    apply bind_Err in H2 as [H2|([mem un] & _ & H2)]; [exfalso; exact (o_wanted _ _ _ _ H2)|]. apply bind_Err in H2 as [H2|(? & _ & H2)]; [|discriminate H2].
    assert (Hp : path ∈ lk_archives l) by (rewrite El; apply elem_of_app; right; apply elem_of_list_here).
    apply foldM_fail in H2 as (pre2 & m & post2 & w2 & _ & H2 & H3).
    assert (G : exists ms' new, full ms' new w2).
    { revert H2. apply (foldM_trace (fun _ st => exists ms' new, full ms' new st)); [by exists m1, n1|].
      intros pre3 m' post3 w5 w6 _ (m4 & n4 & F4 & T4) H4. destruct (member_tr wd l w0 ar path (cmd_objs wd l ++ m4) n4 w5 m' w6) as (e & n5 & M5 & T5); [exact Hp|exact Ea|exact T4|exact H4|].
      exists (m4 ++ [(path, e)]), (n4 ++ n5). split; [|by rewrite !app_assoc in *]. apply Forall_app. split; [done|]. by constructor. }
    destruct G as (m4 & n4 & F4 & T4). destruct (member_stop ar path _ n4 w2 m n p Hp Ea T4 H3) as (e & M & S). exists (m4 ++ [(path, e)]). split; [apply Forall_app; split; [done|]; by constructor|]. by rewrite app_assoc.
  Qed.
  Lemma loop_stop lo fuel round us ms evs w n p : full ms evs w -> resolve_loop wd lo l fuel round us w = Err (EAlreadyDefined n p) ->
    exists ms', Forall (is_member wd l) ms' /\ stops (cmd_objs wd l ++ ms') n p.
  Proof using.
    revert round us ms evs w; induction fuel as [|fuel IH]; intros round us ms evs w [HF HT] H; cbn [resolve_loop] in H; [discriminate H|].
    apply bind_Err in H as [H|([w1 n1] & H1 & H)]; [exfalso; exact (o_libs _ _ _ _ _ H)|].
    destruct (libs_tr _ _ _ _ _ _ _ _ _ _ _ _ HT H1) as [v1 T1].
    apply bind_Err in H as [H|([w2 n2] & H2 & H)]; [by eapply (archives_stop _ _ _ ms _ _ _ _ (conj HF T1))|].
    destruct (archives_tr _ _ _ _ _ _ ms _ _ _ _ (conj HF T1) H2) as (m2 & v2 & T2). destruct (_ =? _)%nat; [discriminate H|]. by eapply IH.
  Qed.
End failing.
Lemma resolve_stop wd lo l fuel n p : resolve wd lo l fuel = Err (EAlreadyDefined n p) ->
  exists w0 ms, writer_new (lk_options l) = Ok w0 /\ Forall (is_member wd l) ms /\ stops wd l w0 (cmd_objs wd l ++ ms) n p.
Proof.
  intros H. unfold resolve in H. apply bind_Err in H as [H|(w0 & H0 & H)]; [exfalso; exact (why_new other _ _ H)|]. exists w0.
  assert (T0 : tr wd l w0 (cmd_objs wd l) [] [] [] [] w0) by (split; try done; [constructor|]; intros pre v post E; by destruct pre).
  apply bind_Err in H as [H|(w1 & H1 & H)].
  - exists []. split; [exact H0|]. split; [constructor|]. rewrite app_nil_r. by eapply objects_stop.
  - destruct (load_objects_tr wd l w0 [] w0 w1 T0 H1) as (n1 & T1). destruct (loop_stop wd l w0 lo fuel 0 (undefined_symbols (lo_writer lo) w1) [] n1 w1 n p) as (ms & F & S); [|exact H|by exists ms].
    split; [constructor|]. by rewrite app_nil_r.
Qed.

(** * What the table says at that symbol *)
Lemma names_room_snoc ys y : names_room (ys ++ [y]) = names_room ys + N.of_nat (String.length (yi_name y)) + 1.
Proof. unfold names_room. induction ys as [|z ys IH]; cbn [foldr app]; lia. Qed.
Record rinv (evs : list event) (w : writer) : Prop := {
  rv_y : yinv evs w;
  rv_ok : st_ok (w_strtab w);
  rv_len : stt_total_len (w_strtab w) <= names_room (omap sym_of evs) }.
Lemma goc_ok t n t' e : st_get_or_create t n = (t', e) -> st_ok t -> st_ok t' /\ stt_total_len t' <= stt_total_len t + N.of_nat (String.length n) + 1.
Proof.
  intros H Hok. split.
  - replace t' with (intern t n) by (unfold intern; by rewrite H). by apply st_ok_intern.
  - unfold st_get_or_create in H. destruct (ModelTables.assoc n (stt_names t)) as [[i o]|]; injection H as <- <-; cbn [stt_total_len]; lia.
Qed.
Lemma replays_rinv opts w0 evs w : writer_new opts = Ok w0 -> replays w0 evs w -> rinv evs w.
Proof.
  intros H0. apply replays_inv.
  { destruct (new_tables _ _ H0) as [E1 _]. split; [by eapply yinv_0|rewrite E1; apply st_ok_default|]. rewrite E1. vm_compute. discriminate. }
  intros pre v post w1 w2 E _ [HI HO HL] Hv. destruct v as [x sr|x o r|x r sr|path e sym name so r]; simpl in Hv.
  - apply section_strtab in Hv as [E1 E2]. split; [by eapply yinv_frame| |]; rewrite E1; [done|]. rewrite omap_app. cbn [omap list_omap sym_of]. by rewrite app_nil_r.
  - split; [by eapply yinv_symbol| |]; unfold add_symbol in Hv; apply bind_Ok in Hv as ([[[names t] secs] r1] & Hin & [= <- <-]); destruct (inner_table _ _ _ _ _ _ _ _ _ _ _ Hin) as (en & Hg & Ha); destruct (goc_ok _ _ _ _ Hg HO) as [K1 K2]; [exact K1|].
    simpl w_strtab. rewrite omap_app. cbn [omap list_omap sym_of]. rewrite names_room_snoc. lia.
  - unfold add_relocation in Hv. cbv zeta in Hv. case_match; [discriminate|]. apply bind_Ok in Hv as (secs & _ & [= <-]). split; [by apply (yinv_frame _ _ w1)|exact HO|]. rewrite omap_app. cbn [omap list_omap sym_of]. by rewrite app_nil_r.
  - destruct Hv as (Hn & w3 & Ha & ->). pose proof (add_dyn_symbol_strtab _ _ _ _ _ _ _ Ha) as E1. split; [by eapply yinv_dyn| |]; rewrite add_needed_strtab, E1; [done|]. rewrite omap_app. cbn [omap list_omap sym_of]. by rewrite app_nil_r.
Qed.
Lemma entry_source t0 n k t s : syt_symbols t0 !! n = None -> add_events t0 k = Some t -> syt_symbols t !! n = Some s ->
  (defined (s_sym s) -> exists e, e ∈ k /\ SpecSym.about n e /\ defined (ev_sym e)) /\
  (binding (s_sym s) = 1 -> exists e, e ∈ k /\ SpecSym.about n e /\ binding (ev_sym e) = 1).
Proof.
  intros H0 H. revert s. revert k t H. apply (add_events_ind (fun k t => forall s, syt_symbols t !! n = Some s ->
    (defined (s_sym s) -> exists e, e ∈ k /\ SpecSym.about n e /\ defined (ev_sym e)) /\ (binding (s_sym s) = 1 -> exists e, e ∈ k /\ SpecSym.about n e /\ binding (ev_sym e) = 1))).
  { intros s Hs. rewrite H0 in Hs. discriminate Hs. }
  intros k t e t' _ IH He s Hs. rewrite (add_event_at _ _ _ n He) in Hs.
  assert (Up : forall s0, syt_symbols t !! n = Some s0 -> (defined (s_sym s0) -> exists e0, e0 ∈ k ++ [e] /\ SpecSym.about n e0 /\ defined (ev_sym e0)) /\ (binding (s_sym s0) = 1 -> exists e0, e0 ∈ k ++ [e] /\ SpecSym.about n e0 /\ binding (ev_sym e0) = 1)).
  { intros s0 Hs0. destruct (IH _ Hs0) as [I1 I2]. split; intros Hd; [destruct (I1 Hd) as (x & Hx & Hr)|destruct (I2 Hd) as (x & Hx & Hr)]; exists x; (split; [apply elem_of_app; by left|done]). }
  destruct (decide (SpecSym.about n e)) as [Ha|Ha]; [|by apply Up]. unfold merge_event in Hs.
  assert (Me : forall x : Sym, (defined x -> defined (ev_sym e)) -> (binding x = 1 -> binding (ev_sym e) = 1) -> (defined x -> exists e0, e0 ∈ k ++ [e] /\ SpecSym.about n e0 /\ defined (ev_sym e0)) /\ (binding x = 1 -> exists e0, e0 ∈ k ++ [e] /\ SpecSym.about n e0 /\ binding (ev_sym e0) = 1)).
  { intros x Q1 Q2. split; intros Q; exists e; (split; [apply elem_of_app; right; by left|]); auto. }
  destruct (syt_symbols t !! n) as [old|] eqn:Eo; [|injection Hs as <-; by apply Me].
  unfold merge_symbol in Hs. destruct (_ && _); [discriminate Hs|]. destruct (negb _); [injection Hs as <-; by apply Me|].
  destruct (_ =? _); injection Hs as <-; [|by apply Up]. split; [intros Hd; exists e; split; [apply elem_of_app; right; by left|]; by split|]. intros Hb. by apply (Up old).
Qed.
Lemma stops_twice wd l w0 ms n p : writer_new (lk_options l) = Ok w0 -> Forall (is_member wd l) ms -> stops wd l w0 (cmd_objs wd l ++ ms) n p -> twice wd l n p.
Proof.
  intros H0 HF (ys & y & rest & sk & rk & evs & w & o & E & HT & Hadd). exists (cmd_objs wd l ++ ms), ms, ys, y, rest. split; [done|]. split; [exact HF|]. split; [exact E|].
  destruct HT as [R1 _ R3 _ _]. pose proof (replays_rinv _ _ _ _ H0 R1) as [[A B _ _ _] OK LEN]. rewrite R3 in A, B, LEN.
  unfold add_symbol in Hadd. apply bind_Err in Hadd as [Hadd|([[[? ?] ?] ?] & _ & Hadd)]; [|discriminate Hadd].
  unfold add_symbol_inner in Hadd. destruct (st_get_or_create (w_strtab w) (yi_name y)) as [names en] eqn:Eg. cbv zeta in Hadd.
  destruct (syt_add_symbol _ _ _ _ _) as [[t' r]|q] eqn:Ea; [destruct o; [destruct (_ =? _); [discriminate Hadd|]; unfold mod_chunk in Hadd; exfalso; revert Hadd; apply (why_bind other); [why|discriminate]|discriminate Hadd]|].
  injection Hadd as <- <-.
  assert (Hev : ev_of names <$> ys = ev_of (w_strtab w) <$> ys).
  { apply list_fmap_ext. intros i z Hi. eapply ev_goc; [exact Eg|]. apply A. right. exists z. split; [by eapply elem_of_list_lookup_2|done]. }
  set (T := strip_tab (w_symtab w)) in *.
  assert (Hy : syt_add_symbol T (ev_sym (ev_of names y)) (elf_hash (yi_name y)) (elf_gnu_hash (yi_name y)) (yi_file y) = inr q).
  { unfold T. rewrite strip_add. cbn [ev_of ev_sym]. rewrite (off_new _ _ _ _ Eg), Ea. reflexivity. }
  assert (Hn : add_event T (ev_of names y) = None) by (unfold add_event; cbn [ev_hash ev_gnu ev_file ev_of]; rewrite Hy; reflexivity).
  apply add_refused_iff in Hn as (Hnam & old & Hold & B1 & B2 & D1 & D2).
  split; [split; [done|exact Hnam]|]. split; [exact B2|]. split; [exact D2|]. intros Hne Hroom. rewrite names_room_snoc in Hroom.
  destruct (goc_ok _ _ _ _ Eg OK) as [OK' LEN'].
  assert (Hinj : forall m m', is_Some (st_get names m) -> is_Some (st_get names m') -> off_of names m = off_of names m' -> m = m').
  { intros m m' [x Hx] [x' Hx'] Eoff. unfold off_of in Eoff. rewrite Hx, Hx' in Eoff. unfold st_get in Hx, Hx'.
    destruct (ModelTables.assoc m (stt_names names)) as [[i oo]|] eqn:Em; [|discriminate Hx]. destruct (ModelTables.assoc m' (stt_names names)) as [[i' oo']|] eqn:Em'; [|discriminate Hx'].
    injection Hx as <-. injection Hx' as <-. cbn [en_offset] in Eoff. apply (name_inj names m i oo m' i' oo'); [exact OK'|lia| | |exact Eoff]; by apply assoc_Some_elem. }
  assert (Hin : forall m, is_Some (st_get (w_strtab w) m) -> is_Some (st_get names m)) by (intros m Hm; apply (get_goc _ _ _ _ _ Eg); by left).
  assert (Hiny : is_Some (st_get names (yi_name y))) by (apply (get_goc _ _ _ _ _ Eg); by right).
  assert (Hz : forall z, z ∈ ys -> is_Some (st_get names (yi_name z))) by (intros z Hz; apply Hin, A; right; eauto).
  set (off := off_of names (yi_name y)) in *. change (st_name (ev_sym (ev_of names y))) with off in Hold.
  assert (E0 : off_of names "" = 0).
  { rewrite (off_goc _ _ _ _ "" Eg) by (apply A; by left). unfold off_of, st_get. destruct (ok_first _ OK) as [r0 Er]. rewrite Er. reflexivity. }
  assert (Hoff : off <> 0).
  { intros Ez. apply Hne. apply Hinj; [exact Hiny|apply Hin, A; by left|]. rewrite E0. exact Ez. }
  assert (Hnew : syt_symbols (syt_new false) !! off = None) by (unfold syt_new; cbn [syt_symbols]; rewrite lookup_singleton_None; congruence).
  rewrite <- Hev in B.
  assert (Hab : forall z, z ∈ ys -> SpecSym.about off (ev_of names z) <-> mentions (yi_name y) z).
  { intros z Hz'. unfold SpecSym.about, mentions. cbn [ev_of ev_sym]. change (typ (yi_sym z <| st_name := off_of names (yi_name z) |>)) with (typ (yi_sym z)). change (st_name (yi_sym z <| st_name := off_of names (yi_name z) |>)) with (off_of names (yi_name z)).
    split; [intros [X1 X2]; split; [|exact X1]; apply Hinj; [by apply Hz|exact Hiny|exact X2]|intros [X1 X2]; split; [exact X2|by rewrite X1]]. }
  assert (Src : forall e, e ∈ ev_of names <$> ys -> SpecSym.about off e -> exists z, z ∈ ys /\ mentions (yi_name y) z /\ e = ev_of names z).
  { intros e He Hae. apply elem_of_list_fmap in He as (z & -> & Hz'). exists z. split; [exact Hz'|]. split; [by apply Hab|done]. }
  split; [|split].
  - pose proof (remembered_file _ off _ _ Hnew B) as Hf. rewrite Hold in Hf. cbn [fmap option_fmap option_map] in Hf. apply add_refused_file with (e := ev_of names y) in Hy as (old' & Ho' & ->). change (st_name (ev_sym (ev_of names y))) with off in Ho'. rewrite Hold in Ho'. injection Ho' as <-.
    rewrite Hf. unfold first_file. clear -Hab. induction ys as [|z ys IH]; [done|]. rewrite fmap_cons, !filter_cons.
    pose proof (Hab z (elem_of_list_here _ _)) as Hzz. destruct (decide (SpecSym.about off (ev_of names z))) as [D|D], (decide (mentions (yi_name y) z)) as [D'|D']; [done|tauto|tauto|]. apply IH. intros x Hx. apply Hab. by right.
  - destruct (entry_source _ off _ _ old Hnew B Hold) as [S1 _]. destruct (S1 D1) as (e & He & Hae & Hd). destruct (Src e He Hae) as (z & Hz1 & Hz2 & ->). exists z. done.
  - destruct (entry_source _ off _ _ old Hnew B Hold) as [_ S1]. destruct (S1 B1) as (e & He & Hae & Hd). destruct (Src e He Hae) as (z & Hz1 & Hz2 & ->). exists z. done.
Qed.

(** * All errors *)
Lemma why_disk B o w : why B (write_to_disk o w).
Proof. unfold write_to_disk, sec_finalize. why. Qed.
Lemma error_cause wd lo l fuel e : valid_orders lo -> link_writer wd lo l fuel = Err e -> cause wd l e.
Proof.
  intros V H. unfold link_writer in H. apply bind_Err in H as [H|(w & Hw & H)].
  - pose proof (w_resolve wd l lo fuel (proj2 (proj2 V)) e H) as C. destruct e; try exact C; [|destruct C].
    destruct (resolve_stop _ _ _ _ _ _ H) as (w0 & ms & H0 & HF & HS). by eapply stops_twice.
  - apply bind_Err in H as [H|(w2 & Hw2 & H)]; [exfalso; exact (why_compute none _ _ _ H)|]. apply bind_Err in H as [H|(? & _ & H)]; [|discriminate H].
    destruct (why_check _ _ _ H) as (ns & -> & Hns). exact Hns.
Qed.
Lemma link_cause wd lo l fuel fx e : valid_orders lo -> link wd lo l fuel = (fx, Err e) -> (e = EIo /\ wd_can_create wd = false) \/ cause wd l e.
Proof.
  intros V H. unfold link in H. cbv zeta in H. destruct (wd_can_create wd); [|injection H as <- <-; by left]. right.
  destruct (link_bytes wd lo l fuel) as [data|e'|p] eqn:E; [discriminate H| |discriminate H]. injection H as <- <-.
  unfold link_bytes in E. apply bind_Err in E as [E|(w & _ & E)]; [by eapply error_cause|]. exfalso. exact (why_disk none _ _ _ E).
Qed.
