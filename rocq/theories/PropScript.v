(** C49, C50: what linker scripts mean to the parser, and whether it stops. *)
From Verif Require Import ProofScript.

(** * C49 *)

(** A star inside a comment is an error, and so is a name starting with A. *)
Lemma spaces_dec w : bool_decide (Forall (fun c => N_of_ascii c ∈ [9; 10; 11; 12; 13; 32]) w) = true -> spaces w.
Proof. intros H. by apply bool_decide_eq_true_1 in H. Qed.
Lemma word_dec a : bool_decide (a <> []) && forallb is_arg_char a = true -> word a.
Proof.
  rewrite andb_true_iff. intros [H1 H2]. split; [by apply bool_decide_eq_true_1 in H1|]. apply Forall_forall. intros c Hc. apply arg_char_spec.
  rewrite forallb_forall in H2. apply H2. by apply elem_of_list_In.
Qed.
Lemma comment_body_dec body : forallb (fun k => negb (bool_decide (take 2 (drop k (body ++ txt "*/")) = txt "*/"))) (seq 0 (length body)) = true -> comment_body body.
Proof.
  rewrite forallb_forall. intros H a b E. destruct (decide (length a < length body)%nat) as [Hlt|Hge].
  - exfalso. specialize (H (length a)). rewrite E, drop_app in H. apply negb_true_iff, bool_decide_eq_false_1 in H; [done|]. apply in_seq. lia.
  - apply (f_equal length) in E. rewrite !app_length in E. destruct b; [done|]. simpl in E. lia.
Qed.
Definition starred : list command := [Comment (txt " a * b "); Group [] [] [(Name (txt "x"), [])]].
Lemma starred_ok : Forall command_ok starred.
Proof.
  constructor; [|constructor; [|constructor]].
  - apply comment_body_dec. vm_compute. reflexivity.
  - split; [constructor|]. split; [constructor|]. split; [by apply word_dec|]. split; [constructor|]. done.
Qed.
Theorem C49_refuted_star : exists l, Forall command_ok l /\ forall fuel, parse_script (S fuel) (script_text l) = SError.
Proof. exists starred. split; [exact starred_ok|]. intros fuel. reflexivity. Qed.
Print Assumptions C49_refuted_star.
Definition named_a : list command := [Group [] [] [(Name (txt "Abc.so"), [])]].
Theorem C49_refuted_name : exists l, Forall command_ok l /\ forall fuel, parse_script (S fuel) (script_text l) = SError.
Proof.
  exists named_a. split; [|intros fuel; reflexivity]. constructor; [|constructor]. split; [constructor|]. split; [constructor|].
  split; [by apply word_dec|]. split; [constructor|]. done.
Qed.
Print Assumptions C49_refuted_name.

(** Every other script yields its arguments, in order. *)
Theorem C49_partial : forall l fuel, Forall command_ok l -> Forall easy l -> (length l < fuel)%nat ->
  parse_script fuel (script_text l) = SArgs (script_args l).
Proof. intros l fuel H1 H2 H3. unfold parse_script. by rewrite (script_parses (length l)). Qed.
Print Assumptions C49_partial.
Definition libc : list command :=
  [Comment (txt " GNU ld script "); Blank "010"%char; OutputFormat [] [] (txt "elf64-x86-64") []; Blank "010"%char;
   Group (txt " ") (txt " ") [(Name (txt "/lib/libc.so.6"), txt "  "); (AsNeeded (txt " ") (txt " ") [(txt "ld-2.so", txt " "); (txt "-lm", [])], []);
     (Name (txt "x"), txt " ")]; Blank "010"%char].
Example C49_case : Forall command_ok libc /\ Forall easy libc /\
  script_text libc = txt "/* GNU ld script */
OUTPUT_FORMAT(elf64-x86-64)
GROUP ( /lib/libc.so.6  AS_NEEDED ( ld-2.so -lm)x )
" /\ script_args libc = txt <$> ["/lib/libc.so.6"; "--as-needed"; "ld-2.so"; "-lm"; "x"].
Proof.
  assert (Hc : comment_body (txt " GNU ld script ")).
  { apply comment_body_dec. vm_compute. reflexivity. }
  split; [|split; [|done]].
  - constructor; [exact Hc|]. constructor; [by apply space_spec|]. constructor.
    { split; [constructor|]. split; [constructor|]. split; [by apply word_dec|constructor]. }
    constructor; [by apply space_spec|]. constructor; [|constructor; [by apply space_spec|constructor]].
    split; [by apply spaces_dec|]. split; [by apply spaces_dec|]. split; [by apply word_dec|]. split; [by apply spaces_dec|]. split; [done|].
    split. { split; [by apply spaces_dec|]. split; [by apply spaces_dec|]. split; [by apply word_dec|]. split; [by apply spaces_dec|]. split; [done|].
      split; [by apply word_dec|]. split; [constructor|]. done. }
    split; [constructor|]. split; [done|]. split; [by apply word_dec|]. split; [by apply spaces_dec|]. done.
  - constructor; [apply (bool_decide_eq_true_1 _); vm_compute; reflexivity|]. constructor; [done|]. constructor; [done|]. constructor; [done|]. constructor; [|constructor; [done|constructor]].
    intros m w Hm. rewrite !elem_of_cons, elem_of_nil in Hm. destruct Hm as [[= -> ->]|[[= -> ->]|[[= -> ->]|[]]]]; done.
Qed.

(** * C50 *)

(** An unknown command is neither consumed nor an error: the loop never ends. *)
Theorem C50_refuted : exists input, forall fuel, parse_script fuel input = SRunning.
Proof. exists (txt "INPUT(x)"). intros fuel. eapply loop_stuck; [vm_compute; reflexivity|done]. Qed.
Print Assumptions C50_refuted.

(** For every text the parser either stops, after no more rounds than there are
    characters (plus one), or runs forever; and the latter only at a character
    that is no white space and starts neither a comment nor a known command. *)
Theorem C50_partial : forall input,
  (exists r, r <> SRunning /\ forall fuel, (length input < fuel)%nat -> parse_script fuel input = r) \/
  ((forall fuel, parse_script fuel input = SRunning) /\
   exists before c after, input = before ++ c :: after /\ ¬ space_char c /\ c ∉ ["/"; "G"; "O"]%char).
Proof.
  intros input. destruct (loop_result _ input (le_n _)) as [H|[H1 H2]]; [left; apply H|right; split; [|done]]. intros fuel. apply H1.
Qed.
Print Assumptions C50_partial.
Example C50_case : parse_script 3 (txt "GROUP(a)/* */ GROUP(b") = SError /\ parse_script 3 (txt "GROUP(a)/* */ GROUP(b)") = SArgs (txt <$> ["a"; "b"]).
Proof. split; vm_compute; reflexivity. Qed.
