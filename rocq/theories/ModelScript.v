(** The linker script parser (src/linker_script.rs) and the parts of the
    [combine] 4.6 parser library it uses. *)
From Verif Require Export ModelBase.

(** * combine's parsers

    Input is a list of characters. Simplification: characters are ASCII (the
    classes [alphanumeric]/[whitespace] are their ASCII parts). A parser
    either succeeds or fails, and in both cases says whether it has consumed
    input (combine's CommitOk/PeekOk/CommitErr/PeekErr). [PDiv]: the parser
    never returns. *)
Notation chars := (list ascii).
Inductive pr (A : Type) :=
| POk (committed : bool) (a : A) (rest : chars)
| PErr (committed : bool)
| PDiv.
Arguments POk {_} _ _ _.
Arguments PErr {_} _.
Arguments PDiv {_}.
Definition parser (A : Type) := chars -> pr A.

(** [satisfy], [char], [alpha_num], [space] *)
Definition p_satisfy (f : ascii -> bool) : parser ascii := fun i =>
  match i with
  | c :: i' => if f c then POk true c i' else PErr false
  | [] => PErr false
  end.
Definition p_char (c : ascii) : parser ascii := p_satisfy (Ascii.eqb c).
Definition is_whitespace (c : ascii) : bool :=
  let n := N_of_ascii c in ((9 <=? n) && (n <=? 13)) || (n =? 32).
Definition is_alnum (c : ascii) : bool :=
  let n := N_of_ascii c in
  ((48 <=? n) && (n <=? 57)) || ((65 <=? n) && (n <=? 90)) || ((97 <=? n) && (n <=? 122)).
Definition p_space : parser ascii := p_satisfy is_whitespace.

(** [string]: fails with commit after a partial match. *)
Fixpoint p_tokens (consumed : bool) (s : chars) : parser unit := fun i =>
  match s with
  | [] => POk consumed tt i
  | c :: s' =>
      match i with
      | d :: i' => if Ascii.eqb c d then p_tokens true s' i' else PErr consumed
      | [] => PErr consumed
      end
  end.
Definition p_string (s : chars) : parser unit := p_tokens false s.

(** Sequencing (tuples, [map], [with]): an error after consuming is a committed error. *)
Definition p_bind {A B} (p : parser A) (f : A -> parser B) : parser B := fun i =>
  match p i with
  | POk c a i' =>
      match f a i' with
      | POk c' b i'' => POk (c || c') b i''
      | PErr c' => PErr (c || c')
      | PDiv => PDiv
      end
  | PErr c => PErr c
  | PDiv => PDiv
  end.
Definition p_ret {A} (a : A) : parser A := fun i => POk false a i.
Definition p_map {A B} (f : A -> B) (p : parser A) : parser B := p_bind p (fun a => p_ret (f a)).

(** [or]/[choice]: the second is tried only after an uncommitted failure. *)
Definition p_or {A} (p q : parser A) : parser A := fun i =>
  match p i with PErr false => q i | r => r end.

(** [optional] *)
Definition p_optional {A} (p : parser A) : parser (option A) := fun i =>
  match p i with
  | POk c a i' => POk c (Some a) i'
  | PErr false => POk false None i
  | PErr true => PErr true
  | PDiv => PDiv
  end.

(** [many] (and [skip_many], which drops the results): repeat until an
    uncommitted failure. [fuel] bounds the number of repetitions; an item that
    succeeds without consuming would repeat forever. *)
Fixpoint p_many_fuel {A} (fuel : nat) (p : parser A) : parser (list A) := fun i =>
  match p i with
  | PErr false => POk false [] i
  | PErr true => PErr true
  | PDiv => PDiv
  | POk c a i' =>
      match fuel with
      | O => PDiv
      | S fuel' =>
          match p_many_fuel fuel' p i' with
          | POk c' l i'' => POk (c || c') (a :: l) i''
          | PErr c' => PErr (c || c')
          | PDiv => PDiv
          end
      end
  end.
Definition p_many {A} (p : parser A) : parser (list A) := fun i => p_many_fuel (length i) p i.
Definition p_many1 {A} (p : parser A) : parser (list A) :=
  p_bind p (fun a => p_map (cons a) (p_many p)).
Definition p_skip_many {A} (p : parser A) : parser unit := p_map (fun _ => tt) (p_many p).
Definition p_skip_many1 {A} (p : parser A) : parser unit := p_map (fun _ => tt) (p_many1 p).

(** [between(open, close, p)] *)
Definition p_between {A B C} (o : parser A) (c : parser B) (p : parser C) : parser C :=
  p_bind o (fun _ => p_bind p (fun x => p_map (fun _ => x) c)).

(** [sep_end_by(p, sep)]: one [p], then repeatedly [sep] and optionally another
    [p]; stops after a [sep] not followed by [p]. *)
Fixpoint p_sep_rest {A B} (fuel : nat) (p : parser A) (sep : parser B) : parser (list A) := fun i =>
  match p_bind sep (fun _ => p_optional p) i with
  | PErr false => POk false [] i
  | PErr true => PErr true
  | PDiv => PDiv
  | POk c None i' => POk c [] i'
  | POk c (Some a) i' =>
      match fuel with
      | O => PDiv
      | S fuel' =>
          match p_sep_rest fuel' p sep i' with
          | POk c' l i'' => POk (c || c') (a :: l) i''
          | PErr c' => PErr (c || c')
          | PDiv => PDiv
          end
      end
  end.
Definition p_sep_end_by {A B} (p : parser A) (sep : parser B) : parser (list A) := fun i =>
  match p i with
  | POk c a i' =>
      match p_sep_rest (length i') p sep i' with
      | POk c' l i'' => POk (c || c') (a :: l) i''
      | PErr c' => PErr (c || c')
      | PDiv => PDiv
      end
  | PErr false => POk false [] i
  | PErr true => PErr true
  | PDiv => PDiv
  end.

(** [skip_until(end)]: skip characters until [end] would match ([end] itself is
    not consumed). A committed failure of [end] is an error (combine's
    documentation of [skip_until], example "123TATAG"). *)
Fixpoint p_skip_until (e : parser unit) (i : chars) : pr unit :=
  match e i with
  | POk _ _ _ => POk false tt i
  | PErr true => PErr true
  | PDiv => PDiv
  | PErr false =>
      match i with
      | [] => PErr false
      | _ :: i' =>
          match p_skip_until e i' with
          | POk _ u i'' => POk true u i''
          | PErr _ => PErr true
          | PDiv => PDiv
          end
      end
  end.

(** * src/linker_script.rs *)

Definition chr := list_ascii_of_string.

(** src/linker_script.rs:8-14: characters of an argument *)
Definition is_arg_char (c : ascii) : bool :=
  is_alnum c || Ascii.eqb c "-" || Ascii.eqb c "." || Ascii.eqb c "_" || Ascii.eqb c "/".
Definition parse_arg : parser chars :=
  p_many1 (p_or (p_satisfy is_alnum) (p_or (p_char "-") (p_or (p_char ".") (p_or (p_char "_") (p_char "/"))))).

(** src/linker_script.rs:16-22 *)
Definition parse_comment : parser unit :=
  p_between (p_string (chr "/*")) (p_string (chr "*/")) (p_skip_until (p_string (chr "*/"))).

(** src/linker_script.rs:39-52 *)
Definition parse_as_needed_command : parser (list chars) :=
  p_bind (p_string (chr "AS_NEEDED")) (fun _ =>
  p_bind (p_skip_many p_space) (fun _ =>
  p_map (cons (chr "--as-needed"))
    (p_between (p_char "(") (p_char ")")
       (p_bind (p_skip_many p_space) (fun _ => p_sep_end_by parse_arg (p_skip_many p_space)))))).

(** src/linker_script.rs:25-36 *)
Definition parse_group_command : parser (list chars) :=
  p_bind (p_string (chr "GROUP")) (fun _ =>
  p_bind (p_skip_many p_space) (fun _ =>
  p_map (@concat chars)
    (p_between (p_char "(") (p_char ")")
       (p_bind (p_skip_many p_space) (fun _ =>
          p_sep_end_by (p_or parse_as_needed_command (p_map (fun v => [v]) parse_arg))
                       (p_skip_many p_space)))))).

(** src/linker_script.rs:55-64 *)
Definition parse_output_format_command : parser (list chars) :=
  p_bind (p_string (chr "OUTPUT_FORMAT")) (fun _ =>
  p_bind (p_skip_many p_space) (fun _ =>
  p_map (fun _ => [])
    (p_between (p_char "(") (p_char ")")
       (p_bind (p_skip_many p_space) (fun _ =>
        p_bind parse_arg (fun _ => p_skip_many p_space)))))).

(** src/linker_script.rs:68-73 *)
Definition skip_ws_and_comments : parser unit :=
  p_skip_many (p_or (p_skip_many1 p_space) (p_or parse_comment (p_map (fun _ => tt) (p_char "010")))).
Definition parse_line : parser (option (list chars)) :=
  p_bind skip_ws_and_comments (fun _ =>
    p_optional (p_or parse_group_command parse_output_format_command)).

(** Outcome of [parse]: still running after [fuel] rounds, a parse error, or the arguments. *)
Inductive script_result :=
| SRunning
| SError
| SArgs (args : list chars).

(** src/linker_script.rs:74-84 *)
Fixpoint parse_loop (fuel : nat) (new_args : list chars) (input : chars) : script_result :=
  match fuel with
  | O => SRunning
  | S fuel' =>
      match parse_line input with
      | PErr _ => SError
      | PDiv => SRunning
      | POk _ args leftover =>
          let new_args := new_args ++ default [] args in
          match leftover with
          | [] => SArgs new_args
          | _ => parse_loop fuel' new_args leftover
          end
      end
  end.

(** src/linker_script.rs:66-86 *)
Definition parse_script (fuel : nat) (input : chars) : script_result := parse_loop fuel [] input.
