(** Linker scripts as text: comments, OUTPUT_FORMAT and GROUP commands with
    arbitrary white space, and the arguments such a script stands for. *)
From Verif Require Export SpecBase.
From Coq Require Export Ascii.

Definition text := list ascii.
Definition txt : string -> text := list_ascii_of_string.

Definition space_char (c : ascii) : Prop := N_of_ascii c ∈ [9; 10; 11; 12; 13; 32].
Definition spaces (w : text) : Prop := Forall space_char w.
(** Letters, digits, and the four punctuation characters of file names and options. *)
Definition name_char (c : ascii) : Prop :=
  48 <= N_of_ascii c <= 57 \/ 65 <= N_of_ascii c <= 90 \/ 97 <= N_of_ascii c <= 122 \/ N_of_ascii c ∈ [45; 46; 95; 47].
Definition word (a : text) : Prop := a <> [] /\ Forall name_char a.

(** Words with the space after each. *)
Fixpoint word_list (l : list (text * text)) : Prop :=
  match l with
  | [] => True
  | (a, w) :: l' => word a /\ spaces w /\ (l' <> [] -> w <> []) /\ word_list l'
  end.

(** A member of a group: a name, or AS_NEEDED ( names ). *)
Inductive member :=
| Name (a : text)
| AsNeeded (before inside : text) (names : list (text * text)).
Definition member_ok (m : member) : Prop :=
  match m with
  | Name a => word a
  | AsNeeded before inside names => spaces before /\ spaces inside /\ word_list names
  end.
(** A name must be separated from what follows. *)
Fixpoint members (l : list (member * text)) : Prop :=
  match l with
  | [] => True
  | (m, w) :: l' => member_ok m /\ spaces w /\ (l' <> [] -> match m with Name _ => w <> [] | _ => True end) /\ members l'
  end.

Inductive command :=
| Blank (c : ascii)
| Comment (body : text)
| OutputFormat (before inside name after : text)
| Group (before inside : text) (l : list (member * text)).
(** A comment ends at the first "*/". *)
Definition comment_body (body : text) : Prop := forall a b, body ++ txt "*/" = a ++ txt "*/" ++ b -> b = [].
Definition command_ok (c : command) : Prop :=
  match c with
  | Blank c => space_char c
  | Comment body => comment_body body
  | OutputFormat before inside name after => spaces before /\ spaces inside /\ word name /\ spaces after
  | Group before inside l => spaces before /\ spaces inside /\ members l
  end.

(** * The text of a script *)
Definition words_text (l : list (text * text)) : text := concat ((fun x => x.1 ++ x.2) <$> l).
Definition member_text (m : member) : text :=
  match m with
  | Name a => a
  | AsNeeded before inside names => txt "AS_NEEDED" ++ before ++ txt "(" ++ inside ++ words_text names ++ txt ")"
  end.
Definition members_text (l : list (member * text)) : text := concat ((fun x => member_text x.1 ++ x.2) <$> l).
Definition command_text (c : command) : text :=
  match c with
  | Blank c => [c]
  | Comment body => txt "/*" ++ body ++ txt "*/"
  | OutputFormat before inside name after => txt "OUTPUT_FORMAT" ++ before ++ txt "(" ++ inside ++ name ++ after ++ txt ")"
  | Group before inside l => txt "GROUP" ++ before ++ txt "(" ++ inside ++ members_text l ++ txt ")"
  end.
Definition script_text (l : list command) : text := concat (command_text <$> l).

(** * The arguments it stands for *)
Definition member_args (m : member) : list text :=
  match m with Name a => [a] | AsNeeded _ _ names => txt "--as-needed" :: names.*1 end.
Definition command_args (c : command) : list text :=
  match c with Group _ _ l => concat ((fun x => member_args x.1) <$> l) | _ => [] end.
Definition script_args (l : list command) : list text := concat (command_args <$> l).

(** * What the parser copes with *)

(** Names in a group must not start with A, comments must not contain a
    star. *)
Definition easy_member (m : member) : Prop := match m with Name (c :: _) => c <> "A"%char | _ => True end.
Definition easy (c : command) : Prop :=
  match c with
  | Comment body => "*"%char ∉ body
  | Group _ _ l => forall m w, (m, w) ∈ l -> easy_member m
  | _ => True
  end.
