(** The program as a command: exit status, what is printed, which inputs are
    used, the message about undefined symbols, the entry point. *)
From Verif Require Export SpecOutput SpecMissing ModelMain.

(** * Exit status *)
(** Nothing at [path] changed, or there is now an empty file with the mode it had. *)
Definition untouched_or_emptied (dflt : N) (path : string) (before after : option (bytes * N)) : Prop :=
  after = before \/ after = Some ([], match before with Some x => x.2 | None => dflt end).

(** * Inputs *)
(** What a file is by its first bytes: an archive ("!<arch>" and a line break),
    a shared library (an ELF file of type ET_DYN, 3), another ELF file, or a text. *)
Inductive sort_of_file := SArchive | SShared | SObject | SScript.
Definition prefixed (magic head : bytes) : bool := bool_decide (take (length magic) head = magic).
Definition file_sort (head : bytes) : sort_of_file :=
  if blen head <? 18 then SScript
  else if prefixed [0x21; 0x3c; 0x61; 0x72; 0x63; 0x68; 0x3e; 0x0a] head then SArchive
  else if prefixed [0x7f; 0x45; 0x4c; 0x46] head then
    match head !! 16%nat, head !! 17%nat with Some 3, Some 0 => SShared | _, _ => SObject end
  else SScript.
(** At most 18 bytes of a file are looked at. *)
Definition short_heads (fs : main_fs) : Prop := forall p h, fs_head fs p = Some h -> blen h <= 18.

(** [p] is the file that [name] stands for: the file of that name, or one of
    that name, or a library of that name, in a directory given by -L. *)
Definition stands_for (fs : main_fs) (l : list token) (name p : string) : Prop :=
  fs_is_file fs p = true /\ (p = name \/ exists d, d ∈ omap (dir_of fs) l /\ (p = path_join d name \/ p = lib_file d name "so" \/ p = lib_file d name "a")).
Definition is_sort (fs : main_fs) (k : sort_of_file) (p : string) : Prop := exists h, fs_head fs p = Some h /\ file_sort h = k.
(** [files] are the inputs of one sort, in order, as [show] shows them. *)
Inductive picks {A} (fs : main_fs) (l : list token) (at_ : string -> string) (k : sort_of_file) (show : string -> bool -> option A) : list (string * bool) -> list A -> Prop :=
| picks_nil : picks fs l at_ k show [] []
| picks_yes n b ins a files : stands_for fs l n (at_ n) -> is_sort fs k (at_ n) -> show (at_ n) b = Some a -> picks fs l at_ k show ins files -> picks fs l at_ k show ((n, b) :: ins) (a :: files)
| picks_no n b ins k' files : stands_for fs l n (at_ n) -> is_sort fs k' (at_ n) -> k' <> k -> picks fs l at_ k show ins files -> picks fs l at_ k show ((n, b) :: ins) files.

(** * The message *)
(** The pieces of a text between separators ", ". *)
Fixpoint items (acc : string) (s : string) : list string :=
  match s with
  | EmptyString => [acc]
  | String a r =>
      match r with
      | String b r' => if (Ascii.eqb a "," && Ascii.eqb b " ")%bool then acc :: items "" r' else items (String.append acc (String a "")) r
      | EmptyString => [String.append acc (String a "")]
      end
  end.
(** The message names the output file and lists [names]. *)
Definition lists (msg out : string) (names : list string) : Prop :=
  exists body, msg = String.append "`" (String.append out (String.append "`: [" (String.append body "]"))) /\ items "" body = names.
Definition comma_free (s : string) : Prop := forall i, String.get i s <> Some ","%char.

(** * The entry point *)
(** A process is started at the address in the header of its file. *)
Definition starts_at (data : bytes) : option N := e_entry <$> rd_ehdr data 0.

(** Files can be read and their paths be resolved. *)
Definition readable_fs (fs : main_fs) : Prop := forall p, fs_is_file fs p = true -> is_Some (fs_head fs p) /\ is_Some (fs_canonicalize fs p).
Definition all_found (fs : main_fs) (l : list token) : Prop := forall n b, (n, b) ∈ inputs_of false l -> exists p, stands_for fs l n p.
