(** The process as a whole (src/main.rs:42-64): exit status, output, effects,
    and the text of the message about undefined symbols (src/lib.rs:262-270,
    src/error.rs:33-37). *)
From Verif Require Export ModelArgs.

(** A line break *)
Definition nl : string := String (Ascii.ascii_of_nat 10) EmptyString.

(** src/main.rs:7-28 *)
Definition HELP : string := "dld 0.1.0

USAGE:
  dld [OPTIONS] INPUTS

FLAGS:
  -h, --help    Prints help information

OPTIONS:
  -o FILE  Where to output the ELF file.
  -L DIRECTORY  A directory in which to look for libraries.
                Can be specified multiple times.
  -l LIBRARY  A library to link against.
              Can be specified multiple times.
  --build-id [STYLE]  Generate a unique identifier for the build.
  -m EMULATION  The emulation to use.
  --eh-frame-hdr  Create .eh_frame_hdr section.
  -dynamic-linker PATH  Set path to dynamic linker.
  --as-needed  Only set DT_NEEDED for following dynamic libs if used.
  --no-as-needed  Always set DT_NEEDED for following dynamic libs.
  --hash-style STYLE  Set hash style.
".

(** [\[String\]::join] (std), used at src/lib.rs:290 *)
Fixpoint join_with (sep : string) (l : list string) : string :=
  match l with
  | [] => ""
  | [s] => s
  | s :: l' => String.append s (String.append sep (join_with sep l'))
  end.
(** src/lib.rs:288-293 *)
Definition format_list (v : list string) : string := String.append "[" (String.append (join_with ", " v) "]").
(** src/error.rs:33-37 for the error made at src/lib.rs:268-269. Other errors
    carry texts of goblin and the operating system, which are not modelled. *)
Definition message_of (out : string) (e : lerror) : option string :=
  match e with
  | EUndefined names => Some (String.append "`" (String.append out (String.append "`: " (format_list names))))
  | _ => None
  end.

(** A finished or running process. [jb_status] is [None] while it is running (a
    loop without bound has used up its fuel). [jb_message] is the text [main]
    returns, where modelled. *)
Record job := mkJob {
  jb_status : option N; jb_stdout : string; jb_effects : list effect; jb_message : option string }.

(** std: [main] returning [Ok] is status 0, [Err] 1, a panic 101. *)
Definition status_of {A} (r : res A) : option N :=
  match r with Ok _ => Some 0 | Err _ => Some 1 | Panic PFuel => None | Panic _ => Some 101 end.

(** src/main.rs:57-63 *)
Definition run_linker (wd : world) (lo : lib_oracle) (fuel : nat) (l : linker) : job :=
  let '(effs, r) := link wd lo l fuel in
  mkJob (status_of r)
    match r with
    | Ok _ => String.append "Elf executable in: " (String.append (opt_output (lk_options l)) nl)
    | _ => ""
    end effs
    match r with Err e => message_of (opt_output (lk_options l)) e | _ => None end.

(** src/main.rs:42-64. [sfuel], [fuel] and [lfuel] bound the rounds of the script
    parser, of the loop over scripts and of the resolution loop. *)
Definition main_run (fs : main_fs) (ord : list string -> list string) (wd : world) (lo : lib_oracle) (sfuel fuel lfuel : nat)
    (args : list string) : job :=
  match main_linker fs ord sfuel fuel args with
  | Ok None => mkJob (Some 0) (String.append HELP nl) [] None
  | Ok (Some l) => run_linker wd lo lfuel l
  | r => mkJob (status_of r) "" [] None
  end.
