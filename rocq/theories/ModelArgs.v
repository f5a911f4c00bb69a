(** The command line front end (src/main.rs, src/elf/options.rs). *)
From Verif Require Export ModelLinker ModelScript.

(** * src/elf/options.rs: FromStr implementations *)

(** src/elf/options.rs:11-25 *)
Definition build_id_from_str (s : string) : res build_id :=
  if decide (s = "uuid") then Ok BUuid
  else if decide (s = "sha1") then Ok BSha1
  else if decide (s = "md5") then Ok BMd5
  else match s with
       | String "0" (String "x" rest) => Ok (BHex rest)
       | _ => Err (EUsage "build-id")
       end.
(** src/elf/options.rs:27-31 *)
Definition build_id_default : build_id := BSha1.
(** src/elf/options.rs:40-51 *)
Definition hash_style_from_str (s : string) : res hash_style :=
  if decide (s = "sysv") then Ok HSysv
  else if decide (s = "gnu") then Ok HGnu
  else if decide (s = "both") then Ok HBoth
  else Err (EUsage "hash-style").
(** src/elf/options.rs:64-73 *)
Definition emulation_from_str (s : string) : res emulation :=
  if decide (s = "elf_x86_64") then Ok ElfX86_64 else Err (EUsage "emulation").

(** * src/main.rs *)

(** The file system as seen by src/main.rs. *)
Record main_fs := mkMainFs {
  fs_is_file : string -> bool;               (* exists() && is_file() *)
  fs_canonicalize : string -> option string;
  fs_head : string -> option bytes;          (* first 18 bytes, fewer if the file is shorter; None if it cannot be opened *)
  fs_text : string -> option chars }.        (* read_to_string *)

(** src/main.rs:30-40. The two HashSets are duplicate-free lists; the order in
    which [search_paths] is iterated is the order of the list and may be
    permuted arbitrarily (see [search_for_inputs]). *)
Record app_args := mkAppArgs {
  ap_opts : options;
  ap_objects : list string;
  ap_archives : list string;
  ap_search_paths : list string;
  ap_scripts : list string;
  ap_inputs : list (string * bool);
  ap_help : bool;
  ap_as_needed : bool }.
Global Instance eta_app_args : Settable _ :=
  settable! mkAppArgs <ap_opts; ap_objects; ap_archives; ap_search_paths; ap_scripts;
    ap_inputs; ap_help; ap_as_needed>.

(** [AppArgs::default()] *)
Definition app_default : app_args := mkAppArgs options_default [] [] [] [] [] false false.

(** HashSet insertion *)
Definition set_insert (x : string) (l : list string) : list string :=
  if decide (x ∈ l) then l else l ++ [x].

(** [str::strip_prefix] *)
Fixpoint strip_prefix (p s : string) : option string :=
  match p, s with
  | EmptyString, _ => Some s
  | String c p', String d s' => if Ascii.eqb c d then strip_prefix p' s' else None
  | String _ _, EmptyString => None
  end.
Definition starts_with (p s : string) : bool := bool_decide (is_Some (strip_prefix p s)).

(** What one iteration of the loop does with the current argument and the rest. *)
Definition arg_value (name : string) (rest : list string) : res (string * list string) :=
  match rest with
  | [] => Err (EUsage name)                  (* "Missing argument ... for ..." *)
  | v :: rest => Ok (v, rest)
  end.

(** src/main.rs:181-189: arguments not matched literally *)
Definition handle_special_arg (fs : main_fs) (arg : string) (app : app_args) : res app_args :=
  match strip_prefix "-L" arg with
  | Some p =>
      p ← unwrap (fs_canonicalize fs p);
      Ok (app <| ap_search_paths := set_insert p (ap_search_paths app) |>)
  | None =>
      match strip_prefix "-l" arg with
      | Some lib => Ok (app <| ap_inputs := ap_inputs app ++ [(lib, ap_as_needed app)] |>)
      | None =>
          match strip_prefix "--hash-style=" arg with
          | Some v => h ← hash_style_from_str v; Ok (app <| ap_opts := ap_opts app <| opt_hash_style := h |> |>)
          | None => Ok (app <| ap_inputs := ap_inputs app ++ [(arg, ap_as_needed app)] |>)
          end
      end
  end.

(** src/main.rs:107-189: one iteration; returns the remaining arguments *)
Definition handle_arg (fs : main_fs) (arg : string) (rest : list string) (app : app_args)
  : res (app_args * list string) :=
  let set_bid b app := app <| ap_opts := ap_opts app <| opt_build_id := Some b |> |> in
  if decide (arg = "--build-id") then
    match rest with
    | v :: rest' =>
        if negb (starts_with "--" v) && negb (starts_with "-" v)
        then b ← build_id_from_str v; Ok (set_bid b app, rest')
        else Ok (set_bid build_id_default app, rest)
    | [] => Ok (set_bid build_id_default app, rest)
    end
  else if decide (arg = "-m") then
    '(v, rest) ← arg_value "-m" rest;
    e ← emulation_from_str v;
    Ok (app <| ap_opts := ap_opts app <| opt_emulation := e |> |>, rest)
  else if decide (arg = "-o") then
    '(v, rest) ← arg_value "-o" rest;
    Ok (app <| ap_opts := ap_opts app <| opt_output := v |> |>, rest)
  else if decide (arg = "--eh-frame-hdr") then
    Ok (app <| ap_opts := ap_opts app <| opt_eh_frame_hdr := true |> |>, rest)
  else if decide (arg = "--help") then Ok (app <| ap_help := true |>, rest)
  else if decide (arg = "-h") then Ok (app <| ap_help := true |>, rest)
  else if decide (arg = "-dynamic-linker") then
    '(v, rest) ← arg_value "-dynamic-linker" rest;
    Ok (app <| ap_opts := ap_opts app <| opt_dynamic_linker := v |> |>, rest)
  else if decide (arg = "-L") then
    '(v, rest) ← arg_value "-L" rest;
    Ok (app <| ap_search_paths := set_insert v (ap_search_paths app) |>, rest)
  else if decide (arg = "-l") then
    '(v, rest) ← arg_value "-l" rest;
    Ok (app <| ap_inputs := ap_inputs app ++ [(v, ap_as_needed app)] |>, rest)
  else if decide (arg = "-z") then
    '(_, rest) ← arg_value "-z" rest;
    Ok (app, rest)
  else if decide (arg = "--as-needed") then Ok (app <| ap_as_needed := true |>, rest)
  else if decide (arg = "--no-as-needed") then Ok (app <| ap_as_needed := false |>, rest)
  else if decide (arg = "--start-group") then Ok (app, rest)
  else if decide (arg = "--end-group") then Ok (app, rest)
  else app ← handle_special_arg fs arg app; Ok (app, rest).

(** src/main.rs:102-192. Each iteration takes at least one argument, so the
    number of arguments is enough [fuel] ([handle_linker_args]). *)
Fixpoint handle_args_fuel (fs : main_fs) (fuel : nat) (args : list string) (app : app_args) : res app_args :=
  match args with
  | [] => Ok app
  | arg :: rest =>
      match fuel with
      | O => Panic PFuel
      | S fuel' =>
          '(app, rest) ← handle_arg fs arg rest app;
          handle_args_fuel fs fuel' rest app
      end
  end.
Definition handle_linker_args (fs : main_fs) (args : list string) (app : app_args) : res app_args :=
  handle_args_fuel fs (length args) args app.

(** src/main.rs:66-72 *)
Inductive file_kind := KArchive | KElfObject | KElfSharedLib | KText.

(** goblin's archive magic ("!<arch>\n") *)
Definition AR_MAGIC : bytes := [0x21; 0x3c; 0x61; 0x72; 0x63; 0x68; 0x3e; 0x0a].
Definition ELF_MAGIC : bytes := [0x7f; 0x45; 0x4c; 0x46].

(** src/main.rs:74-91; [head] is the file's first 18 bytes (fewer if shorter) *)
Definition file_type_of (head : bytes) : file_kind :=
  if blen head <? 18 then KText
  else if decide (take 8 head = AR_MAGIC) then KArchive
  else if decide (take 4 head = ELF_MAGIC) then
    if decide (drop 16 head = [ET_DYN; 0]) then KElfSharedLib else KElfObject
  else KText.

(** [Path::join] (std) *)
Definition path_join (dir p : string) : string :=
  if starts_with "/" p then p
  else if decide (dir = "") then p
  else if decide (String.get (String.length dir - 1) dir = Some "/"%char) then String.append dir p
  else String.append dir (String.append "/" p).

(** src/main.rs:204-214: the directories, for one kind of library *)
Fixpoint search_dirs (fs : main_fs) (lib kind : string) (dirs : list string) (found : option string)
  : option string :=
  match dirs with
  | [] => found
  | dir :: dirs' =>
      let p := path_join dir lib in
      if fs_is_file fs p then Some p
      else
        let input := path_join dir (String.append "lib" (String.append lib (String.append "." kind))) in
        search_dirs fs lib kind dirs' (if fs_is_file fs input then Some input else found)
  end.

(** src/main.rs:196-215: where one input is found *)
Definition locate (fs : main_fs) (dirs : list string) (lib : string) : option string :=
  if fs_is_file fs lib then Some lib
  else match search_dirs fs lib "so" dirs None with
       | Some p => Some p
       | None => search_dirs fs lib "a" dirs None
       end.

(** src/main.rs:216-227: filing a found input by its type *)
Definition file_input (fs : main_fs) (p : string) (as_needed : bool) (app : app_args) : res app_args :=
  head ← unwrap (fs_head fs p);
  match file_type_of head with
  | KElfObject => c ← unwrap (fs_canonicalize fs p); Ok (app <| ap_objects := ap_objects app ++ [c] |>)
  | KArchive => c ← unwrap (fs_canonicalize fs p); Ok (app <| ap_archives := set_insert c (ap_archives app) |>)
  | KElfSharedLib =>
      Ok (app <| ap_opts := ap_opts app <| opt_shared_libs := opt_shared_libs (ap_opts app) ++ [(p, as_needed)] |> |>)
  | KText => Ok (app <| ap_scripts := ap_scripts app ++ [p] |>)
  end.

(** src/main.rs:194-233. [ord] is the iteration order of the search_paths
    HashSet. Returns the arguments and, on failure, the input not found; the
    inputs are drained in both cases. *)
Fixpoint search_inputs (fs : main_fs) (ord : list string -> list string) (inputs : list (string * bool))
    (app : app_args) : res (app_args * option string) :=
  match inputs with
  | [] => Ok (app, None)
  | (lib, as_needed) :: inputs' =>
      match locate fs (ord (ap_search_paths app)) lib with
      | Some p => app ← file_input fs p as_needed app; search_inputs fs ord inputs' app
      | None => Ok (app, Some lib)
      end
  end.
Definition search_for_inputs (fs : main_fs) (ord : list string -> list string) (app : app_args)
  : res (app_args * option string) :=
  search_inputs fs ord (ap_inputs app) (app <| ap_inputs := [] |>).

(** src/main.rs:93-100 (the program name already dropped) *)
Definition parse_args (fs : main_fs) (ord : list string -> list string) (args : list string) : res app_args :=
  app ← handle_linker_args fs args app_default;
  '(app, missing) ← search_for_inputs fs ord app;
  match missing with None => Ok app | Some lib => Err (EUsage lib) end.

(** src/main.rs:49-55: the loop over scripts, most recent first. [fuel] bounds
    the number of scripts read, and [sfuel] the rounds of each script's parser. *)
Fixpoint script_loop (fs : main_fs) (ord : list string -> list string) (sfuel fuel : nat) (app : app_args)
  : res app_args :=
  match last (ap_scripts app) with
  | None => Ok app
  | Some script =>
      match fuel with
      | O => Panic PFuel
      | S fuel' =>
          let app := app <| ap_scripts := take (length (ap_scripts app) - 1) (ap_scripts app) |> in
          text ← unwrap (fs_text fs script);
          match parse_script sfuel text with
          | SRunning => Panic PFuel
          | SError => Panic PUnwrap
          | SArgs [] => script_loop fs ord sfuel fuel' app
          | SArgs new_args =>
              app ← handle_linker_args fs (string_of_list_ascii <$> new_args) app;
              '(app, _) ← search_for_inputs fs ord app;
              script_loop fs ord sfuel fuel' app
          end
      end
  end.

(** src/main.rs:44-57: the linker that [main] runs; [None] when only help is printed *)
Definition main_linker (fs : main_fs) (ord : list string -> list string) (sfuel fuel : nat) (args : list string)
  : res (option linker) :=
  app ← parse_args fs ord args;
  if ap_help app then Ok None
  else
    app ← script_loop fs ord sfuel fuel app;
    Ok (Some (mkLinker (ap_opts app) (ap_objects app) (ap_archives app))).
