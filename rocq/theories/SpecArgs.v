(** The command line as a list of options with their values, and what it asks
    for; library search and file kinds. *)
From Verif Require Export SpecLink ModelArgs.

(** * Options *)
Inductive token :=
| TOutput (v : string)        (* -o v *)
| TMachine (v : string)       (* -m v *)
| TInterp (v : string)        (* -dynamic-linker v *)
| TDir (v : string)           (* -L v *)
| TLib (v : string)           (* -l v *)
| TKeyword (v : string)       (* -z v *)
| TBuildId                    (* --build-id *)
| TBuildIdStyle (v : string)  (* --build-id v *)
| TFrames                     (* --eh-frame-hdr *)
| THelp (long : bool)         (* --help, -h *)
| TNeeded (on : bool)         (* --as-needed, --no-as-needed *)
| TGroup (start : bool)       (* --start-group, --end-group *)
| TDirJoined (v : string)     (* -Lv *)
| TLibJoined (v : string)     (* -lv *)
| THash (v : string)          (* --hash-style=v *)
| TFile (v : string).         (* anything else *)

Definition spell (t : token) : list string :=
  match t with
  | TOutput v => ["-o"; v] | TMachine v => ["-m"; v] | TInterp v => ["-dynamic-linker"; v]
  | TDir v => ["-L"; v] | TLib v => ["-l"; v] | TKeyword v => ["-z"; v]
  | TBuildId => ["--build-id"] | TBuildIdStyle v => ["--build-id"; v]
  | TFrames => ["--eh-frame-hdr"] | THelp true => ["--help"] | THelp false => ["-h"]
  | TNeeded true => ["--as-needed"] | TNeeded false => ["--no-as-needed"]
  | TGroup true => ["--start-group"] | TGroup false => ["--end-group"]
  | TDirJoined v => [String.append "-L" v] | TLibJoined v => [String.append "-l" v]
  | THash v => [String.append "--hash-style=" v]
  | TFile v => [v]
  end.
Definition spell_all (l : list token) : list string := concat (spell <$> l).

(** Options that need a value. *)
Definition takes_value : list string := ["-o"; "-m"; "-dynamic-linker"; "-L"; "-l"; "-z"].
Definition exact_options : list string :=
  takes_value ++ ["--build-id"; "--eh-frame-hdr"; "--help"; "-h"; "--as-needed"; "--no-as-needed"; "--start-group"; "--end-group"].
Definition dash (s : string) : Prop := exists r, s = String.append "-" r.
(** Nothing can be read in two ways: joined values are not empty, a build id
    style does not start with a dash, files look like no option. *)
Definition token_ok (t : token) : Prop :=
  match t with
  | TBuildIdStyle v => ¬ dash v
  | TDirJoined v | TLibJoined v => v <> ""
  | TFile v => v ∉ exact_options /\ forall r, v <> String.append "-L" r /\ v <> String.append "-l" r /\ v <> String.append "--hash-style=" r
  | _ => True
  end.
(** A --build-id without style is last or before an argument with a dash. *)
Fixpoint command_line (l : list token) : Prop :=
  match l with
  | [] => True
  | t :: l' => token_ok t /\ (t = TBuildId -> match spell_all l' with [] => True | a :: _ => dash a end) /\ command_line l'
  end.

(** Values that are accepted. *)
Definition build_id_value (v : string) (b : build_id) : Prop :=
  (v = "uuid" /\ b = BUuid) \/ (v = "sha1" /\ b = BSha1) \/ (v = "md5" /\ b = BMd5) \/ (exists r, v = String.append "0x" r /\ b = BHex r).
Definition hash_value (v : string) (h : hash_style) : Prop :=
  (v = "sysv" /\ h = HSysv) \/ (v = "gnu" /\ h = HGnu) \/ (v = "both" /\ h = HBoth).
Definition value_ok (fs : main_fs) (t : token) : Prop :=
  match t with
  | TMachine v => v = "elf_x86_64"
  | TBuildIdStyle v => exists b, build_id_value v b
  | THash v => exists h, hash_value v h
  | TDirJoined v => is_Some (fs_canonicalize fs v)
  | _ => True
  end.

(** * What is asked for *)
Definition output_of (t : token) : option string := match t with TOutput v => Some v | _ => None end.
Definition interp_of (t : token) : option string := match t with TInterp v => Some v | _ => None end.
(** The value of the last one, if any. *)
Definition last_of {A} (f : token -> option A) (l : list token) (d : A) : A := default d (last (omap f l)).
(** The state of as-needed after these tokens. *)
Definition needed_of (t : token) : option bool := match t with TNeeded b => Some b | _ => None end.
Fixpoint inputs_of (needed : bool) (l : list token) : list (string * bool) :=
  match l with
  | [] => []
  | TNeeded b :: l' => inputs_of b l'
  | TLib v :: l' | TLibJoined v :: l' | TFile v :: l' => (v, needed) :: inputs_of needed l'
  | _ :: l' => inputs_of needed l'
  end.
Definition dir_of (fs : main_fs) (t : token) : option string :=
  match t with TDir v => Some v | TDirJoined v => fs_canonicalize fs v | _ => None end.

(** * Library search *)
(** [-lNAME] in one directory. *)
Definition lib_file (dir name kind : string) : string :=
  path_join dir (String.append "lib" (String.append name (String.append "." kind))).
Definition has_lib (fs : main_fs) (dir name : string) : Prop :=
  fs_is_file fs (lib_file dir name "so") = true \/ fs_is_file fs (lib_file dir name "a") = true.

(** * File kinds: byte [i] of a file *)
Definition byte_at (content : bytes) (i : nat) : option N := content !! i.
Definition has_magic (content magic : bytes) : Prop := forall i b, magic !! i = Some b -> byte_at content i = Some b.

(** * Scripts *)
(** Script [s] names an input that is found (whatever the search directories)
    and is itself a script, [p]. *)
Definition includes (fs : main_fs) (sfuel : nat) (s p : string) : Prop :=
  exists text args toks needed lib flag dirs head, fs_text fs s = Some text /\ parse_script sfuel text = SArgs args /\
    string_of_list_ascii <$> args = spell_all toks /\ (lib, flag) ∈ inputs_of needed toks /\
    locate fs dirs lib = Some p /\ fs_head fs p = Some head /\ file_type_of head = KText.

(** * Effects on the output file: its contents afterwards *)
Definition contents_after (path : string) (before : option bytes) (l : list effect) : option bytes :=
  foldl (fun c e => match e with
    | ECreate p => if decide (p = path) then Some [] else c
    | EWrite p data => if decide (p = path) then (fun old => old ++ data) <$> c else c
    | EChmod _ _ => c end) before l.

(** Two command lines that differ in as-needed flags only. *)
Definition same_but_flags (l l' : linker) : Prop :=
  lk_objects l = lk_objects l' /\ lk_archives l = lk_archives l' /\
  (opt_shared_libs (lk_options l)).*1 = (opt_shared_libs (lk_options l')).*1 /\
  lk_options l' = lk_options l <| opt_shared_libs := opt_shared_libs (lk_options l') |>.

Definition style_of (t : token) : option string := match t with THash v => Some v | _ => None end.

(** * Archives *)
(** The index of every archive tells the truth: a member it names for a symbol
    has a (non-section) definition of that name. *)
Definition truthful (wd : world) (l : linker) : Prop :=
  forall p ar name m e, p ∈ lk_archives l -> wd_archive wd p = Some (Some ar) -> ar_member_of_symbol ar name = Some m ->
    ar_get ar m = Some (Some e) ->
    exists sym, sym ∈ eo_syms e /\ eo_strtab e (st_name sym) = Some name /\ st_info sym mod 16 <> 3 /\ st_shndx sym <> 0.
(** The names objects and members mention. *)
Definition names_within (wd : world) (l : linker) (U : list string) : Prop :=
  forall e sym name, is_input wd l e -> sym ∈ eo_syms e -> eo_strtab e (st_name sym) = Some name -> name ∈ U.
(** Hash maps are walked in some order. *)
Definition valid_orders (lo : lib_oracle) : Prop :=
  valid_oracle (lo_writer lo) /\ (forall i k, lo_undef lo i k ≡ₚ k) /\ (forall r p k, lo_members lo r p k ≡ₚ k).
