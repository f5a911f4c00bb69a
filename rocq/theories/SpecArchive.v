(** The members of archives a run brings in. *)
From Verif Require Export SpecArgs SpecSyms.

(** * The record of a run *)
(** One round over the archives: the members asked for, archive by archive, up
    to and including the first archive at which the run fails. *)
Fixpoint asked_for (wd : world) (lo : lib_oracle) (round : nat) (paths : list string) (st : writer * list symref) : list (string * string) :=
  match paths with
  | [] => []
  | p :: ps =>
      match wd_archive wd p with
      | Some (Some ar) =>
          match wanted_members st.1 ar st.2 with
          | Ok (ms, _) =>
              (pair p <$> lo_members lo round p (remove_dups ms)) ++
              match search_archive wd lo round st p with Ok st' => asked_for wd lo round ps st' | _ => [] end
          | _ => []
          end
      | _ => []
      end
  end.
(** All rounds: the state at the start of each, with the (archive, member)
    pairs it brings in. *)
Fixpoint rounds (wd : world) (lo : lib_oracle) (l : linker) (fuel round : nat) (w : writer) : list (writer * list (string * string)) :=
  match fuel with
  | O => []
  | S fuel' =>
      let undefined := undefined_symbols (lo_writer lo) w in
      match find_undefined_symbols_in_libs wd l (lo_undef lo (2 * round) undefined) w with
      | Ok (w1, next) =>
          (w, asked_for wd lo round (lk_archives l) (w1, lo_undef lo (2 * round + 1) next)) ::
          match process_archives_containing wd lo round l (lo_undef lo (2 * round + 1) next) w1 with
          | Ok (w2, next2) => if (length undefined =? length next2)%nat then [] else rounds wd lo l fuel' (S round) w2
          | _ => []
          end
      | _ => []
      end
  end.
(** For a whole run, whether it succeeds or fails. *)
Definition run_rounds (wd : world) (lo : lib_oracle) (l : linker) (fuel : nat) : list (writer * list (string * string)) :=
  match (w ← writer_new (lk_options l); load_objects wd l w) with
  | Ok w => rounds wd lo l fuel 0 w
  | _ => []
  end.
Definition brought_in (wd : world) (lo : lib_oracle) (l : linker) (fuel : nat) : list (string * string) :=
  concat (run_rounds wd lo l fuel).*2.

(** * Indices *)
(** A member an index names for a symbol has a global definition of it. *)
Definition strong_index (wd : world) (l : linker) : Prop :=
  forall p ar name m e, p ∈ lk_archives l -> wd_archive wd p = Some (Some ar) -> ar_member_of_symbol ar name = Some m ->
    ar_get ar m = Some (Some e) ->
    exists sym, sym ∈ eo_syms e /\ eo_strtab e (st_name sym) = Some name /\ st_info sym mod 16 <> 3 /\ st_info sym / 16 = 1 /\ st_shndx sym <> 0.

(** The members that have a global definition of a name. *)
Definition member_defines (wd : world) (l : linker) (p m name : string) : Prop :=
  exists ar e sym, p ∈ lk_archives l /\ wd_archive wd p = Some (Some ar) /\ ar_get ar m = Some (Some e) /\
    sym ∈ eo_syms e /\ eo_strtab e (st_name sym) = Some name /\ st_info sym mod 16 <> 3 /\ st_info sym / 16 = 1 /\ st_shndx sym <> 0.
