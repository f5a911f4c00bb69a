(** Specification vocabulary for symbol tables. *)
From Verif Require Export SpecElf ModelTables.

(** Fields of st_info (gABI): binding in the upper four bits, type in the lower. *)
Definition binding (s : Sym) : N := st_info s / 16.
Definition typ (s : Sym) : N := st_info s mod 16.
Definition defined (s : Sym) : Prop := st_shndx s <> 0.

(** Strength of the three standard bindings: local (0) < weak (2) < global (1). *)
Definition strength (b : N) : option N :=
  if b =? 0 then Some 0 else if b =? 2 then Some 1 else if b =? 1 then Some 2 else None.
Definition standard (s : Sym) : Prop := is_Some (strength (binding s)).
Definition rank (s : Sym) : N := default 0 (strength (binding s)).

(** What a symbol says about its definition (everything but the name). *)
Definition def_of (s : Sym) : N * N * N * N * N :=
  (st_info s, st_other s, st_shndx s, st_value s, st_size s).

(** One call of [add_symbol]. *)
Record sym_event := mkEvent { ev_sym : Sym; ev_hash : N; ev_gnu : N; ev_file : string }.
Definition is_named (e : sym_event) : Prop := typ (ev_sym e) <> 3.

Definition add_event (t : symtab) (e : sym_event) : option symtab :=
  match syt_add_symbol t (ev_sym e) (ev_hash e) (ev_gnu e) (ev_file e) with
  | inl (t', _) => Some t'
  | inr _ => None
  end.

(** Adding a whole sequence; [None] as soon as one is refused. *)
Fixpoint add_events (t : symtab) (l : list sym_event) : option symtab :=
  match l with
  | [] => Some t
  | e :: l' => t' ← add_event t e; add_events t' l'
  end.

(** What later phases do to symbols in place: anything but changing name,
    binding/type and hashes. *)
Definition keeps (s s' : symbol) : Prop :=
  st_name (s_sym s') = st_name (s_sym s) /\ st_info (s_sym s') = st_info (s_sym s) /\
  s_hash s' = s_hash s /\ s_gnu_hash s' = s_gnu_hash s.

(** [t'] is [t] with symbols changed in place. *)
Definition patched (t t' : symtab) : Prop :=
  forall n, match syt_symbols t !! n, syt_symbols t' !! n with
            | Some s, Some s' => keeps s s'
            | None, None => True
            | _, _ => False
            end.

(** Number of symbols of a table in local binding. *)
Definition count_locals (l : list symbol) : nat :=
  length (filter (fun s => binding (s_sym s) = 0) l).

(** ** Histories, one name at a time *)

(** A (non-section) symbol whose name is at string offset [n]. *)
Definition about (n : N) (e : sym_event) : Prop := typ (ev_sym e) <> 3 /\ st_name (ev_sym e) = n.
Global Instance about_dec n e : Decision (about n e).
Proof. unfold about. apply _. Defined.

(** The strongest binding any symbol of that name had. *)
Definition max_rank (n : N) (l : list sym_event) : N :=
  foldr N.max 0 ((fun e => rank (ev_sym e)) <$> filter (about n) l).

(** The file that first mentioned the name. *)
Definition first_file (n : N) (l : list sym_event) : option string :=
  ev_file <$> head (filter (about n) l).

(** The binding of the first symbol of that name; name 0 is taken by the null symbol. *)
Definition first_binding (n : N) (l : list sym_event) : option N :=
  if decide (n = 0) then Some 0 else (fun e => binding (ev_sym e)) <$> head (filter (about n) l).

(** No later symbol of the same name turns a local into a non-local. *)
Definition no_override (l : list sym_event) : Prop :=
  forall n e, e ∈ l -> about n e -> first_binding n l = Some 0 -> binding (ev_sym e) = 0.
