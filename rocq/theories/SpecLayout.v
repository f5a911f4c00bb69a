(** Specification vocabulary for the layout of the output file: where sections
    and segments are in memory and in the file. *)
From Verif Require Export SpecBase ModelWriter.

(** Header fields of a section, and its flags by bit (ELF: WRITE 0, ALLOC 1, EXECINSTR 2). *)
Definition addr (s : section) : N := sh_addr (sc_sh s).
Definition memsz (s : section) : N := sh_size (sc_sh s).
Definition offset (s : section) : N := sh_offset (sc_sh s).
Definition align (s : section) : N := sh_addralign (sc_sh s).
Definition flags (s : section) : N := sh_flags (sc_sh s).
Definition alloc (s : section) : bool := N.testbit (flags s) 1.
Definition writable (s : section) : bool := N.testbit (flags s) 0.
Definition executable (s : section) : bool := N.testbit (flags s) 2.
Definition is_nobits (s : section) : bool := sh_type (sc_sh s) =? 8.
(** Bytes the section occupies in the file. *)
Definition filesz (s : section) : N := if is_nobits s then 0 else memsz s.

(** All bytes of a section's chunks. *)
Definition contents (s : section) : bytes := sc_chunks s ≫= c_data.

(** Segment permissions: R 4, W 2, X 1. *)
Definition perms (s : section) : N :=
  4 + (if writable s then 2 else 0) + (if executable s then 1 else 0).

(** Load segments (PT_LOAD is 1). *)
Definition is_load (ph : Phdr) : Prop := p_type ph = 1.
Definition loads (phs : list Phdr) : list Phdr := filter is_load phs.

(** The memory, respectively the file contents, of [s] is part of segment [ph]. *)
Definition mem_inside (s : section) (ph : Phdr) : Prop :=
  p_vaddr ph <= addr s /\ addr s + memsz s <= p_vaddr ph + p_memsz ph.
Definition file_inside (s : section) (ph : Phdr) : Prop :=
  p_offset ph <= offset s /\ offset s + filesz s <= p_offset ph + p_filesz ph.

(** [s'] is [s] placed somewhere: only address and offset, and the addresses
    of the chunks, may differ. *)
Definition same_chunks (cs cs' : list chunk) : Prop :=
  Forall2 (fun c c' => c' = c <| c_address := c_address c' |>) cs cs'.
Definition only_placed (s s' : section) : Prop :=
  s' = s <| sc_sh := sc_sh s <| sh_addr := addr s' |> <| sh_offset := offset s' |> |>
         <| sc_chunks := sc_chunks s' |> /\
  same_chunks (sc_chunks s) (sc_chunks s').

(** Zero-fill sections with contents come after the sections with file
    contents among those with the same flags. *)
Definition nobits_last (l : list section) : Prop :=
  forall i j si sj, (i < j)%nat -> l !! i = Some si -> l !! j = Some sj -> flags si = flags sj ->
    is_nobits si = true -> memsz si <> 0 -> is_nobits sj = true.

(** Number of maximal runs of equal flags that are allocated. *)
Fixpoint alloc_runs (prev : option N) (l : list section) : N :=
  match l with
  | [] => 0
  | s :: l' => (if alloc s && negb (bool_decide (prev = Some (flags s))) then 1 else 0)
               + alloc_runs (Some (flags s)) l'
  end.

(** * Section order *)

(** The intended order: allocated or otherwise flagged sections first, by
    flags, within equal flags by decreasing alignment. *)
Definition sec_before (a b : section) : Prop :=
  (flags a <> 0 /\ flags b = 0) \/
  ((flags a = 0 <-> flags b = 0) /\ (flags a < flags b \/ (flags a = flags b /\ align b <= align a))).

(** What an (unstable) sort may return. *)
Definition sorts (sort : list section -> list section) : Prop :=
  forall l, sort l ≡ₚ l /\
    forall i j a b, (i < j)%nat -> sort l !! i = Some a -> sort l !! j = Some b -> section_cmp a b <> Gt.

(** * Special headers *)

(** Sections that get a header of their own: SHT_DYNAMIC (6) or named .interp. *)
Definition is_special (names : strtab) (s : section) : Prop :=
  sh_type (sc_sh s) = 6 \/ st_name_at names (sh_name (sc_sh s)) = Some ".interp".
Global Instance is_special_dec names s : Decision (is_special names s).
Proof. apply or_dec; apply _. Defined.
(** PT_DYNAMIC 2, PT_INTERP 3. *)
Definition special_type (s : section) : N := if sh_type (sc_sh s) =? 6 then 2 else 3.
(** Header [ph] describes [s], up to its address. *)
Definition describes (ph : Phdr) (s : section) : Prop :=
  p_type ph = special_type s /\ p_offset ph = offset s /\ p_filesz ph = filesz s /\ p_memsz ph = memsz s /\
  p_align ph = align s /\ p_flags ph = 4 + (if writable s then 2 else 0) /\ p_paddr ph = p_vaddr ph.

(** * Whole files *)

(** What identifies a section from input to output. *)
Definition ident (s : section) : nat * N * N * N * N := (sc_id s, sh_name (sc_sh s), sh_type (sc_sh s), flags s, align s).
(** The file ranges (start, length) of the ELF header, the program headers,
    the contents of the sections after the null section and the section headers. *)
Definition file_ranges (eh : Ehdr) (phs : list Phdr) (secs : list section) : list (N * N) :=
  [(0, 64); (e_phoff eh, 56 * blen phs)] ++ ((fun s => (offset s, filesz s)) <$> drop 1 secs) ++ [(e_shoff eh, 64 * blen secs)].
(** A section with exactly the write flag is sorted before everything else. *)
Definition lone_write (s : section) : Prop := flags s = 1.
(** Zero-fill sections, .copyrel aside, come last among those with the same flags. *)
Definition zero_fill_last (l : list section) : Prop :=
  forall i j si sj, (i < j)%nat -> l !! i = Some si -> l !! j = Some sj -> flags si = flags sj ->
    is_nobits si = true -> sc_synth si <> Some KCopyRel -> memsz si <> 0 -> is_nobits sj = true.
