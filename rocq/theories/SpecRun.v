(** What the output file does when it is run (C69-C72): the kernel maps its
    segments, the dynamic loader processes its tables, the processor executes
    the instructions of a call. Written from the gABI and the Intel SDM. The
    file is not position independent, so its addresses are the run-time ones.
    The stack is kept apart from memory. *)
From Verif Require Export SpecFields.

(** * Memory *)
Definition memory : Type := N -> option N.
(** Program headers, and the segment an address is in. *)
Definition headers (data : bytes) : option (list Phdr) :=
  eh ← rd_ehdr data 0; rd_table rd_phdr (e_phentsize eh) (N.to_nat (e_phnum eh)) data (e_phoff eh).
Definition in_segment (a : N) (ph : Phdr) : Prop := p_type ph = 1 /\ p_vaddr ph <= a < p_vaddr ph + p_memsz ph.
Global Instance in_segment_dec a ph : Decision (in_segment a ph).
Proof. unfold in_segment. apply _. Defined.
(** The byte at an address: of the file up to p_filesz, zero behind. *)
Definition mapped (data : bytes) (phs : list Phdr) : memory := fun a =>
  match filter (in_segment a) phs with
  | [ph] => if a <? p_vaddr ph + p_filesz ph then data !! N.to_nat (p_offset ph + (a - p_vaddr ph)) else Some 0
  | _ => None
  end.
(** PF_W is 2. *)
Definition can_write (phs : list Phdr) (a : N) : bool :=
  match filter (in_segment a) phs with [ph] => N.testbit (p_flags ph) 1 | _ => false end.
(** PF_X is 1. *)
Definition can_run (phs : list Phdr) (a : N) : bool :=
  match filter (in_segment a) phs with [ph] => N.testbit (p_flags ph) 0 | _ => false end.

(** [n] bytes from [a] on; [None] if one is not mapped. *)
Fixpoint peek (m : memory) (a : N) (n : nat) : option bytes :=
  match n with O => Some [] | S n' => b ← m a; bs ← peek m (a + 1) n'; Some (b :: bs) end.
Definition word (m : memory) (a : N) : option N := le_val <$> peek m a 8.
Definition poke (m : memory) (a : N) (bs : bytes) : memory := fun x =>
  if (a <=? x) && (x <? a + blen bs) then bs !! N.to_nat (x - a) else m x.
(** The eight bytes of a number. *)
Definition word_bytes (v : N) : bytes := (fun i => (v / 256 ^ N.of_nat i) mod 256) <$> seq 0 8.

(** * A process *)
Record process := mkProcess { pr_phs : list Phdr; pr_mem : memory }.
Definition map_file (data : bytes) : option process := phs ← headers data; Some (mkProcess phs (mapped data phs)).
(** Writing where that is not allowed ends the process. *)
Definition store (p : process) (a : N) (bs : bytes) : option process :=
  if forallb (fun i => can_write (pr_phs p) (a + N.of_nat i)) (seq 0 (length bs))
  then Some (mkProcess (pr_phs p) (poke (pr_mem p) a bs)) else None.

(** * The dynamic loader *)
(** What it finds in the shared libraries: the address of a name, and the bytes
    of an object of that name. And its own: the word it puts in .got.plt to
    recognise the file, and the address of its entry for lazy binding. *)
Record environment := mkEnv { en_addr : bytes -> N; en_byte : bytes -> N -> N; en_map : N; en_resolver : N }.

(** The value of a tag that occurs once. *)
Definition dyn_value (es : list (N * N)) (t : N) : option N :=
  match filter (fun e => e.1 = t) es with [e] => Some e.2 | _ => None end.
Definition dynamic_table (p : process) : option (list (N * N)) :=
  match filter (fun ph => p_type ph = 2) (pr_phs p) with
  | [ph] => bs ← peek (pr_mem p) (p_vaddr ph) (N.to_nat (p_memsz ph)); rd_dynamic bs
  | _ => None
  end.
(** DT_SYMTAB 6, DT_STRTAB 5, DT_STRSZ 10: symbol [j] and its name. *)
Definition symbol_at (es : list (N * N)) (m : memory) (j : N) : option (Sym * bytes) :=
  a ← dyn_value es 6; sa ← dyn_value es 5; ss ← dyn_value es 10;
  bs ← peek m (a + 24 * j) 24; d ← rd_sym bs 0;
  strs ← peek m sa (N.to_nat ss); name ← cstr_at strs (st_name d); Some (d, name).
(** R_X86_64_GLOB_DAT 6, R_X86_64_COPY 5. *)
Definition relocate (env : environment) (es : list (N * N)) (p : process) (r : Rela) : option process :=
  '(d, name) ← symbol_at es (pr_mem p) (reloc_sym r);
  if decide (reloc_type r = 6) then store p (r_offset r) (word_bytes (en_addr env name))
  else if decide (reloc_type r = 5) then store p (r_offset r) ((fun i => en_byte env name (N.of_nat i)) <$> seq 0 (N.to_nat (st_size d)))
  else None.
Fixpoint relocate_all (env : environment) (es : list (N * N)) (p : process) (rs : list Rela) : option process :=
  match rs with [] => Some p | r :: rs' => p' ← relocate env es p r; relocate_all env es p' rs' end.
(** The records of a table given by address (DT_RELA 7, DT_JMPREL 23) and size
    (DT_RELASZ 8, DT_PLTRELSZ 2). *)
Definition records (es : list (N * N)) (m : memory) (t tsz : N) : option (list Rela) :=
  a ← dyn_value es t; sz ← dyn_value es tsz; bs ← peek m a (N.to_nat sz); rd_relas bs.
(** Start-up with lazy binding: the records of DT_RELA, then words 1 and 2 of
    the table DT_PLTGOT (3) names. *)
Definition start (env : environment) (data : bytes) : option process :=
  p ← map_file data; es ← dynamic_table p;
  rs ← records es (pr_mem p) 7 8; p1 ← relocate_all env es p rs;
  g ← dyn_value es 3;
  p2 ← store p1 (g + 8) (word_bytes (en_map env)); store p2 (g + 16) (word_bytes (en_resolver env)).
(** Lazy binding of record [k] of DT_JMPREL (JUMP_SLOT 7): the word gets the
    address, and that is where execution goes on. *)
Definition bind_slot (env : environment) (p : process) (k : N) : option (process * N) :=
  es ← dynamic_table p; rs ← records es (pr_mem p) 23 2; r ← rs !! N.to_nat k;
  '(_, name) ← symbol_at es (pr_mem p) (reloc_sym r);
  if decide (reloc_type r = 7) then p' ← store p (r_offset r) (word_bytes (en_addr env name)); Some (p', en_addr env name) else None.

(** * The processor *)
Record cpu := mkCpu { ip : N; pushed : list N; registers : N -> N }.
(** The bytes at [a], as far as they are mapped and executable. *)
Fixpoint fetch (p : process) (a : N) (n : nat) : bytes :=
  match n with
  | O => []
  | S n' => match pr_mem p a with Some b => if can_run (pr_phs p) a then b :: fetch p (a + 1) n' else [] | None => [] end
  end.
Definition addr_of (z : Z) : N := Z.to_N (z mod 2^64).
Definition set_reg (f : N -> N) (r v : N) : N -> N := fun x => if x =? r then v else f x.
(** One instruction: seven bytes are enough for those of [insn]. *)
Definition execute (p : process) (c : cpu) : option cpu :=
  '(i, n) ← SpecReloc.decode_at (Z.of_N (ip c)) (fetch p (ip c) 7) 0;
  let next := ip c + n in
  match i with
  | MovLoad r ea => v ← word (pr_mem p) (addr_of ea); Some (mkCpu next (pushed c) (set_reg (registers c) r v))
  | Lea r ea => Some (mkCpu next (pushed c) (set_reg (registers c) r (addr_of ea)))
  | CallInd ea => v ← word (pr_mem p) (addr_of ea); Some (mkCpu v (next :: pushed c) (registers c))
  | JmpInd ea => v ← word (pr_mem p) (addr_of ea); Some (mkCpu v (pushed c) (registers c))
  | CallRel t => Some (mkCpu (addr_of t) (next :: pushed c) (registers c))
  | JmpRel t => Some (mkCpu (addr_of t) (pushed c) (registers c))
  | PushMem ea => v ← word (pr_mem p) (addr_of ea); Some (mkCpu next (v :: pushed c) (registers c))
  | PushImm v => Some (mkCpu next (addr_of v :: pushed c) (registers c))
  end.
(** Execution of the program, with the loader's entry: reaching it with the
    word of .got.plt and the record's number on the stack binds that record and
    goes on at the address with both removed. *)
Inductive goes (env : environment) : process * cpu -> process * cpu -> Prop :=
| go_done x : goes env x x
| go_step p c c' x : ip c <> en_resolver env -> execute p c = Some c' -> goes env (p, c') x -> goes env (p, c) x
| go_bind p c k st p' a x : ip c = en_resolver env -> pushed c = en_map env :: k :: st -> bind_slot env p k = Some (p', a) ->
    goes env (p', mkCpu a st (registers c)) x -> goes env (p, c) x.

(** * Which files *)
(** The file [data] of a finished link of ordinary inputs, with no write-only
    section, zero-fill at the end of its segment, and header fields in range. *)
Record runnable (wd : world) (lo : lib_oracle) (l : linker) (fuel : nat) (w : writer) (secs : list section) (data : bytes) : Prop := {
  rn_good : good_link wd lo l fuel w secs;
  rn_write : forall s, s ∈ secs -> ~ lone_write s;
  rn_zero : zero_fill_last secs;
  rn_fit : headers_fit w secs;
  rn_file : exists effs path, link wd lo l fuel = (effs, Ok tt) /\ EWrite path data ∈ effs }.
(** Section [s] is in memory with its contents and permissions. *)
Definition in_memory (p : process) (s : section) : Prop :=
  (forall k, k < memsz s -> pr_mem p (addr s + k) = if is_nobits s then Some 0 else contents s !! N.to_nat k) /\
  (forall k, k < memsz s -> is_Some (pr_mem p (addr s + k)) /\ can_write (pr_phs p) (addr s + k) = writable s /\ can_run (pr_phs p) (addr s + k) = executable s).
(** No library object is named by .dynsym (STT_OBJECT 1). *)
Definition no_objects (w : writer) (secs : list section) : Prop :=
  forall ds j y, the_sec w secs ".dynsym" ds -> rd_sym (contents ds) (24 * j) = Some y -> typ y <> 1.
(** Word [i + 3] of .got.plt, entry [i + 1] of the PLT and record [k] of
    .rela.plt are those of [name]. *)
Definition plt_slot (w : writer) (secs : list section) (i k : N) (name : bytes) : Prop :=
  exists p g rp ds sd j y, the_sec w secs ".plt" p /\ the_sec w secs ".got.plt" g /\ the_sec w secs ".rela.plt" rp /\ the_sec w secs ".dynsym" ds /\ the_sec w secs ".dynstr" sd /\
    stub_for p g i k /\ rd_rela (contents rp) (24 * k) = Some (dyn_record (addr g + 8 * (i + 3)) j 7) /\ rd_sym (contents ds) (24 * j) = Some y /\ cstr_at (contents sd) (st_name y) = Some name.
(** The word at [a] has a GLOB_DAT record for [name]. *)
Definition got_slot (w : writer) (secs : list section) (a : N) (name : bytes) : Prop :=
  exists rdy ds sd recs r y, the_sec w secs ".rela.dyn" rdy /\ the_sec w secs ".dynsym" ds /\ the_sec w secs ".dynstr" sd /\ rd_relas (contents rdy) = Some recs /\ r ∈ recs /\
    reloc_type r = 6 /\ r_offset r = a /\ rd_sym (contents ds) (24 * reloc_sym r) = Some y /\ cstr_at (contents sd) (st_name y) = Some name.
(** A loader whose numbers are 64-bit and whose entry is not in the program. *)
Record proper (env : environment) (phs : list Phdr) : Prop := {
  pe_addr : forall name, en_addr env name < 2^64;
  pe_map : en_map env < 2^64;
  pe_resolver : en_resolver env < 2^64;
  pe_outside : can_run phs (en_resolver env) = false }.
(** A process whose program has not damaged what it is linked with: read-only
    sections and .dynamic are as in the file, the words of the GOT hold the
    libraries' addresses, and each word of .got.plt still leads back into its
    PLT entry or is the address of the function. *)
Record alive (env : environment) (w : writer) (secs : list section) (p : process) : Prop := {
  al_phs : pr_phs p = w_program_headers w;
  al_fixed : forall s, s ∈ secs -> alloc s = true -> writable s = false -> in_memory p s;
  al_dyn : forall d, the_sec w secs ".dynamic" d -> in_memory p d;
  al_got : forall a name, got_slot w secs a name -> word (pr_mem p) a = Some (en_addr env name);
  al_head : forall g, the_sec w secs ".got.plt" g -> word (pr_mem p) (addr g + 8) = Some (en_map env) /\ word (pr_mem p) (addr g + 16) = Some (en_resolver env);
  al_slot : forall pl g i k name, the_sec w secs ".plt" pl -> the_sec w secs ".got.plt" g -> plt_slot w secs i k name ->
    word (pr_mem p) (addr g + 8 * (i + 3)) = Some (addr pl + 16 * (i + 1) + 6) \/ word (pr_mem p) (addr g + 8 * (i + 3)) = Some (en_addr env name) }.
(** A section of code; a program below 2 GiB (the psABI's small code model). *)
Definition code (s : section) : Prop := alloc s = true /\ is_nobits s = false /\ writable s = false /\ executable s = true.
Definition low (secs : list section) : Prop := forall s, s ∈ secs -> alloc s = true -> addr s + memsz s <= 2^31.
(** Byte [k] of input section [x] belongs to no relocated field. *)
Definition unrelocated (es : list (string * elf_obj)) (x : sec_in) (k : N) : Prop :=
  forall r, r ∈ all_rels es -> SpecMerge.about x r -> k < (rel_span (ri_rel r)).1 \/ (rel_span (ri_rel r)).2 <= k.
(** Where [n] is defined: the section [x], which starts [off] bytes into the
    output section of its name, and the symbol [y], whose value is inside it. *)
Definition defined_in (es : list (string * elf_obj)) (n : string) (x : sec_in) (off : N) (y : sym_in) : Prop :=
  ordinary es n /\ sole_home es n x /\ winner n (all_syms es) = Some y /\ lies_in x y /\ offset_of es x off /\ si_data x <> None /\ st_value (yi_sym y) <= si_size x.
(** The byte before the field of [q] in [x] is [b], and no other relocation's:
    0xe8 for a call, 0xe9 for a jump. *)
Definition opcode (es : list (string * elf_obj)) (x : sec_in) (q : rel_in) (b : N) : Prop :=
  0 < gr_offset (ri_rel q) <= si_size x /\ si_bytes x !! N.to_nat (gr_offset (ri_rel q) - 1) = Some b /\ unrelocated es x (gr_offset (ri_rel q) - 1) /\ (b = 0xe8 \/ b = 0xe9).
(** The processor behind it: a call leaves the address of the next instruction. *)
Definition gone (b : N) (c : cpu) (a ret : N) : cpu := mkCpu a (if decide (b = 0xe8) then ret :: pushed c else pushed c) (registers c).
