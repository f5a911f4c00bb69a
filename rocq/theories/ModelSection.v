(** Sections (src/elf/section.rs), the PLT (src/elf/plt.rs) and the COPY
    relocation area (src/elf/copy_rel.rs). *)
From Verif Require Export ModelChunk.

(** Identity of an [Arc<RwLock<Section>>] (src/elf/section.rs:15): pointers are
    never compared or freed in the code, so a number allocated in creation
    order stands for the pointer. *)
Notation sid := nat (only parsing).

(** src/elf/section.rs:65-72. Simplification: the table a section owns
    ([SynthesizedKind] payload) is a field of the writer; the section keeps
    only which one it is. The handle of each table is fixed at creation
    (src/elf.rs:198-322), so [inner::<T>().unwrap()] cannot fail. *)
Inductive synth :=
| KShstr | KStr | KDynstr       (* StringTable *)
| KSym | KDynsym                (* SymbolTable *)
| KHash | KGnuHash              (* HashTable, GnuHashTable *)
| KPlt | KCopyRel.
Global Instance synth_eq_dec : EqDecision synth.
Proof. solve_decision. Defined.

(** src/elf/section.rs:145-154 *)
Record section := mkSection {
  sc_id : sid;
  sc_index : N;
  sc_link : option sid;
  sc_synth : option synth;
  sc_sh : Shdr;
  sc_chunks : list chunk }.
Global Instance eta_section : Settable _ :=
  settable! mkSection <sc_id; sc_index; sc_link; sc_synth; sc_sh; sc_chunks>.

(** src/elf/section.rs:33-36 *)
Definition section_new (id : sid) (sh : Shdr) : section := mkSection id 0 None None sh [].

(** src/elf/section.rs:165-168 *)
Definition sec_add_chunk (c : chunk) (s : section) : section :=
  s <| sc_chunks := sc_chunks s ++ [c] |>.

(** src/elf/section.rs:178-184 *)
Definition size_on_disk (s : section) : N :=
  if sh_type (sc_sh s) =? SHT_NOBITS then 0 else sh_size (sc_sh s).

(** src/elf/section.rs:197-200 *)
Fixpoint set_chunk_addresses (base : N) (cs : list chunk) : list chunk :=
  match cs with
  | [] => []
  | c :: cs' => chunk_set_address base c :: set_chunk_addresses (base + blen (c_data c)) cs'
  end.

(** src/elf/section.rs:194-201 *)
Definition sec_set_address (addr : N) (s : section) : section :=
  s <| sc_sh := sc_sh s <| sh_addr := addr |> |>
    <| sc_chunks := set_chunk_addresses addr (sc_chunks s) |>.

(** src/elf/section.rs:208-215: effect on one symbol *)
Definition patch_symbol (sh_index base : N) (r : symref) (s : symbol) : symbol :=
  s <| s_sym := s_sym s <| st_shndx := sh_index |>
        <| st_value := match r with
                       | RSection _ _ => base
                       | RNamed _ => st_value (s_sym s) + base
                       end |> |>.

(** src/elf/section.rs:206-218 *)
Fixpoint patch_chunks (sh_index base : N) (cs : list chunk) (t : symtab) : symtab :=
  match cs with
  | [] => t
  | c :: cs' =>
      let t := fold_left (fun t r => syt_modify t r (patch_symbol sh_index base r)) (c_symbols c) t in
      patch_chunks sh_index (base + blen (c_data c)) cs' t
  end.

(** src/elf/section.rs:203-219 *)
Definition patch_symbol_values (s : section) (t : symtab) : symtab :=
  patch_chunks (u16 (sc_index s)) (sh_addr (sc_sh s)) (sc_chunks s) t.

(** * src/elf/plt.rs *)

(** src/elf/plt.rs:11-14: HashMap<SymbolRef, usize> as list of entries *)
Definition plt := list (symref * N).

Fixpoint rassoc {B} (k : symref) (l : list (symref * B)) : option B :=
  match l with
  | [] => None
  | (k', v) :: l' => if decide (k = k') then Some v else rassoc k l'
  end.

(** src/elf/plt.rs:17-20, and the [entry(..).or_insert(..)] of src/elf.rs:786-787 *)
Definition or_insert {B} (l : list (symref * B)) (k : symref) (v : B) : list (symref * B) * B :=
  match rassoc k l with
  | Some v' => (l, v')
  | None => (l ++ [(k, v)], v)
  end.

(** src/elf/plt.rs:17-20 *)
Definition plt_insert (p : plt) (r : symref) : plt * N := or_insert p r (blen p).

(** src/elf/plt.rs:37-41 *)
Definition plt_header : bytes :=
  [0xff; 0x35; 0; 0; 0; 0;  0xff; 0x25; 0; 0; 0; 0;  0x90; 0x90; 0x90; 0x90].
(** src/elf/plt.rs:44-48 *)
Definition plt_entry : bytes :=
  [0xff; 0x25; 0; 0; 0; 0;  0x68; 0; 0; 0; 0;  0xe9; 0; 0; 0; 0].

(** src/elf/plt.rs:36-51 *)
Definition plt_data (p : plt) : bytes := plt_header ++ concat (replicate (length p) plt_entry).

(** * src/elf/copy_rel.rs *)

(** src/elf/copy_rel.rs:11-16; [slots] is write-only in the code. *)
Record copyrel := mkCopyrel { cr_size : N; cr_slots : list (symref * N) }.

(** src/elf/copy_rel.rs:19-24 (the HashMap insert overwrites an existing slot;
    the list keeps all, newest last; the map is never read). *)
Definition cr_insert (c : copyrel) (r : symref) (size : N) : copyrel * N :=
  (mkCopyrel (cr_size c + size) (cr_slots c ++ [(r, cr_size c)]), cr_size c).
