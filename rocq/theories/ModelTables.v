(** Names and hashes (src/name.rs), string tables (src/elf/string_table.rs),
    symbols (src/symbol.rs), symbol tables and hash tables
    (src/elf/symbol_table.rs). *)
From Verif Require Export ModelBase.

(** * src/name.rs *)

(** src/name.rs:52-59, loop body of [elf_hash] on u32; [!g] is xor with all ones. *)
Definition elf_hash_step (h b : N) : N :=
  let h := u32 (u32 (N.shiftl h 4) + b) in
  let g := N.land h 0xf0000000 in
  let h := if g =? 0 then h else N.lxor h (N.shiftr g 24) in
  N.land h (N.lxor g 0xffffffff).

(** src/name.rs:49-61 *)
Definition elf_hash (name : string) : N :=
  fold_left elf_hash_step (string_bytes name) 0.

(** src/name.rs:66-68, loop body of [elf_gnu_hash] *)
Definition elf_gnu_hash_step (h b : N) : N :=
  u32 (u32 (u32 (N.shiftl h 5) + h) + b).

(** src/name.rs:64-70 *)
Definition elf_gnu_hash (name : string) : N :=
  fold_left elf_gnu_hash_step (string_bytes name) 5381.

(** * Stable sorting: [slice::sort_by] (src/elf/string_table.rs:80,
    src/elf/symbol_table.rs:151). [le a b] means [cmp(a, b) != Greater].
    Simplification: insertion sort; every stable sort gives the same list. *)
Fixpoint sort_insert {A} (le : A -> A -> bool) (x : A) (l : list A) : list A :=
  match l with
  | [] => [x]
  | y :: l' => if le x y then x :: y :: l' else y :: sort_insert le x l'
  end.
Definition sort_by {A} (le : A -> A -> bool) (l : list A) : list A :=
  foldr (sort_insert le) [] l.

(** * src/elf/string_table.rs *)

(** src/elf/string_table.rs:10-14 *)
Record str_entry := mkStrEntry { en_index : N; en_offset : N; en_new : bool }.

(** src/elf/string_table.rs:17-22. The HashMap is a list of its entries in
    insertion order; the two places that iterate it ([name], [sorted_names])
    are defined on an arbitrary listing below, and shown independent of it. *)
Record strtab := mkStrtab {
  stt_names : list (string * (N * N));   (* name -> (index, offset) *)
  stt_total_len : N;
  stt_section_strtab : option N }.
Global Instance eta_strtab : Settable _ :=
  settable! mkStrtab <stt_names; stt_total_len; stt_section_strtab>.

(** [HashMap::get] by name ([Name] equality is string equality, src/name.rs:24-28). *)
Fixpoint assoc {B} (k : string) (l : list (string * B)) : option B :=
  match l with
  | [] => None
  | (k', v) :: l' => if decide (k = k') then Some v else assoc k l'
  end.

(** src/elf/string_table.rs:40-54 *)
Definition st_get_or_create (t : strtab) (name : string) : strtab * str_entry :=
  match assoc name (stt_names t) with
  | Some (i, o) => (t, mkStrEntry i o false)
  | None =>
      let i := blen (stt_names t) in
      let o := stt_total_len t in
      (mkStrtab (stt_names t ++ [(name, (i, o))])
                (o + (N.of_nat (String.length name) + 1)) (stt_section_strtab t),
       mkStrEntry i o true)
  end.

(** src/elf/string_table.rs:24-30 *)
Definition st_default : strtab :=
  (st_get_or_create (mkStrtab [] 0 None) "").1.

(** src/elf/string_table.rs:33-38 *)
Definition st_with_name (name : string) : strtab :=
  let '(t, e) := st_get_or_create st_default name in
  t <| stt_section_strtab := Some (en_offset e) |>.

(** src/elf/string_table.rs:56-59 *)
Definition st_get (t : strtab) (name : string) : option str_entry :=
  match assoc name (stt_names t) with
  | Some (i, o) => Some (mkStrEntry i o false)
  | None => None
  end.

(** src/elf/string_table.rs:61-63 *)
Definition st_sh_name (t : strtab) (name : string) : option N :=
  match assoc name (stt_names t) with
  | Some (_, o) => Some (u32 o)
  | None => None
  end.

(** src/elf/string_table.rs:65-67, on a given listing of the map *)
Fixpoint st_name_in (l : list (string * (N * N))) (offset : N) : option string :=
  match l with
  | [] => None
  | (k, (_, o)) :: l' => if o =? offset then Some k else st_name_in l' offset
  end.
Definition st_name_at (t : strtab) (offset : N) : option string :=
  st_name_in (stt_names t) offset.

(** src/elf/string_table.rs:73-82, on a given listing of the map *)
Definition st_sorted_in (l : list (string * (N * N))) : list (string * (N * N)) :=
  sort_by (fun a b => a.2.2 <=? b.2.2) l.
Definition st_sorted_names (t : strtab) : list (string * (N * N)) :=
  st_sorted_in (stt_names t).

(** src/elf/string_table.rs:84-91: the data of the chunk *)
Definition st_chunk_data (t : strtab) : bytes :=
  st_sorted_names t ≫= fun e => ser_name e.1.

(** * src/symbol.rs *)

(** src/elf/symbol_table.rs:23-27 *)
Inductive symref :=
| RNamed (st_name : N)
| RSection (shndx : N) (i : nat).
Global Instance symref_eq_dec : EqDecision symref.
Proof. solve_decision. Defined.

(** src/elf/symbol_table.rs:30-37 *)
Definition ref_st_name (r : symref) : N :=
  match r with RNamed n => n | RSection _ _ => 0 end.

(** src/symbol.rs:14-24 *)
Record symbol := mkSymbol {
  s_sym : Sym; s_hash : N; s_gnu_hash : N; s_reference : string;
  s_in_got : option N; s_in_plt : option N; s_in_got_plt : option N;
  s_relocation_offset : option N; s_dynamic : option symref }.
Global Instance eta_symbol : Settable _ :=
  settable! mkSymbol <s_sym; s_hash; s_gnu_hash; s_reference; s_in_got; s_in_plt;
    s_in_got_plt; s_relocation_offset; s_dynamic>.

(** src/symbol.rs:27-39 *)
Definition symbol_new (sym : Sym) (hash gnu_hash : N) (reference : string) : symbol :=
  mkSymbol sym hash gnu_hash reference None None None None None.

(** src/symbol.rs:41-47 *)
Definition st_bind (s : Sym) : N := N.shiftr (st_info s) 4.
Definition st_type (s : Sym) : N := N.land (st_info s) 0xf.

(** src/symbol.rs:49-71 *)
Definition is_global (s : symbol) : bool := st_bind (s_sym s) =? STB_GLOBAL.
Definition is_weak (s : symbol) : bool := st_bind (s_sym s) =? STB_WEAK.
Definition is_local (s : symbol) : bool := st_bind (s_sym s) =? STB_LOCAL.
Definition is_tls (s : symbol) : bool := st_type (s_sym s) =? STT_TLS.
Definition is_object (s : symbol) : bool := st_type (s_sym s) =? STT_OBJECT.
Definition is_undefined (s : symbol) : bool := st_shndx (s_sym s) =? SHN_UNDEF.

(** src/symbol.rs:101-108 *)
Definition higher_bind_than (s1 s2 : symbol) : bool :=
  let b1 := st_bind (s_sym s1) in
  let b2 := st_bind (s_sym s2) in
  negb (((b1 =? STB_LOCAL) && (b2 =? STB_WEAK)) ||
        ((b1 =? STB_LOCAL) && (b2 =? STB_GLOBAL)) ||
        ((b1 =? STB_WEAK) && (b2 =? STB_GLOBAL))).

(** * src/elf/symbol_table.rs *)

(** src/elf/symbol_table.rs:47-52 *)
Record symtab := mkSymtab {
  syt_symbols : gmap N symbol;
  syt_section_syms : gmap N (list symbol);
  syt_num_locals : N;
  syt_is_dynamic : bool }.
Global Instance eta_symtab : Settable _ :=
  settable! mkSymtab <syt_symbols; syt_section_syms; syt_num_locals; syt_is_dynamic>.

(** src/elf/symbol_table.rs:100-124: what happens when the name exists already.
    [None] is the [AlreadyDefined] error. *)
Definition merge_symbol (old new : symbol) : option symbol :=
  if is_global old && is_global new &&
     negb (st_shndx (s_sym old) =? SHN_UNDEF) && negb (st_shndx (s_sym new) =? SHN_UNDEF)
  then None
  else if negb (higher_bind_than old new) then
    Some (old <| s_sym := s_sym old
      <| st_info := st_info (s_sym new) |>
      <| st_other := st_other (s_sym new) |>
      <| st_shndx := st_shndx (s_sym new) |>
      <| st_value := st_value (s_sym new) |>
      <| st_size := st_size (s_sym new) |> |>)
  else if st_shndx (s_sym old) =? SHN_UNDEF then
    Some (old <| s_sym := s_sym old <| st_shndx := st_shndx (s_sym new) |> |>)
  else Some old.

(** src/elf/symbol_table.rs:79-133; [inr p] is [Err(AlreadyDefined(p))]. *)
Definition syt_add_symbol (t : symtab) (elf_sym : Sym) (hash gnu_hash : N) (reference : string)
  : (symtab * symref) + string :=
  let new := symbol_new elf_sym hash gnu_hash reference in
  if st_type elf_sym =? STT_SECTION then
    let old := default [] (syt_section_syms t !! st_shndx elf_sym) in
    inl (t <| syt_section_syms := <[st_shndx elf_sym := old ++ [new]]> (syt_section_syms t) |>,
         RSection (st_shndx elf_sym) (length old))
  else
    match syt_symbols t !! st_name elf_sym with
    | Some old =>
        match merge_symbol old new with
        | None => inr (s_reference old)
        | Some s => inl (t <| syt_symbols := <[st_name elf_sym := s]> (syt_symbols t) |>,
                         RNamed (st_name elf_sym))
        end
    | None =>
        let t := if is_local new then t <| syt_num_locals := syt_num_locals t + 1 |> else t in
        inl (t <| syt_symbols := <[st_name elf_sym := new]> (syt_symbols t) |>,
             RNamed (st_name elf_sym))
    end.

(** src/elf/symbol_table.rs:54-77: [new(is_dynamic)]; the default table holds
    the null symbol, added with hashes 0 (a vacant entry, local binding). *)
Definition syt_new (is_dynamic : bool) : symtab :=
  mkSymtab {[ 0 := symbol_new sym0 0 0 "" ]} ∅ 1 is_dynamic.

(** src/elf/symbol_table.rs:135-140. Indexing [section_syms] out of range would
    panic; references are only made by [add_symbol], which returns valid ones,
    so the model answers [None] there (callers unwrap, hence panic as well). *)
Definition syt_get (t : symtab) (r : symref) : option symbol :=
  match r with
  | RNamed n => syt_symbols t !! n
  | RSection s i => v ← syt_section_syms t !! s; v !! i
  end.

(** src/elf/symbol_table.rs:142-147 used as read-modify-write: applies [f] to
    the symbol if it is there. *)
Definition syt_modify (t : symtab) (r : symref) (f : symbol -> symbol) : symtab :=
  match r with
  | RNamed n => t <| syt_symbols := alter f n (syt_symbols t) |>
  | RSection s i => t <| syt_section_syms := alter (alter f i) s (syt_section_syms t) |>
  end.

(** src/elf/symbol_table.rs:266-273 as "not Greater" *)
Definition sort_symbols_le (s1 s2 : symbol) : bool :=
  let b1 := if is_local s1 then 0 else 1 in
  let b2 := if is_local s2 then 0 else 1 in
  if b1 =? b2 then s_gnu_hash s1 <=? s_gnu_hash s2 else b1 <? b2.

(** [HashMap::values()] in the order [ord] the map iterates its keys in.
    Between insertions a HashMap keeps its iteration order (values may change),
    so the order is a function of the key set. *)
Definition keys (m : gmap N symbol) : list N := elements (dom m).
Definition hm_values (ord : list N -> list N) (m : gmap N symbol) : list symbol :=
  omap (m !!.) (ord (keys m)).

(** src/elf/symbol_table.rs:149-153 *)
Definition syt_sorted (ord : list N -> list N) (t : symtab) : list symbol :=
  sort_by sort_symbols_le (hm_values ord (syt_symbols t)).

(** src/elf/symbol_table.rs:169-171 *)
Definition syt_total_len (t : symtab) : N := N.of_nat (size (syt_symbols t)) * SYM_SIZE.

(** src/elf/symbol_table.rs:173-179: the data of the chunk *)
Definition syt_chunk_data (ord : list N -> list N) (t : symtab) : bytes :=
  syt_sorted ord t ≫= fun s => ser_sym (s_sym s).

(** src/elf/symbol_table.rs:196-205 *)
Definition syt_update_object_symbols (t : symtab) (copy_rel_addr : N) (index : N) : symtab :=
  t <| syt_symbols := (fun s : symbol =>
        if is_object s then
          s <| s_sym := s_sym s <| st_value := st_value (s_sym s) + copy_rel_addr |>
                                <| st_shndx := u16 index |> |>
        else s) <$> syt_symbols t |>.

(** ** The SysV hash table *)

(** src/elf/symbol_table.rs:276-281 *)
Record hashtab := mkHashtab {
  ht_nbuckets : N; ht_nchains : N; ht_buckets : list N; ht_chains : list N }.

(** [HashTable::default()] *)
Definition ht_default : hashtab := mkHashtab 0 0 [] [].

(** src/elf/symbol_table.rs:284-286 *)
Definition ht_new (buckets chains : list N) : hashtab :=
  mkHashtab (u32 (blen buckets)) (u32 (blen chains)) buckets chains.

(** src/elf/symbol_table.rs:302-306: follow the chain from [ci] to its last element. *)
Fixpoint ht_walk (fuel : nat) (chains : list N) (ci : N) : res N :=
  next ← index chains (N.to_nat ci);
  if next =? 0 then Ok ci
  else match fuel with O => Panic PFuel | S fuel' => ht_walk fuel' chains next end.

(** src/elf/symbol_table.rs:296-309, body of the loop for one (index, hash) *)
Definition ht_step (nbuckets : N) (st : list N * list N) (x : nat * N) : res (list N * list N) :=
  let '(buckets, chains) := st in
  let '(symbol_index, hash) := x in
  let bucket_index := N.to_nat (hash mod nbuckets) in
  chain_index ← index buckets bucket_index;
  if chain_index =? 0 then
    Ok (<[bucket_index := u32 (N.of_nat symbol_index)]> buckets, chains)
  else
    last ← ht_walk (length chains) chains chain_index;
    Ok (buckets, <[N.to_nat last := u32 (N.of_nat symbol_index)]> chains).

(** src/elf/symbol_table.rs:292-311, on the hashes of the symbols *)
Definition ht_add_symbols (hashes : list N) : res hashtab :=
  let nbuckets := u32 (blen hashes) / 2 + 1 in
  '(buckets, chains) ← foldM (ht_step nbuckets) (imap pair hashes)
     (replicate (N.to_nat nbuckets) 0, replicate (length hashes) 0);
  Ok (ht_new buckets chains).

(** src/serialize.rs:112-121 *)
Definition ser_hashtab (h : hashtab) : bytes :=
  le_bytes 4 (ht_nbuckets h) ++ le_bytes 4 (ht_nchains h) ++
  (ht_buckets h ++ ht_chains h) ≫= le_bytes 4.

(** ** The GNU hash table *)

(** src/elf/symbol_table.rs:351-359 *)
Record gnutab := mkGnutab {
  gt_nbuckets : N; gt_buckets : list N; gt_sym_offset : N; gt_bloom_size : N;
  gt_bloom_shift : N; gt_bloom : list N; gt_chains : list N }.

(** [GnuHashTable::default()] *)
Definition gt_default : gnutab := mkGnutab 0 [] 0 0 0 [] [].

(** [u32::next_power_of_two] (0 and 1 give 1) *)
Definition next_power_of_two (x : N) : N := 2 ^ N.log2_up x.

(** src/elf/symbol_table.rs:248-252 *)
Definition calculate_bloom (bloom : list N) (hash elfclass_bits bloom_shift : N) : list N :=
  let index := N.to_nat ((hash / elfclass_bits) mod u32 (blen bloom)) in
  let bloom := alter (fun w => N.lor w (N.shiftl 1 (hash mod elfclass_bits))) index bloom in
  alter (fun w => N.lor w (N.shiftl 1 (N.shiftr hash bloom_shift mod elfclass_bits))) index bloom.

(** src/elf/symbol_table.rs:392-397, body of the bucket loop *)
Definition gt_bucket_step (nbuckets : N) (buckets : list N) (x : nat * N) : list N :=
  let '(i, hash) := x in
  alter (fun b => if b =? 0 then u32 (N.of_nat (i + 1)) else b)
        (N.to_nat (hash mod nbuckets)) buckets.

(** src/elf/symbol_table.rs:400-415: chain values, lowest bit set on the last of a run *)
Fixpoint gt_make_chains (nbuckets : N) (hashes : list N) : list N :=
  match hashes with
  | [] => []
  | h :: tl =>
      (match tl with
       | [] => N.lor h 1
       | h' :: _ => if h mod nbuckets =? h' mod nbuckets
                    then N.land h (N.lxor 1 0xffffffff)
                    else N.lor h 1
       end) :: gt_make_chains nbuckets tl
  end.

(** src/elf/symbol_table.rs:370-426, on the gnu hashes of the symbols (the
    null symbol included) *)
Definition gt_add_symbols (hashes : list N) : res gnutab :=
  let elfclass_bits := 64 in
  let len := u32 (blen hashes) in
  if len =? 0 then Panic POverflow else
  let bits := (len - 1) * 12 in
  if 2^32 <=? bits then Panic POverflow else
  let bloom_size := next_power_of_two (bits / elfclass_bits) in
  let bloom_shift := 26 in
  let nbuckets := len / 8 + 1 in
  let syms := drop 1 hashes in
  let bloom := fold_left (fun bl h => calculate_bloom bl h elfclass_bits bloom_shift) syms
                 (replicate (N.to_nat bloom_size) 0) in
  let buckets := fold_left (gt_bucket_step nbuckets) (imap pair syms)
                   (replicate (N.to_nat nbuckets) 0) in
  let chains := gt_make_chains nbuckets syms in
  Ok (mkGnutab nbuckets buckets 1 bloom_size bloom_shift bloom chains).

(** src/serialize.rs:123-137 *)
Definition ser_gnutab (g : gnutab) : bytes :=
  le_bytes 4 (gt_nbuckets g) ++ le_bytes 4 (gt_sym_offset g) ++
  le_bytes 4 (gt_bloom_size g) ++ le_bytes 4 (gt_bloom_shift g) ++
  (gt_bloom g ≫= le_bytes 8) ++ (gt_buckets g ++ gt_chains g) ≫= le_bytes 4.
