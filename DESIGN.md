# DESIGN

Target: rbartlensky/dld (Rust ELF64 x86-64 linker), read as text from /repo.
The code is never built or run here.

## Approach

* `rocq/theories/Model*.v`: an executable Gallina model of the linker, function by function, no proofs. Every definition cites file and lines.
* `Spec*.v`: small independent specifications: C strings, ELF decoding, the loader's hash lookups and segment mapping, psABI formulas, an x86 decoder for stubs, a kernel mapping the file, a dynamic loader and an interpreter for calls, the script grammar, command line tokens.
* `Proof*.v`: lemmas. `Demo.v`, `DemoLink.v`: small inputs for examples and witnesses.
* `Prop*.v`: the theorems, named after the property (`C17_...`), each followed by `Print Assumptions` and by an `Example` (`..._case`) meeting its hypotheses. `..._refuted` shows a witness against the property; `..._partial` proves what remains, and its comment says what is missing.

How the code is modelled:

* `Result` and `Option` stay data; a Rust panic (unwrap, index, slice, checked arithmetic where noted) is the value `Panic`.
* `&mut` methods return the new value. Loops without a bound in the code take fuel; running out is the value `Panic PFuel`, never success.
* `Arc<RwLock<Section>>` pointers are section ids; `Writer.sections` is a list of sections carrying their id. The table a section owns (`SynthesizedKind`) is a field of the writer.
* HashMap/HashSet iteration orders and `sort_unstable_by` are *oracles*: theorems quantify over every permutation / every sorted permutation (`valid_oracle`). Order in which `got_plt` is listed: `C24_any_order`.
* Input files are already parsed objects (headers, symbols, relocations, raw bytes): goblin is not modelled. Theorems hold for every such object.
* `as u16/u32/i32` conversions are written into the model; i64/i32 `try_into` is checked and panics as in the code; u64 address additions are unbounded naturals (theorems that need it assume the sums stay below 2^64).

## Properties

Statements are in properties.jsonl; theorem names per property in MANIFEST.json.

| id | property | how | status |
|----|----------|-----|--------|
| C01 | String-table offsets read back as the name | StrTab model; invariant over op lists; c_string_at spec on emitted bytes. | proved |
| C02 | Interning is stable and injective | StrTab invariant (NoDup names/offsets, dense indices), monotonicity along op lists. | proved |
| C03 | String-table size equals emitted bytes | StrTab invariant total_len = sum (len+1); emitted bytes length. | proved |
| C04 | Reverse name lookup | StrTab, iteration order as arbitrary permutation. | proved |
| C05 | SysV hash function conforms to the gABI | name_hash vs. gABI spec in mathematical integers; bound 2^28. | proved |
| C06 | GNU hash function conforms to the DT_GNU_HASH definition | closed form sum mod 2^32. | proved |
| C07 | SysV hash section finds every dynamic symbol | lookup over the words of the table as the gABI describes it, first for the table of a list of hashes, then for the contents of .hash, .dynsym and .dynstr of any finished link (ProofHashLink: .dynsym entry i is entry i of the symbol table, its hash is the one filled in). | proved |
| C08 | GNU bloom filter has no false negatives | bloom fold; testbit monotonicity; loader's bloom test as spec. | proved |
| C09 | GNU hash section finds every dynamic symbol | the same lookup with the loader's .gnu.hash walk; proved for adjacent buckets, refuted in general, for tables and for finished links. | partial |
| C10 | Local symbols precede global ones and sh_info counts them | sortedness of stable sort; sh_info partial (no local overridden), refuted otherwise. | partial |
| C11 | Duplicate strong definitions are rejected, and only those | iff characterisation of add_symbol error. | partial |
| C12 | Binding precedence | binding monotone, replacement lemma, over sequences. | proved |
| C13 | A reference seen before the definition resolves to the definition | refuted by witness; partial for (value,size,type) preserved; exact characterisation. | partial |
| C14 | A definition is kept when references follow | induction over list of later references. | proved |
| C15 | Symbol table emission is complete and index-stable | permutation + index stability under value patches. | proved |
| C16 | Final symbol address | patch fold; partial when the symbol is registered in one contribution; refuted for weak+strong and same-named locals. | partial |
| C17 | Relocations compute the psABI formula | psABI spec table vs apply_relocation decode. | partial |
| C18 | Relocations touch only their field | frame theorem on bytes. | proved |
| C19 | Out-of-range relocations are not silently truncated | 32S refuted; others proved. | partial |
| C20 | mov->lea GOT relaxation preserves meaning | x86 decoder spec for lea/mov rip-relative. | proved |
| C21 | call/jmp GOT relaxation preserves meaning | refuted: branch target is S+A+3; exact target theorem. | partial |
| C22 | GOT slots are distinct and inside .got | scan_relocations invariant. TLSGD after GOTTPOFF refuted. | partial |
| C23 | PLT and .got.plt slots correspond | scan_relocations invariant. | proved |
| C24 | PLT stubs decode to the right code | x86 decoder spec on patched .plt bytes. | proved |
| C25 | Lazy binding index | relation between plt_rels, symbols and dynsym indices. | proved |
| C26 | GOT words of dynamic symbols are bound by the loader | same loop invariant. | proved |
| C27 | COPY-relocated objects get their own storage | copy_rel insert invariant; overlap with following section refuted. | partial |
| C28 | Section order | comparator laws and group contiguity from sortedness, for every sorted permutation. | proved |
| C29 | Loaded sections do not overlap in memory | layout loop invariant; all sections except .copyrel grown after layout (C27). | partial |
| C30 | File ranges do not overlap | layout loop invariant; hypothesis no section with flags exactly SHF_WRITE; refuted otherwise. | partial |
| C31 | Every allocated section is mapped with its permissions | layout loop invariant. | partial |
| C32 | Segments map file contents to the section addresses | partial: zero-fill sections last in their group; refuted otherwise. | partial |
| C33 | Program header table is complete and mapped | count/generate agreement. | partial |
| C34 | PT_INTERP and PT_DYNAMIC describe .interp and .dynamic | layout + order (.copyrel/.dynsym precede). | partial |
| C35 | Section alignment is honoured | refuted; partial for first section of each segment. | partial |
| C36 | The written file parses back | write_to_disk vs ELF decoder spec. | partial |
| C37 | On-disk encodings are faithful | encode/decode round trips. | proved |
| C38 | Dynamic section is complete | count = pushes per section; size; tag contents. | proved |
| C39 | DT_NEEDED lists the libraries used, once | history invariant; partial (name clash between library file name and dynamic symbol). | partial |
| C40 | Section contents are merged in order | fold over add_section. | partial |
| C41 | Zero-fill sections of different objects do not alias | refuted. | partial |
| C42 | Array boundary symbols | partial one contribution, refuted for two. | partial |
| C43 | _GLOBAL_OFFSET_TABLE_ | pipeline theorem. | proved |
| C44 | Entry point | pipeline theorem. | proved |
| C45 | A section is merged only with the section of the same name | refuted for .copyrel/.hash/.gnu.hash; proved for others. | partial |
| C46 | Successful links have no unresolved symbols | refuted (library that only imports the name); proved weaker: every remaining symbol is defined or bound to a dynamic symbol. | partial |
| C47 | Symbol resolution terminates | refuted for an archive whose index lies; partial: terminates for honest archives. | partial |
| C48 | A failed link leaves the previous output alone | effect trace; refuted: first effect truncates. | partial |
| C49 | Linker scripts yield their arguments in order | combinator model of combine with commit semantics; printer/parser round trip. | partial |
| C50 | Linker-script parsing terminates | refuted; exact characterisation of divergence. | partial |
| C51 | Command line parsing | model of handle_linker_args; laws. | proved |
| C52 | --no-as-needed libraries are always recorded | refuted. | partial |
| C53 | Library search order | refuted. | partial |
| C54 | Input classification | exact characterisation. | proved |
| C55 | sh_link names the linked section | finalize + sort indices. | proved |
| C56 | Results do not depend on hash iteration order | the state after layout with every set listed in another order: equal symbol table and equal file, by commuting patches. | proved |
| C57 | Thread-local symbols are relocated against the TLS block | refuted. | partial |
| C58 | Common symbols get storage | the symbol table of a link for a name no section defines; witnesses with one and two tentative definitions. | partial |
| C59 | Relocations apply to the section their header names | proved if relocation sections follow the section they name; witness otherwise. | partial |
| C60 | Relocations that do not conform to the ABI are refused | exact characterisation. | proved |
| C61 | PLT32 against a non-dynamic symbol becomes PC32 | scan_reloc rewrites PLT32 to PC32 for symbols that are not dynamic; the value written is S + A - P. | proved |
| C62 | Internal locks never self-deadlock | ModelLock lists the RwLock operations of add_section … write_to_disk with the lifetimes of their guards; SpecLock defines when a sequence waits for itself; each phase is shown to leave the locks as found, using which ids, types, names and links the sections of that phase have (ProofLock). Witnesses by vm_compute. | partial |
| C63 | Local symbols are private to their file | refuted: local symbols are merged by name; exact characterisation. | partial |
| C64 | Relocations in sections that are not loaded are applied | refuted: such a section has no address, so the link aborts; allocated sections proved. | partial |
| C65 | Including scripts terminates | fuel loop over scripts; refuted for a script naming itself; rank argument otherwise. | partial |
| C66 | Relocated fields hold the value the ABI prescribes | composition of scanning, layout, patching and relocation: the field in the output section read back, per relocation type, against symbol table, PLT, GOT and copy storage of the output. | partial |
| C67 | Section symbols stand for the object's own contribution | offset of the contribution among the contributions of that name, plus the address of the output section. | partial |
| C68 | Links are reproducible | two links with different iteration orders of the symbol map, compared stage by stage: states alike up to the bytes of .symtab; refuted with copied library objects. | partial |
| C69 | The mapped file has every section where its header says | SpecRun maps the bytes of the file by its program headers; the file reads back (C36), segments are ordered (C32), zero-fill lies behind its segment's file part (ProofImage). | partial |
| C70 | The dynamic loader can start the program | a loader over that memory: PT_DYNAMIC, DT_RELA, DT_PLTGOT; the tables it reads stay intact while it stores into .got and .got.plt, by disjointness of sections (ProofLoader, ProofCall). | partial |
| C71 | Calls of library functions reach the library | an x86 interpreter for the instructions involved; the invariant `alive` of processes holds after start-up and is kept by lazy binding (ProofCall, ProofProg), on top of C66_plt. | partial |
| C72 | Accesses through the GOT see the library's address | the same interpreter on top of C66_got. | partial |
| C73 | Calls and addresses within the program are right | the same interpreter on top of C66_near/C66_lea, with C16 for the address and C45 for the bytes there. | partial |
| C74 | Execution starts at _start | C44_start with C36 for the header in the file and C45 for the bytes. | partial |
| C75 | Pointers in data are right at run time | C66_near with C70 for the memory. | partial |
| C76 | Names are bound to libraries only when needed | an entry of the symbol table built by a global definition never changes again (ProofOwn: the rank of its name is the top of the merge order); an entry is dynamic only when a library listed it (ProofBound). | partial |
| C77 | The linker's own sections have the prescribed headers | headers are never changed but in size and alignment after Writer::new (ProofHist); a section with a name of the linker's own has its index, by injectivity of the string table (ProofHeaders). | proved |
| C78 | Undefined-symbol errors are genuine | no function before the final check returns this error (ProofMissing, calm); the loop only stops after a round in which no library and no archive had any of the names (loop_searched); a name with a global definition is never undefined again (ProofOwn), and the symbol table is not lost on the way to the check (computed). For the converse the stages up to the check are total once names are resolved (ProofComplete, finalize_all), so the check sees the table the writer would have used: a name with a definition in a section has the number of an output section there (homed), one of the linker's own names too (own_homed), and any other is in the list (left_over). | partial |
| C79 | All constructors and destructors run | a loader that keeps the last DT_INIT_ARRAY and DT_INIT_ARRAYSZ of .dynamic and calls each word (SpecInit); the merged section holds the input bytes at their offsets (C22, C34), its header is the source of the two entries (ProofInit). | partial |
| C80 | The output is an executable file with named sections | a file system that keeps contents and mode of each path (SpecOutput); the section names are read from the bytes of the file: header, section headers, string table (C36_partial, ProofOutput: the section number e_shstrndx is the string table all sh_name refer to). | partial |
| C81 | Weak references need no definition | the loop and the final check take weak names like global ones: witnesses by computation; that such a link never succeeds follows from C46_partial. | partial |
| C82 | Names libraries need from the program are exported | C76_partial: no entry of .dynsym has a name the program defines; a library calling back as witness. | partial |
| C83 | Thread-local data is described to the loader | kinds of program headers from the layout invariant; a program with thread-local data as witness. | partial |
| C84 | The stack is not executable unless asked for | the program headers as read back from the file (C36) and the rule of the kernel; an object with .note.GNU-stack as witness. | partial |
| C85 | --build-id and --eh-frame-hdr are honoured | two command lines that differ in these options only: the same link, by unfolding every function that takes the options. | partial |
| C86 | --hash-style selects the hash tables | C77 for the tables asked for, the classification of output sections for the others, C38 for .dynamic. | proved |
| C87 | A name with several definitions has the address of one of them | the patching steps for one symbol by position (section, chunk), matched with the input sections that define the name: the sum of their addresses; never the address of a definition as every loaded section is at 0x200000 or above. | partial |
| C88 | No archive member is loaded twice | a record of every round of the loop (SpecArchive); names an index has for a loaded member are at the defined level of the climbing order of C47 and stay there, so they cannot ask for it again; witness run by vm_compute. | partial |
| C89 | An archive member is loaded only for an undefined name | the same record with the state at the start of each round; witness run by vm_compute. | partial |
| C90 | Every error has its cause in the inputs | a predicate on the error of each step, carried through the run; for symbols defined twice the run up to the refused symbol is replayed as a sequence of additions, and the table is read back in terms of the symbols added. | proved |
| C91 | COMDAT groups are kept once | groups read from the input objects as the gABI describes them; sizes of output sections (C40) against the total without the members to be dropped. | partial |
| C92 | Hidden names are not bound to libraries | corollary of C76_listed; witness with a library. | partial |
| C93 | Indirect functions are resolved | record types of .rela.dyn and .rela.plt from C25 and C26; witness executed. | partial |
| C94 | Arrays run before all others are found | tags of .dynamic from C38. | partial |
| C95 | Excluded sections are left out | as C91. | partial |
| C96 | Relocations without a symbol use the value zero | bytes outside relocated fields (C45); witness. | partial |
| C97 | Dynamic symbol entries say where a name comes from | invariant of the resolution loop: symbols added to .dynsym are copies of library symbols with section index 0; the copy pass rewrites objects only. | proved |
| C98 | The exit status tells whether a program was written | main_run models main() with status, output and effects; case analysis; the header from C80. | proved |
| C99 | Inputs that are named are linked or reported | induction over the inputs of the command line; scripts only add; witness for scripts. | partial |
| C100 | Asking for help prints the help and nothing else | C51 and the search of inputs; witnesses. | partial |
| C101 | A program without entry point is not written | C44 and C33: all segments lie at 0x200000 or above. | partial |
| C102 | The message about undefined symbols names them | C78 and a parser for the message text. | partial |
| C103 | What is computed is written | The sections that finalize looks up exist in every computed writer. | proved |
| C104 | Reading sound inputs does not crash | An invariant of the writer while inputs are read (names resolve, chunks exist), one lemma per function, then C47 for termination. | partial |
| C105 | Sound inputs do not crash the link | C104 for reading; the keys of the symbol table keep their names through compute_sections; C103 for writing; witness for the crash. SpecCrash/ProofCrash/PropCrash: an invariant (good) that says every index held by the writer is in range and every table the later steps unwrap exists, kept by each step of compute_sections, so each step but the three named cannot panic. ProofPlt: for ordinary inputs the PLT has one entry per scanned call, each with its number and relocation offset, and both tables are as long as the entries need, so every write of the patching is in range. ProofRoom: the layout makes at most two headers per section and moves on by at most a page per section beyond the sizes. | partial |
| C106 | A relocation is applied exactly when it can be encoded | SpecApply gives the condition in plain arithmetic, type by type; ProofApply shows by cases that each step of apply_relocation succeeds under its part of the condition and panics otherwise. | proved |
| C107 | A complete program is linked | C90 excludes every error but undefined symbols; the entry of a name reported as undefined is not local, so by the history of the table some symbol of that name is not, and C78_exact applies; C105 for panics. Witness for the crash. | partial |
| C108 | A library nothing refers to leaves no trace | Two runs side by side: up to the libraries they are the same run; the names the writer lacks come from the inputs, so the library offers none of them and process_shared_lib leaves the writer as it was, hence the later libraries and the writer see the same state. Induction on the list of libraries; C108_many by induction on the libraries added. | proved |
| C109 | Naming a library twice changes nothing | What a library leaves in the list of wanted names it does not list (and its names can all be read), and libraries never change .strtab, where the names come from; so a second search finds nothing and changes nothing. Induction on the libraries between the two mentions, then on the rounds of the search; C109_firsts by induction on the list. | proved |
| C110 | A stub of a library does as well as the library | add_dyn_symbol overwrites name offset, section and value, so symbols that agree in the rest leave the same writer; induction on symbols, wanted names, libraries and rounds. Objects and archives are read alike by hypothesis. | proved |
| C111 | Archive members the index does not name have no influence | Members are asked for by what the index gives for a wanted name, so every member loaded is an indexed one; induction on wanted names, archives and rounds; libraries by C110. | proved |

Words used by several theorems:

* `links wd lo l fuel w secs`: linking `l` in world `wd` succeeds, with final state `w` and finished sections `secs`.
* `plain_inputs`: no input section has the name of one the linker makes itself, only empty sections are unnamed, and sections of the same name agree on being zero-fill. What happens otherwise is C45.
* `runnable`: a `good_link` whose file was written, without write-only sections, with zero-fill last in its segment and header fields in range; `alive`: a process whose program has not damaged what it is linked with (SpecRun.v).
* `good_link`: `links` with plain inputs, a valid oracle, no STT_SECTION symbol exported by a library, string tables below 4 GiB, symbol fields and section ends that fit 64 bits.

## Modelled and not modelled

Modelled: src/name.rs, src/serialize.rs, src/symbol.rs, src/elf/{string_table,symbol_table,chunk,section,plt,copy_rel,options}.rs, src/elf.rs, src/lib.rs, src/linker_script.rs, src/main.rs: every function that computes something.

Not modelled:

* goblin (parsing ELF and archive files), env_logger and all logging, `Display`/`Debug` output, the text of error messages other than the one about undefined symbols (error cases are kept; ModelMain.v has exit status, standard output and the help text).
* the file system beyond "what does reading this path give": `Writer::new` creating the file, the writes and chmod are a list of effects of `link` (C48).
* `combine` parser library: its combinators used by linker_script.rs are modelled by hand in ModelScript.v with its commit semantics; characters are ASCII.
* locks: the model has no locks; C62 is about a separate trace model.
* memory exhaustion, and wrap-around of u64/usize sums.

Simplifications (also stated at the definitions):

* sorting is insertion sort where the code uses a stable sort (same result), an oracle where it is unstable.
* a HashSet/HashMap that is only queried is a list or a finite map.
* the writes of `write_to_disk` are one effect.
* `file_range` of goblin is offset + size, none for zero-fill sections.

## Trusted base

* Coq 8.16.1's kernel (and its VM for `vm_compute` in examples and witnesses; coqchk re-checks without it).
* The reading of /repo into Model*.v, and the Spec*.v files saying what the properties mean.
* No axioms: `Print Assumptions` prints "Closed under the global context" for every theorem. No file of ours declares an axiom, parameter or module type; libraries used: standard library, std++, RecordUpdate.
