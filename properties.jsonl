{"id": "C01", "title": "String-table offsets read back as the name", "statement": "After any sequence of names has been interned in a string table (.strtab/.dynstr/.shstrtab), the bytes the linker emits for that table, read as a NUL-terminated C string at the offset handed out for a name, spell exactly that name (for names without NUL bytes).", "quantifier": "every finite sequence of interned names, every name in it", "why_tests_cant": "a test interns a handful of names; the offset arithmetic has to be right for every history and every name length, including repeats and the empty name", "anchors": ["src/elf/string_table.rs: get_or_create, sorted_names, chunk", "src/serialize.rs: Serialize for Name"]}
{"id": "C02", "title": "Interning is stable and injective", "statement": "Interning the same name again returns the same offset and index and reports it as not new; two different names never share an offset or an index; indices are dense in order of first insertion; offsets already handed out never change.", "quantifier": "every sequence of interned names and every pair of names", "why_tests_cant": "collisions depend on the whole history", "anchors": ["src/elf/string_table.rs: get_or_create, get"]}
{"id": "C03", "title": "String-table size equals emitted bytes", "statement": "The size advertised for a string section equals the number of bytes emitted for it, and its first byte is NUL (offset 0 is the empty name).", "quantifier": "every interning history", "why_tests_cant": "size and content are computed by different code paths, which must agree for every history", "anchors": ["src/elf/string_table.rs: total_len, chunk, expand"]}
{"id": "C04", "title": "Reverse name lookup", "statement": "Looking a name up by its offset returns exactly the name that offset was handed out for and nothing for any other number, whatever order the hash map iterates in.", "quantifier": "every interning history, every offset, every hash-map iteration order", "why_tests_cant": "hash-map iteration order is randomised per process", "anchors": ["src/elf/string_table.rs: name"]}
{"id": "C05", "title": "SysV hash function conforms to the gABI", "statement": "The hash stored for a symbol in .hash is the gABI (System V) hash of its name, a 28-bit number, with no overflow for any byte string.", "quantifier": "every byte string", "why_tests_cant": "infinitely many names; wrap-around only appears for long ones", "anchors": ["src/name.rs: elf_hash"]}
{"id": "C06", "title": "GNU hash function conforms to the DT_GNU_HASH definition", "statement": "The hash used for .gnu.hash is h(s) = fold (33*h + byte) from 5381 modulo 2^32.", "quantifier": "every byte string", "why_tests_cant": "wrap-around only appears for long names", "anchors": ["src/name.rs: elf_gnu_hash"]}
{"id": "C07", "title": "SysV hash section finds every dynamic symbol", "statement": "The gABI lookup procedure run on the emitted .hash section (bucket, then chain) terminates and visits every non-null dynamic symbol whose hash falls in the bucket looked up, and only those; so every dynamic symbol is found by name. Building the table terminates and never indexes out of range.", "quantifier": "every list of dynamic symbols (any hashes, any collisions)", "why_tests_cant": "chain construction is pointer chasing; cycles or dropped links appear only for particular collision patterns", "anchors": ["src/elf/symbol_table.rs: HashTable::add_symbols", "src/serialize.rs: Serialize for HashTable"]}
{"id": "C08", "title": "GNU bloom filter has no false negatives", "statement": "For every dynamic symbol except the null symbol, the bloom-filter test the dynamic loader performs on the emitted .gnu.hash passes.", "quantifier": "every list of dynamic symbols", "why_tests_cant": "a false negative needs a particular hash/size combination", "anchors": ["src/elf/symbol_table.rs: calculate_bloom, GnuHashTable::add_symbols"]}
{"id": "C09", "title": "GNU hash section finds every dynamic symbol", "statement": "The dynamic loader's GNU lookup procedure on the emitted .gnu.hash finds every non-null dynamic symbol.", "quantifier": "every dynamic symbol table", "why_tests_cant": "only fails once there is more than one bucket, i.e. with at least 8 dynamic symbols", "anchors": ["src/elf/symbol_table.rs: GnuHashTable::add_symbols, sort_symbols_func, SymbolTable::sorted"]}
{"id": "C10", "title": "Local symbols precede global ones and sh_info counts them", "statement": "In the emitted .symtab/.dynsym every local symbol precedes every non-local one, and sh_info is the index of the first non-local symbol.", "quantifier": "every sequence of symbols added, every hash-map iteration order", "why_tests_cant": "depends on the complete history of symbol overrides", "anchors": ["src/elf/symbol_table.rs: add_symbol (num_locals), sorted, expand"]}
{"id": "C11", "title": "Duplicate strong definitions are rejected, and only those", "statement": "Adding a symbol fails exactly when a global definition meets an existing global definition of the same name (neither undefined); then the table is unchanged and the error names the file of the first definition.", "quantifier": "every symbol table and every new symbol", "why_tests_cant": "requires every combination of binding, type and section index", "anchors": ["src/elf/symbol_table.rs: SymbolTable::add_symbol, Error::AlreadyDefined"]}
{"id": "C12", "title": "Binding precedence", "statement": "When symbols of the same name meet, the surviving binding is the strongest one seen (local < weak < global) and a symbol with strictly stronger binding replaces type, section, value and size of the previous one; weaker ones never overwrite an existing definition.", "quantifier": "every sequence of same-named symbols", "why_tests_cant": "all histories", "anchors": ["src/elf/symbol_table.rs: add_symbol", "src/symbol.rs: higher_bind_than"]}
{"id": "C13", "title": "A reference seen before the definition resolves to the definition", "statement": "If a global symbol is first seen undefined and later defined, the symbol ends with the definition's value, size and type.", "quantifier": "every definition (any value, size, type)", "why_tests_cant": "depends on the order objects appear and on the symbol not being at offset 0", "anchors": ["src/elf/symbol_table.rs:115-123"]}
{"id": "C14", "title": "A definition is kept when references follow", "statement": "Once a symbol is defined with a given binding, any number of later undefined references of the same or weaker binding leaves its section, value, size and type unchanged.", "quantifier": "every definition and every later sequence of undefined symbols", "why_tests_cant": "all histories", "anchors": ["src/elf/symbol_table.rs: add_symbol"]}
{"id": "C15", "title": "Symbol table emission is complete and index-stable", "statement": "The emitted symbol table contains each named symbol exactly once, 24 bytes each, and the index recorded in dynamic relocations for a symbol is its position in the table finally written, even though the table is regenerated after values are patched.", "quantifier": "every symbol table, every hash-map iteration order, every patching of values", "why_tests_cant": "index and table are computed at different times from a randomised hash map", "anchors": ["src/elf/symbol_table.rs: sorted, chunk, finalize", "src/elf.rs:831-847"]}
{"id": "C16", "title": "Final symbol address", "statement": "After linking, a symbol defined in an input section has as value the address of that section's contribution plus its offset in it, and the section index of the output section.", "quantifier": "every set of inputs", "why_tests_cant": "depends on which other files define the same name", "anchors": ["src/elf/section.rs: patch_symbol_values", "src/elf.rs: handle_relocations, add_symbol_inner"]}
{"id": "C17", "title": "Relocations compute the psABI formula", "statement": "For every supported relocation type (64, 32, 32S, PC32, PLT32, GOTPCRELX, REX_GOTPCRELX, TLSGD, GOTTPOFF) the field at the relocated place finally holds the value the x86-64 psABI prescribes.", "quantifier": "every symbol value, addend, place, GOT/PLT address, and section content", "why_tests_cant": "arithmetic over 64-bit values", "anchors": ["src/elf/chunk.rs: apply_relocation"]}
{"id": "C18", "title": "Relocations touch only their field", "statement": "Applying a relocation changes no byte outside the 4 or 8 byte field (plus the at most 3 preceding opcode bytes when an instruction is relaxed) and never changes the length of the section.", "quantifier": "every section content and relocation", "why_tests_cant": "all offsets, including the very ends of a section", "anchors": ["src/elf/chunk.rs: apply_relocation"]}
{"id": "C19", "title": "Out-of-range relocations are not silently truncated", "statement": "If the psABI value does not fit the field, linking aborts instead of writing a truncated value.", "quantifier": "every value", "why_tests_cant": "boundary values in a 64-bit space", "anchors": ["src/elf/chunk.rs:118-213"]}
{"id": "C20", "title": "mov->lea GOT relaxation preserves meaning", "statement": "When R_X86_64_REX_GOTPCRELX against a non-dynamic symbol is relaxed, the rewritten instruction is a lea into the same register whose effective address is the symbol (S + A + 4), i.e. what the original load would have fetched from a correctly filled GOT slot; any other instruction aborts the link.", "quantifier": "every register, symbol, place and surrounding bytes", "why_tests_cant": "16 encodings times 64-bit addresses", "anchors": ["src/elf/chunk.rs:161-191"]}
{"id": "C21", "title": "call/jmp GOT relaxation preserves meaning", "statement": "When R_X86_64_GOTPCRELX on an indirect call/jmp against a non-dynamic symbol is relaxed to a direct one, the direct branch targets the symbol (S + A + 4).", "quantifier": "every symbol and place", "why_tests_cant": "needs instruction decoding for arbitrary addresses", "anchors": ["src/elf/chunk.rs:135-155"]}
{"id": "C22", "title": "GOT slots are distinct and inside .got", "statement": "Every symbol referenced through the GOT gets a slot at a positive multiple of 8 (slot 0 stays reserved), different symbols get different non-overlapping slots, and all slots lie inside the .got section as sized; a second reference reuses the slot.", "quantifier": "every set of sections and relocations", "why_tests_cant": "depends on all relocations of all inputs", "anchors": ["src/elf.rs: scan_relocations, resize_got_section"]}
{"id": "C23", "title": "PLT and .got.plt slots correspond", "statement": "Symbols called through the PLT get distinct dense PLT indices 0..n-1 and the i-th one owns exactly .got.plt word 3+i; the .plt is 16*(n+1) bytes and .got.plt is 8*(n+3) bytes.", "quantifier": "every set of sections and relocations", "why_tests_cant": "depends on all relocations of all inputs", "anchors": ["src/elf.rs: scan_relocations, resize_got_plt_section", "src/elf/plt.rs"]}
{"id": "C24", "title": "PLT stubs decode to the right code", "statement": "Each emitted PLT entry decodes as: indirect jump through this symbol's .got.plt word; push of the symbol's .rela.plt index; jump to PLT entry 0. Entry 0 pushes .got.plt[1] and jumps through .got.plt[2]. Each .got.plt word initially points at its entry's push instruction.", "quantifier": "every PLT size, every base address, every iteration order of the got_plt map", "why_tests_cant": "displacement arithmetic over all addresses; patches overlap in one buffer", "anchors": ["src/elf.rs: patch_plt_and_got_plt, plt_entry_addr"]}
{"id": "C25", "title": "Lazy binding index", "statement": "The .rela.plt record whose index a PLT entry pushes is an R_X86_64_JUMP_SLOT for exactly that symbol's .got.plt word and names the symbol's index in .dynsym.", "quantifier": "every set of inputs and every hash-map iteration order", "why_tests_cant": "record order comes from a randomised hash map", "anchors": ["src/elf.rs:844-867, 714-748"]}
{"id": "C26", "title": "GOT words of dynamic symbols are bound by the loader", "statement": "Each dynamic symbol with a GOT slot gets exactly one R_X86_64_GLOB_DAT record in .rela.dyn at its slot's address with its .dynsym index; .rela.dyn/.rela.plt sizes equal the number of records times 24.", "quantifier": "every set of inputs and iteration orders", "why_tests_cant": "as above", "anchors": ["src/elf.rs:844-870, 727-747"]}
{"id": "C27", "title": "COPY-relocated objects get their own storage", "statement": "Every dynamic object symbol gets one R_X86_64_COPY record; the storage areas [address, address+size) of different objects are disjoint, lie inside .copyrel, and overlap no other section in memory; the dynamic symbol's value is that address.", "quantifier": "every set of inputs", "why_tests_cant": "needs programs importing several data objects", "anchors": ["src/elf/copy_rel.rs", "src/elf.rs:851-862, 827-829", "src/elf/section.rs:132"]}
{"id": "C28", "title": "Section order", "statement": "The section comparison is a consistent total preorder, and for whatever unstable sort result, the output keeps the null section first, contains each section exactly once, groups sections of equal flags contiguously, orders a group by decreasing alignment and puts flagless sections last; section indices equal positions.", "quantifier": "every list of sections, every result permitted to an unstable sort", "why_tests_cant": "unstable sort may permute ties", "anchors": ["src/elf.rs: section_cmp, sort_sections"]}
{"id": "C29", "title": "Loaded sections do not overlap in memory", "statement": "No two allocated sections' address ranges overlap, and section addresses increase in file order.", "quantifier": "every list of sections (sizes, flags, alignments)", "why_tests_cant": "unbounded combinations of sizes", "anchors": ["src/elf.rs: generate_program_headers, get_load_program_header"]}
{"id": "C30", "title": "File ranges do not overlap", "statement": "The file ranges of the ELF header, the program headers, every section's contents, and the section header table are pairwise disjoint.", "quantifier": "every list of sections", "why_tests_cant": "unbounded combinations", "anchors": ["src/elf.rs: generate_program_headers, write_to_disk"]}
{"id": "C31", "title": "Every allocated section is mapped with its permissions", "statement": "Every allocated section lies inside a PT_LOAD segment that is readable, writable iff the section is SHF_WRITE and executable iff it is SHF_EXECINSTR; non-allocated sections are in no segment; no segment is writable and executable unless a section is.", "quantifier": "every list of sections", "why_tests_cant": "depends on all flags combinations", "anchors": ["src/elf.rs: generate_program_headers, get_load_program_header"]}
{"id": "C32", "title": "Segments map file contents to the section addresses", "statement": "For every allocated section with contents, its file offset minus its segment's file offset equals its address minus the segment's address, segments are page-congruent, p_filesz <= p_memsz, and distinct segments never share a page.", "quantifier": "every list of sections", "why_tests_cant": "breaks only when zero-fill sections precede others in a segment", "anchors": ["src/elf.rs: generate_program_headers, get_load_program_header, round_to"]}
{"id": "C33", "title": "Program header table is complete and mapped", "statement": "The number of program headers written equals e_phnum and the number reserved when laying out sections; PT_PHDR comes first and describes exactly the table; the first PT_LOAD starts at file offset 0 and covers the ELF header and the table; every load segment opened is emitted.", "quantifier": "every list of sections", "why_tests_cant": "count and generation are separate loops that must agree on all inputs", "anchors": ["src/elf.rs: count_program_headers, generate_program_headers, compute_sections"]}
{"id": "C34", "title": "PT_INTERP and PT_DYNAMIC describe .interp and .dynamic", "statement": "Their address, file offset and size equal those of the sections .interp and .dynamic.", "quantifier": "every set of inputs", "why_tests_cant": "p_vaddr is sampled before the section is placed; only right if the section is not first in its segment", "anchors": ["src/elf.rs:1054-1074, p_type"]}
{"id": "C35", "title": "Section alignment is honoured", "statement": "Every input section's contribution and every output section starts at an address that is a multiple of its sh_addralign.", "quantifier": "every set of inputs", "why_tests_cant": "depends on sizes of everything before it", "anchors": ["src/elf.rs: generate_program_headers", "src/elf/section.rs: set_address"]}
{"id": "C36", "title": "The written file parses back", "statement": "Decoding the bytes written to disk as ELF64 yields the header, program headers and section headers the linker computed, and for every section with contents the bytes at sh_offset are exactly that section's data.", "quantifier": "every set of inputs whose same-named sections agree on being zero-fill and whose section names are not linker-reserved", "why_tests_cant": "whole-file property over all inputs", "anchors": ["src/elf.rs: write_to_disk, compute_sections", "src/serialize.rs"]}
{"id": "C37", "title": "On-disk encodings are faithful", "statement": "ELF header, program header, section header, symbol, relocation, dynamic entry and hash-table serializations have the ELF64 sizes and field layout, and decoding them gives back the values.", "quantifier": "all field values in range", "why_tests_cant": "all 64-bit values", "anchors": ["src/serialize.rs"]}
{"id": "C38", "title": "Dynamic section is complete", "statement": "The .dynamic section has the size reserved for it, ends with DT_NULL, and every DT_ address/size tag equals the address/size of the section it describes.", "quantifier": "every set of sections", "why_tests_cant": "space is reserved by one function and filled by another", "anchors": ["src/elf.rs: dyn_entries, try_add_dyn_entries, add_dyn_entries, assign_section_addresses"]}
{"id": "C39", "title": "DT_NEEDED lists the libraries used, once", "statement": "Each shared library that provided a symbol has a DT_NEEDED entry with its file name, no entry is duplicated, the dynamic linker's file name is always listed, and each entry's offset reads back as the name in .dynstr.", "quantifier": "every sequence of libraries and symbols", "why_tests_cant": "depends on history of the shared string table", "anchors": ["src/elf.rs: add_needed, Writer::new", "src/lib.rs: find_undefined_symbols_in_libs"]}
{"id": "C40", "title": "Section contents are merged in order", "statement": "An output section's contents are the concatenation of the contents of the input sections of that name in the order they were added, its size is the sum of theirs and its alignment the maximum.", "quantifier": "every sequence of input sections", "why_tests_cant": "all histories", "anchors": ["src/elf.rs: add_section, push_section"]}
{"id": "C41", "title": "Zero-fill sections of different objects do not alias", "statement": "Symbols defined at offsets inside .bss sections of two different objects get disjoint addresses.", "quantifier": "every pair of objects with zero-fill sections of the same name", "why_tests_cant": "needs two objects with .bss", "anchors": ["src/elf.rs:411-415", "src/elf/section.rs: patch_symbol_values"]}
{"id": "C42", "title": "Array boundary symbols", "statement": "__init_array_start/__init_array_end (and fini) end up as the address of .init_array and the address just past its end.", "quantifier": "every number of contributions to .init_array", "why_tests_cant": "wrong only with two or more contributions", "anchors": ["src/elf.rs: handle_special_symbols"]}
{"id": "C43", "title": "_GLOBAL_OFFSET_TABLE_", "statement": "If referenced, _GLOBAL_OFFSET_TABLE_ resolves to the address of .got.plt.", "quantifier": "every set of inputs", "why_tests_cant": "global property of a pipeline of passes", "anchors": ["src/elf.rs:673-679"]}
{"id": "C44", "title": "Entry point", "statement": "e_entry is the final address of _start, or 0 if no such symbol exists.", "quantifier": "every set of inputs", "why_tests_cant": "global property of a pipeline of passes", "anchors": ["src/elf.rs:930-935"]}
{"id": "C45", "title": "A section is merged only with the section of the same name", "statement": "Contents added under a section name go to the output section with that name.", "quantifier": "every sequence of section names, including linker-generated names", "why_tests_cant": "relies on two vectors being filled in the same order", "anchors": ["src/elf.rs: Writer::new, add_section"]}
{"id": "C46", "title": "Successful links have no unresolved symbols", "statement": "If linking succeeds, every global or weak symbol is defined by an object, by the linker, or by a shared library that defines it.", "quantifier": "every set of inputs", "why_tests_cant": "needs libraries that import the same missing name", "anchors": ["src/lib.rs: link, find_undefined_symbols_in_libs", "src/elf.rs: undefined_symbols"]}
{"id": "C47", "title": "Symbol resolution terminates", "statement": "The loop searching libraries and archives terminates.", "quantifier": "every set of inputs", "why_tests_cant": "non-termination cannot be observed by a test", "anchors": ["src/lib.rs:251-260"]}
{"id": "C48", "title": "A failed link leaves the previous output alone", "statement": "If linking fails, an existing output file keeps its contents.", "quantifier": "every failing input", "why_tests_cant": "every failure point", "anchors": ["src/elf.rs:174", "src/lib.rs:225-274"]}
{"id": "C49", "title": "Linker scripts yield their arguments in order", "statement": "Parsing a script made of comments, OUTPUT_FORMAT and GROUP commands returns the group arguments in order, each AS_NEEDED block introduced by --as-needed, independent of spacing and comments.", "quantifier": "every script of that form", "why_tests_cant": "infinitely many scripts", "anchors": ["src/linker_script.rs"]}
{"id": "C50", "title": "Linker-script parsing terminates", "statement": "Parsing any text terminates with a result or an error.", "quantifier": "every text", "why_tests_cant": "non-termination cannot be observed by a test", "anchors": ["src/linker_script.rs: parse"]}
{"id": "C51", "title": "Command line parsing", "statement": "Option values are taken from the argument following them, an option missing its argument is an error, the last -o/-m/-dynamic-linker/--hash-style wins, and every other argument becomes an input in order, flagged with the as-needed state in force at that point.", "quantifier": "every argument list", "why_tests_cant": "infinitely many argument lists", "anchors": ["src/main.rs: handle_linker_args", "src/elf/options.rs"]}
{"id": "C52", "title": "--no-as-needed libraries are always recorded", "statement": "A library given while --no-as-needed is in force appears in DT_NEEDED even if unused; an AS_NEEDED block in a script affects only its own members.", "quantifier": "every command line", "why_tests_cant": "needs the flag to be observed end to end", "anchors": ["src/main.rs", "src/lib.rs:161", "src/linker_script.rs:38-52"]}
{"id": "C53", "title": "Library search order", "statement": "-lNAME picks libNAME.so or libNAME.a from the first -L directory (in command line order) that has one.", "quantifier": "every list of directories and file system", "why_tests_cant": "directory set is a randomised hash set", "anchors": ["src/main.rs: search_for_inputs"]}
{"id": "C54", "title": "Input classification", "statement": "An input file is treated as archive, shared library, relocatable object or script according to its first 18 bytes only, as the ar magic / ELF magic and e_type say; short files are scripts.", "quantifier": "every file content", "why_tests_cant": "all byte strings", "anchors": ["src/main.rs: file_type"]}
{"id": "C55", "title": "sh_link names the linked section", "statement": "In the output, sh_link of .symtab/.dynsym/.dynamic/.rela.*/.hash/.gnu.hash is the index of the string or symbol table they refer to.", "quantifier": "every set of inputs, every sort result", "why_tests_cant": "indices change when sections are sorted", "anchors": ["src/elf/section.rs: finalize", "src/elf.rs: sort_sections"]}
{"id": "C56", "title": "Results do not depend on hash iteration order", "statement": "Symbol values after patching and PLT/GOT.PLT contents after patching are the same for every iteration order of the hash sets and maps involved.", "quantifier": "every permutation of iteration order", "why_tests_cant": "order is randomised per process", "anchors": ["src/elf/section.rs: patch_symbol_values", "src/elf.rs: patch_plt_and_got_plt"]}
{"id": "C57", "title": "Thread-local symbols are relocated against the TLS block", "statement": "TPOFF32 yields the offset from the thread pointer, and GOT words used by GOTTPOFF/TLSGD are bound at load time.", "quantifier": "every TLS symbol", "why_tests_cant": "needs TLS programs", "anchors": ["src/elf/chunk.rs:192-207"]}
{"id": "C58", "title": "Common symbols get storage", "statement": "A tentative (SHN_COMMON) definition gets zero-filled storage at an aligned address.", "quantifier": "every common symbol", "why_tests_cant": "needs such inputs", "anchors": ["src/lib.rs: process_symbols", "src/elf.rs: add_symbol_inner"]}
{"id": "C59", "title": "Relocations apply to the section their header names", "statement": "The relocations of a relocation section are applied to the section its sh_info names.", "quantifier": "every object layout", "why_tests_cant": "compilers usually emit them adjacently", "anchors": ["src/lib.rs: process_relocations"]}
{"id": "C60", "title": "Relocations that do not conform to the ABI are refused", "statement": "R_X86_64_8/16/PC8/PC16 make adding the relocation fail, leaving the sections unchanged; no other type is refused.", "quantifier": "every relocation", "why_tests_cant": "all type numbers", "anchors": ["src/elf.rs: add_relocation"]}
{"id": "C61", "title": "PLT32 against a non-dynamic symbol becomes PC32", "statement": "During scanning, exactly the R_X86_64_PLT32 relocations whose symbol is not dynamic become R_X86_64_PC32, with the same place, symbol and addend; every other relocation is unchanged.", "quantifier": "every set of sections", "why_tests_cant": "all relocations", "anchors": ["src/elf.rs:782-801"]}
{"id": "C62", "title": "Internal locks never self-deadlock", "statement": "While linking, a section's lock is never requested in a conflicting mode by the same thread that already holds it.", "quantifier": "every set of inputs", "why_tests_cant": "a deadlock depends on which section names occur in the inputs", "anchors": ["src/elf.rs: scan_relocations, write_to_disk, handle_special_symbols"]}
{"id": "C63", "title": "Local symbols are private to their file", "statement": "A local symbol of one input never resolves a reference of another input, and local symbols of the same name in two inputs stay two symbols.", "quantifier": "every set of inputs", "why_tests_cant": "which names collide depends on the inputs", "anchors": ["src/elf/symbol_table.rs: add_symbol"]}
{"id": "C64", "title": "Relocations in sections that are not loaded are applied", "statement": "Relocations against sections without SHF_ALLOC (for example .debug_info) are applied like any other and do not abort the link.", "quantifier": "every section without SHF_ALLOC and every relocation in it", "why_tests_cant": "needs objects with debug information", "anchors": ["src/elf/chunk.rs:43-61", "src/elf.rs: generate_program_headers"]}
{"id": "C65", "title": "Including scripts terminates", "statement": "Expanding linker scripts named on the command line into inputs terminates for every file system.", "quantifier": "every command line and file system", "why_tests_cant": "a script that names itself never stops", "anchors": ["src/main.rs: main"]}
{"id": "C66", "title": "Relocated fields hold the value the ABI prescribes", "statement": "Every relocated field of the output holds the value the x86-64 psABI prescribes for its type, computed from the final address of the symbol, of its PLT entry, of its GOT slot or of its copy storage, truncated to the width of the field.", "quantifier": "every set of inputs, every relocation", "why_tests_cant": "depends on every address of the layout", "anchors": ["src/elf.rs: scan_relocations, handle_relocations", "src/elf/chunk.rs: apply_relocation"]}
{"id": "C67", "title": "Section symbols stand for the object's own contribution", "statement": "A relocation against a section symbol uses the address at which that object's section was placed within the merged output section.", "quantifier": "every set of inputs", "why_tests_cant": "needs several objects with sections of the same name", "anchors": ["src/elf/symbol_table.rs", "src/elf/section.rs: patch_symbol_values"]}
{"id": "C68", "title": "Links are reproducible", "statement": "Linking the same inputs with the same options twice gives every symbol the same address.", "quantifier": "every set of inputs, every iteration order of the hash maps", "why_tests_cant": "the order is random in every run", "anchors": ["src/elf.rs:844-867 (iteration over symbols.symbols_mut())", "src/elf.rs: undefined_symbols"]}
{"id": "C69", "title": "The mapped file has every section where its header says", "statement": "When the kernel maps the output's PT_LOAD segments, every allocated section is in memory at its sh_addr with its contents (zeros for zero-fill) and with the permissions its flags ask for.", "quantifier": "every set of inputs", "why_tests_cant": "depends on the whole layout; tests would have to run every program", "anchors": ["src/elf.rs: generate_program_headers, write_to_disk"]}
{"id": "C70", "title": "The dynamic loader can start the program", "statement": "A loader that maps the file, reads PT_DYNAMIC and applies DT_RELA finds all its tables, stores only in writable memory, binds every GOT word to its symbol's address, leaves the other sections as in the file and each .got.plt word leading back into its PLT entry.", "quantifier": "every set of inputs, every loader", "why_tests_cant": "needs a dynamic loader and all libraries", "anchors": ["src/elf.rs: patch_plt_and_got_plt, assign_section_addresses, add_dyn_entries", "src/elf/copy_rel.rs"]}
{"id": "C71", "title": "Calls of library functions reach the library", "statement": "A call or jump to a function of a shared library ends at the address the loader has for it, the first time through lazy binding and later directly, with the right return address and nothing else changed but the function's own .got.plt word.", "quantifier": "every set of inputs, every call site, every sequence of calls", "why_tests_cant": "a property of executions", "anchors": ["src/elf/plt.rs", "src/elf.rs: scan_relocations, patch_plt_and_got_plt", "src/elf/chunk.rs: apply_relocation"]}
{"id": "C72", "title": "Accesses through the GOT see the library's address", "statement": "A load or indirect call through the GOT of a name of a shared library uses the address the loader has for that name.", "quantifier": "every set of inputs, every such instruction", "why_tests_cant": "a property of executions", "anchors": ["src/elf.rs: scan_relocations, handle_relocations", "src/elf/chunk.rs: apply_relocation"]}
{"id": "C73", "title": "Calls and addresses within the program are right", "statement": "A call or jump to a function defined by an object arrives at the bytes that object has for it, and an address taken through the GOT of such a name is the address of its definition.", "quantifier": "every set of inputs, every such instruction", "why_tests_cant": "a property of executions", "anchors": ["src/elf/chunk.rs: apply_relocation", "src/elf/section.rs: patch_symbol_values"]}
{"id": "C74", "title": "Execution starts at _start", "statement": "The entry point of the file is mapped executable and holds the bytes of the object's _start.", "quantifier": "every set of inputs", "why_tests_cant": "depends on the layout", "anchors": ["src/elf.rs: handle_special_symbols"]}
{"id": "C75", "title": "Pointers in data are right at run time", "statement": "An 8-byte pointer in an initialised section to a name the program defines holds, when the program starts, the address of the definition plus the addend.", "quantifier": "every set of inputs, every R_X86_64_64 relocation", "why_tests_cant": "depends on every address of the layout", "anchors": ["src/elf/chunk.rs: apply_relocation"]}
{"id": "C76", "title": "Names are bound to libraries only when needed", "statement": "The dynamic symbol table lists each name the program needs from its libraries, once, and no name the program's own objects define.", "quantifier": "every set of inputs", "why_tests_cant": "depends on the order in which definitions and references of all files are merged", "anchors": ["src/elf.rs: add_symbol, add_dyn_symbol, undefined_symbols", "src/lib.rs: find_undefined_symbols_in_libs"]}
{"id": "C77", "title": "The linker's own sections have the prescribed headers", "statement": "Each section the linker makes itself (.got, .plt, .dynsym, ...) is in the output exactly once, with the type, flags and entry size the ABI prescribes for it, even when inputs have sections of the same name.", "quantifier": "every set of inputs", "why_tests_cant": "inputs can carry sections of any name and type", "anchors": ["src/elf.rs: new, add_section", "src/elf/plt.rs", "src/elf/symbol_table.rs", "src/elf/string_table.rs", "src/elf/copy_rel.rs"]}
{"id": "C78", "title": "Undefined-symbol errors are genuine", "statement": "When a link stops with undefined symbols, each name in the message is mentioned by a loaded object, is defined by none of them, is listed by no library and is indexed by no archive of the command line.", "quantifier": "every set of inputs, every iteration order", "why_tests_cant": "whether a name is found depends on the order in which libraries, archives and objects are searched, over an unbounded number of rounds", "anchors": ["src/lib.rs: link, find_undefined_symbols_in_libs, process_archives_containing", "src/elf.rs: undefined_symbols, add_symbol"]}
{"id": "C79", "title": "All constructors and destructors run", "statement": "Every word of the inputs' SHT_INIT_ARRAY and SHT_FINI_ARRAY sections is in the array the dynamic loader finds through DT_INIT_ARRAY/DT_FINI_ARRAY and their sizes, in the order the objects were loaded, with pointers to the program's functions resolved.", "quantifier": "every set of inputs", "why_tests_cant": "depends on the merging of sections, on the layout and on the loader", "anchors": ["src/elf.rs:1157-1205 (count and creation of .dynamic entries)", "src/elf.rs: process_section"]}
{"id": "C80", "title": "The output is an executable file with named sections", "statement": "After a successful link the output path holds a file with mode 0755 whose header identifies a 64-bit little-endian x86-64 ELF executable, and the name of every section can be read from the file alone through e_shstrndx; no other file is changed, and a failed link makes nothing executable.", "quantifier": "every set of inputs, every previous state of the file", "why_tests_cant": "depends on the order of all sections and on the file system before", "anchors": ["src/elf.rs: new, compute_sections (e_shstrndx), write_to_disk (set_permissions)", "src/lib.rs: link"]}
{"id": "C81", "title": "Weak references need no definition", "statement": "A weak reference to a name that nothing defines does not stop the link, and does not by itself load an archive member; a weak reference to a name of a library is bound to it.", "quantifier": "every set of inputs", "why_tests_cant": "needs all combinations of weak and strong references over all kinds of inputs", "anchors": ["src/elf.rs:516-529 undefined_symbols", "src/lib.rs: link, process_archives_containing"]}
{"id": "C82", "title": "Names libraries need from the program are exported", "statement": "When a shared library of the link refers to a name without defining it and an object defines it, the name is in the dynamic symbol table of the output.", "quantifier": "every set of inputs", "why_tests_cant": "depends on the symbols of all objects and libraries", "anchors": ["src/lib.rs: find_undefined_symbols_in_libs", "src/elf.rs: add_dyn_symbol"]}
{"id": "C83", "title": "Thread-local data is described to the loader", "statement": "When an object has thread-local data (an allocated section with SHF_TLS), the output has a PT_TLS program header, from which the loader gives each thread its copy.", "quantifier": "every set of inputs", "why_tests_cant": "depends on the layout of all sections of the output", "anchors": ["src/elf.rs:1070-1215 (program headers)"]}
{"id": "C84", "title": "The stack is not executable unless asked for", "statement": "When every object carries .note.GNU-stack without SHF_EXECINSTR, the program headers of the output ask for a stack without execution rights.", "quantifier": "every set of inputs", "why_tests_cant": "depends on all objects and on the program headers of the whole output", "anchors": ["src/elf.rs:1070-1215 (program headers)"]}
{"id": "C85", "title": "--build-id and --eh-frame-hdr are honoured", "statement": "With --build-id the output has a .note.gnu.build-id section, and with --eh-frame-hdr a PT_GNU_EH_FRAME program header.", "quantifier": "every command line, every set of inputs", "why_tests_cant": "a universal statement over command lines and inputs", "anchors": ["src/main.rs:108-135", "src/elf/options.rs:82-103", "src/elf.rs:1070-1215"]}
{"id": "C86", "title": "--hash-style selects the hash tables", "statement": "The output has .hash exactly when the style is sysv or both, and .gnu.hash exactly when it is gnu or both; each has the prescribed type, is loaded, and is the one .dynamic leads to.", "quantifier": "every command line, every set of inputs", "why_tests_cant": "depends on the sections brought by the inputs and on the layout", "anchors": ["src/elf.rs:287-310", "src/elf.rs:1157-1205", "src/main.rs:186"]}
{"id": "C87", "title": "A name with several definitions has the address of one of them", "statement": "When several objects define a name (at most one of them strongly), the value of the name's entry in .symtab is the address of one of these definitions.", "quantifier": "every set of inputs", "why_tests_cant": "depends on the sections of all objects and on the layout", "anchors": ["src/elf/symtab.rs: add_symbol", "src/elf/section.rs:200-218 patch_symbol_values"]}
{"id": "C88", "title": "No archive member is loaded twice", "statement": "A run, successful or not, brings in each member of each archive at most once; in particular a single definition is never reported as a duplicate.", "quantifier": "every set of inputs, every number of rounds, every iteration order", "why_tests_cant": "the resolution loop runs an unbounded number of rounds, and a name can become undefined again", "anchors": ["src/lib.rs:187-223 process_archives_containing", "src/lib.rs:251-260", "src/elf/symbol_table.rs:79-133"]}
{"id": "C89", "title": "An archive member is loaded only for an undefined name", "statement": "A member is brought in only if, when its turn comes, some name the index has for it is undefined and no library of the command line lists that name.", "quantifier": "every set of inputs, every number of rounds, every iteration order", "why_tests_cant": "depends on the order of all rounds, libraries and archives", "anchors": ["src/lib.rs:154-223", "src/lib.rs:251-260"]}
{"id": "C90", "title": "Every error has its cause in the inputs", "statement": "When a link ends with an error and the output file could be created: an I/O error means a file of the command line (or a member an index leads to) cannot be read or parsed; a missing name means a section, symbol or dynamic symbol whose name is not in its string table; a non-conforming relocation means an input has a relocation of that 8 or 16 bit type; \"already defined\" for a non-empty name (all names together under 4 GiB) means the run reached a global definition of it after another definition and a global symbol of it, the file in the message being the first to mention it; \"undefined\" lists at least one name. Without these causes the link gives no error.", "quantifier": "every set of inputs, every run, every iteration order", "why_tests_cant": "a statement about all failing runs", "anchors": ["src/lib.rs:60-273", "src/elf.rs:436-549", "src/elf/symbol_table.rs:79-133", "src/error.rs"]}
{"id": "C91", "title": "COMDAT groups are kept once", "statement": "When several objects have a COMDAT group with the same signature, the sections of the group come from the first of these objects only.", "quantifier": "all finished links of ordinary inputs, all groups", "why_tests_cant": "groups come from inline functions and templates compiled into several objects; which sections may be dropped is a property of the whole set of inputs", "anchors": ["src/lib.rs:77-102", "src/elf.rs:379-419"]}
{"id": "C92", "title": "Hidden names are not bound to libraries", "statement": "A name that an object declares hidden (STV_HIDDEN, STV_INTERNAL) and that nothing in the program defines stops the link; it is never resolved by a shared library.", "quantifier": "all finished links, all symbols", "why_tests_cant": "no test input combines visibility with a library of the same name", "anchors": ["src/lib.rs:104-118", "src/elf/symbol_table.rs:79-133"]}
{"id": "C93", "title": "Indirect functions are resolved", "statement": "When an object defines an indirect function (STT_GNU_IFUNC), the output has an R_X86_64_IRELATIVE record, so that calls reach the function its resolver selects.", "quantifier": "all finished links", "why_tests_cant": "absence of a record type from every possible output", "anchors": ["src/elf.rs:809-888 assign_section_addresses"]}
{"id": "C94", "title": "Arrays run before all others are found", "statement": "When an object has a section of type SHT_PREINIT_ARRAY, .dynamic has DT_PREINIT_ARRAY for it.", "quantifier": "all finished links", "why_tests_cant": "absence of a tag from every possible output", "anchors": ["src/elf.rs:1154-1204"]}
{"id": "C95", "title": "Excluded sections are left out", "statement": "A section with SHF_EXCLUDE is not part of the output.", "quantifier": "all finished links, all input sections", "why_tests_cant": "about every input section and flag", "anchors": ["src/lib.rs:77-102"]}
{"id": "C96", "title": "Relocations without a symbol use the value zero", "statement": "A relocation with symbol index 0 is applied with the symbol value 0: a 64-bit absolute field holds the addend.", "quantifier": "all finished links, all relocations", "why_tests_cant": "about every relocation of every input", "anchors": ["src/lib.rs:120-150"]}
{"id": "C97", "title": "Dynamic symbol entries say where a name comes from", "statement": "Every named entry of .dynsym has the type, binding, visibility and size that a linked library gives the name. An entry that is no data object has section index 0 and value 0, so the loader looks for it in the libraries. A data object has the index of .copyrel, and its bytes lie inside .copyrel.", "quantifier": "all finished links, all entries of .dynsym", "why_tests_cant": "the loader decides by section index whether a name is defined by the program; every entry must be right", "anchors": ["src/elf.rs:474-505", "src/elf/symbol_table.rs:196-206"]}
{"id": "C98", "title": "The exit status tells whether a program was written", "statement": "When the command ends with status 0 it has printed the help text and done nothing, or printed the name of a file that now holds an ELF program with mode 755, no other file having changed. With any other status nothing is printed on standard output, and every file is as it was or empty.", "quantifier": "all command lines, file systems, inputs and iteration orders", "why_tests_cant": "build systems go by the status alone; it has to be right on every path through the program, panics included", "anchors": ["src/main.rs:42-64", "src/lib.rs:225-285", "src/elf.rs:950-1000"]}
{"id": "C99", "title": "Inputs that are named are linked or reported", "statement": "Every input named on the command line or by a script is found and linked (objects and libraries in order), or the command fails.", "quantifier": "all command lines, file systems and search orders", "why_tests_cant": "inputs that are silently dropped show up as other errors, or not at all; only all command lines together say there are none", "anchors": ["src/main.rs:49-55", "src/main.rs:93-100", "src/main.rs:194-233"]}
{"id": "C100", "title": "Asking for help prints the help and nothing else", "statement": "With -h or --help on the command line the help text is printed, with status 0, and no file is touched; without, it is never printed. The options it lists are options.", "quantifier": "all command lines with -h or --help", "why_tests_cant": "help is an option like others and can be combined with anything", "anchors": ["src/main.rs:7-28", "src/main.rs:42-48"]}
{"id": "C101", "title": "A program without entry point is not written", "statement": "A link in which no object has the symbol _start is refused.", "quantifier": "all finished links", "why_tests_cant": "about every set of inputs", "anchors": ["src/elf.rs: compute_sections (e_entry)", "src/main.rs:42-64"]}
{"id": "C102", "title": "The message about undefined symbols names them", "statement": "The text of the error lists, between brackets and separated by commas, exactly the names that are missing.", "quantifier": "all links that fail because of undefined symbols", "why_tests_cant": "the list is made from hash maps of any content", "anchors": ["src/lib.rs:255-293", "src/error.rs:33-37"]}
{"id": "C103", "title": "What is computed is written", "statement": "When the output has been computed and no name is undefined, the file is written and made executable: nothing can fail between the check for undefined names and the end of the write.", "quantifier": "all inputs whose output can be computed, all hash orders", "why_tests_cant": "the write reads sections and tables of any content", "anchors": ["src/elf.rs:950-1000", "src/elf/section.rs:252-263", "src/lib.rs:255-273"]}
{"id": "C104", "title": "Reading sound inputs does not crash", "statement": "When object files point inside themselves, archive indices name object files of the archive and libraries are ELF files, reading and resolving all inputs ends without a panic: with everything loaded or with an error.", "quantifier": "all sound inputs, all hash orders, any number of objects, archives and libraries", "why_tests_cant": "a panic needs one particular combination of inputs", "anchors": ["src/lib.rs:75-260", "src/elf.rs:380-590", "src/elf/string_table.rs"]}
{"id": "C105", "title": "Sound inputs do not crash the link", "statement": "A link of sound inputs ends with an output or an error, never with a panic.", "quantifier": "all sound inputs, all hash orders", "why_tests_cant": "a panic needs one particular combination of inputs", "anchors": ["src/lib.rs:225-273", "src/elf.rs:809-948"]}
{"id": "C106", "title": "A relocation is applied exactly when it can be encoded", "statement": "The linker applies a relocation if and only if its type is one of the handled ones, the symbol has the GOT or PLT slot the type uses, the field lies inside the section, the instruction around a relaxed field is one of the known forms, and the value and the sums on the way to it fit their width. In every other case the link stops; nothing is written for it.", "quantifier": "all contents, addresses, offsets, addends, symbols and relocation types", "why_tests_cant": "the boundary lies at the ends of 32- and 64-bit ranges and in every combination of type, symbol and instruction", "anchors": ["src/elf/chunk.rs:92-215"]}
{"id": "C107", "title": "A complete program is linked", "statement": "A program whose files can be read, whose names are all in their tables, that has no 8 or 16 bit relocation, defines nothing twice, and in which every name a global or weak symbol asks for is defined by an object, by the linker or by a library, is linked: the run ends with an output.", "quantifier": "all such inputs of moderate size, all hash orders", "why_tests_cant": "says that none of the ways to fail is taken, for any inputs; tests show it for the inputs they have", "anchors": ["src/lib.rs:225-273", "src/elf.rs:809-1000", "src/elf/chunk.rs:92-215"]}
{"id": "C108", "title": "A library nothing refers to leaves no trace", "statement": "Adding a shared library none of whose names occurs in the inputs, anywhere among the libraries, changes nothing: the link has the same effects, writes the same bytes and reports the same result as without it.", "quantifier": "all inputs of moderate size whose unnamed symbols are local, all places in the list, any number of such libraries, all hash orders", "why_tests_cant": "compares two runs over every program and every library; a test compares one pair", "anchors": ["src/lib.rs:154-184", "src/lib.rs:225-273", "src/elf.rs:474-505"]}
{"id": "C109", "title": "Naming a library twice changes nothing", "statement": "A shared library named again after its first mention, as-needed or not, is as if it were named once: the link has the same effects, writes the same bytes and reports the same result. Only the first mention of each library counts.", "quantifier": "all inputs, all libraries, all places in the list, all hash orders, whatever the outcome", "why_tests_cant": "compares two runs over every program and every list of libraries; a test compares one pair", "anchors": ["src/lib.rs:154-184", "src/lib.rs:225-273"]}
{"id": "C110", "title": "A stub of a library does as well as the library", "statement": "Of a shared library only the dynamic symbols matter, and of those only name, binding, type, visibility and size: replacing it by one that agrees in these, with other code, data and addresses, gives the same effects, bytes and result. Files that are not named have no influence at all.", "quantifier": "all inputs, all pairs of file systems that agree so far, all hash orders, whatever the outcome", "why_tests_cant": "compares the runs in two file systems that differ without bound", "anchors": ["src/lib.rs:154-184", "src/lib.rs:225-273", "src/elf.rs:474-505"]}
{"id": "C111", "title": "Archive members the index does not name have no influence", "statement": "Of an archive only its index and the members the index names matter: the others may be anything, or be missing, without changing the effects, the bytes or the result of the link.", "quantifier": "all inputs, all pairs of archives with the same index and the same indexed members, all hash orders, whatever the outcome", "why_tests_cant": "compares the runs with two archives that differ without bound", "anchors": ["src/lib.rs:187-223", "src/lib.rs:225-273"]}
