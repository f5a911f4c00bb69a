{
 "claims": [
  {
   "property": "C01",
   "status": "proved",
   "theorems": [
    "C01_offset_reads_back_as_name"
   ],
   "note": ""
  },
  {
   "property": "C02",
   "status": "proved",
   "theorems": [
    "C02_stable",
    "C02_injective",
    "C02_new_iff_first_time",
    "C02_dense_indices"
   ],
   "note": ""
  },
  {
   "property": "C03",
   "status": "proved",
   "theorems": [
    "C03_size"
   ],
   "note": ""
  },
  {
   "property": "C04",
   "status": "proved",
   "theorems": [
    "C04_reverse_lookup",
    "C04_bytes_order_independent"
   ],
   "note": ""
  },
  {
   "property": "C05",
   "status": "proved",
   "theorems": [
    "C05_gabi_hash"
   ],
   "note": ""
  },
  {
   "property": "C06",
   "status": "proved",
   "theorems": [
    "C06_gnu_hash"
   ],
   "note": ""
  },
  {
   "property": "C07",
   "status": "proved",
   "theorems": [
    "C07_bucket_visits",
    "C07_lookup_by_name",
    "C07_link"
   ],
   "note": "tables with fewer than 2^32 symbols; C07_link: on the bytes of .hash, .dynsym and .dynstr of a finished link, libraries' unnamed dynamic symbols being the local ones"
  },
  {
   "property": "C08",
   "status": "proved",
   "theorems": [
    "C08_bloom_no_false_negative"
   ],
   "note": "tables with fewer than 2^32/12 symbols; above that the code panics on overflow"
  },
  {
   "property": "C09",
   "status": "partial",
   "theorems": [
    "C09_gnu_lookup_refuted",
    "C09_gnu_lookup_partial",
    "C09_gnu_lookup_small_partial",
    "C09_link_refuted",
    "C09_link_partial",
    "C09_link_small_partial"
   ],
   "note": "the full statement is false: symbols are sorted by hash, not by bucket; proved when same-bucket symbols are adjacent, in particular with one bucket; the _link theorems are about the bytes of a finished link, where absent names are never found"
  },
  {
   "property": "C10",
   "status": "partial",
   "theorems": [
    "C10_locals_first",
    "C10_sh_info_refuted",
    "C10_sh_info_partial",
    "C10_link_partial",
    "C10_link_refuted"
   ],
   "note": "order proved; sh_info is wrong when a local name is later overridden (refuted), exact otherwise"
  },
  {
   "property": "C100",
   "status": "partial",
   "theorems": [
    "C100_partial",
    "C100_only",
    "C100_refuted",
    "C100_documented_refuted"
   ],
   "note": "Holds when the rest of the command line is in order. Refuted: a missing input is an error even with --help; and the help text documents --hash-style STYLE, which is read as two files."
  },
  {
   "property": "C101",
   "status": "partial",
   "theorems": [
    "C101_always_refuted",
    "C101_refuted"
   ],
   "note": "Refuted, always: the entry becomes address 0, where nothing is mapped; a command line without inputs gives such a program with status 0."
  },
  {
   "property": "C102",
   "status": "partial",
   "theorems": [
    "C102_partial",
    "C102_complete",
    "C102_refuted"
   ],
   "note": "The message lists each name once, every name listed is missing, and every missing name is listed (C78), and the list reads back when names have no commas; refuted with commas."
  },
  {
   "property": "C103",
   "status": "proved",
   "theorems": [
    "C103_written",
    "C103_failed"
   ],
   "note": "For every link whose writer is computed."
  },
  {
   "property": "C104",
   "status": "partial",
   "theorems": [
    "C104_reading",
    "C104_ends",
    "C104_refuted"
   ],
   "note": "Proved for sound inputs (the hypotheses are sound_inputs, names that fit 32 bits, and truthful archive indices for the loop to end); refuted for inputs in general: a section that reaches past the end of its file panics."
  },
  {
   "property": "C105",
   "status": "partial",
   "theorems": [
    "C105_no_relocations",
    "C105_ordinary_partial",
    "C105_filled",
    "C105_reach",
    "C105_place",
    "C105_relocation_partial",
    "C105_no_relocations_partial",
    "C105_partial",
    "C105_refuted",
    "C105_plt_refuted"
   ],
   "note": "Refuted: a relocation of a section that is not loaded panics, and so does an input section named .plt that is shorter than the first PLT entry. Proved: when section symbols have no name and the name tables fit 32-bit offsets, a panic can only be in patching the PLT, in applying an input's relocation, or for more than 1170 program headers (C105_place); with no relocations in the inputs only the last and the PLT remain (C105_no_relocations_partial). A relocation that stops the link has a section without address or cannot be encoded in the sense of C106 (C105_relocation_partial). When no input section has the name of one of the linker's own and .plt and .got.plt end in the first 2 GB, filling in the PLT never panics (C105_filled); that and the limit on program headers follow when there are at most 580 output sections of together at most 1 GB (C105_reach). So for such links a crash is at a relocation of an input (C105_ordinary_partial), and without relocations there is none (C105_no_relocations)."
  },
  {
   "property": "C106",
   "status": "proved",
   "theorems": [
    "C106_applied",
    "C106_refused"
   ],
   "note": "Both directions, for a single relocation; every refusal is a panic. The text of the panic is not modelled."
  },
  {
   "property": "C107",
   "status": "partial",
   "theorems": [
    "C107_no_relocations",
    "C107_partial",
    "C107_defined",
    "C107_wanted",
    "C107_refuted"
   ],
   "note": "Proved for ordinary inputs of moderate size without relocations (C107_no_relocations); with relocations the only other outcome is a panic because a relocation is in a section that is not loaded or cannot be encoded (C107_partial), which happens to complete programs (C107_refuted). Missing: names whose only definitions are weak or local and outside the sections, and names with other than standard bindings."
  },
  {
   "property": "C108",
   "status": "proved",
   "theorems": [
    "C108",
    "C108_many",
    "C108_related_refuted"
   ],
   "note": "For inputs of moderate size (as C104) whose unnamed symbols, other than those of sections, are local. C108_related_refuted shows that the names must be apart."
  },
  {
   "property": "C109",
   "status": "proved",
   "theorems": [
    "C109",
    "C109_firsts",
    "C109_order_refuted"
   ],
   "note": "No conditions at all. Libraries are the same when their paths are equal as strings; two paths to one file are two libraries. C109_order_refuted: the order of the first mentions matters."
  },
  {
   "property": "C11",
   "status": "partial",
   "theorems": [
    "C11_step_iff",
    "C11_two_strong_rejected",
    "C11_only_those_refuted",
    "C11_only_those_partial",
    "C11_error_file_refuted",
    "C11_error_file_partial",
    "C11_link"
   ],
   "note": "refusal proved; a reference followed by a weak and a strong definition is refused too, and the file named is the first to mention the symbol, not the first to define it"
  },
  {
   "property": "C110",
   "status": "proved",
   "theorems": [
    "C110",
    "C110_size_refuted"
   ],
   "note": "For the same hash orders in both runs. The model reads files through the world only; that the program reads no others is part of the reading of src/lib.rs:154-273. C110_size_refuted: sizes matter."
  },
  {
   "property": "C111",
   "status": "proved",
   "theorems": [
    "C111",
    "C111_index_refuted"
   ],
   "note": "For archives the library parses; parsing itself (goblin) is not modelled. C111_index_refuted: a member the index does not name is not found, even if it has the symbol."
  },
  {
   "property": "C12",
   "status": "proved",
   "theorems": [
    "C12_strongest_wins",
    "C12_stronger_replaces",
    "C12_weaker_keeps",
    "C12_link"
   ],
   "note": "for the three standard bindings; C12_link reads it off the output's .symtab"
  },
  {
   "property": "C13",
   "status": "partial",
   "theorems": [
    "C13_ref_before_def_refuted",
    "C13_ref_before_def_partial"
   ],
   "note": "false: value, size and type of the definition are lost when the reference has the same binding; what is kept is stated exactly"
  },
  {
   "property": "C14",
   "status": "proved",
   "theorems": [
    "C14_references_keep",
    "C14_reference_accepted"
   ],
   "note": ""
  },
  {
   "property": "C15",
   "status": "proved",
   "theorems": [
    "C15_each_name_once",
    "C15_index_stable",
    "C15_link"
   ],
   "note": "C15_link: for the .symtab and .strtab of the output"
  },
  {
   "property": "C16",
   "status": "partial",
   "theorems": [
    "C16_placed",
    "C16_partial",
    "C16_refuted",
    "C16_twice_refuted"
   ],
   "note": "Exact value of every name defined in one section, for every link of ordinary inputs; it is the claimed one if the definition comes before references of the same strength and is not zero-fill after other zero-fill. Refuted when a reference comes first (offset lost) and for a weak and a strong definition (both addresses added)."
  },
  {
   "property": "C17",
   "status": "partial",
   "theorems": [
    "C17_field_value",
    "C17_accepted",
    "C17_got32_refuted"
   ],
   "note": "every accepted relocation writes the psABI value of its type, for all types but GOT32, which computes GOTPCREL's value"
  },
  {
   "property": "C18",
   "status": "proved",
   "theorems": [
    "C18_one",
    "C18_chunk"
   ],
   "note": "one relocation, and a whole chunk's list, change no byte outside the relocated fields and relaxed opcodes"
  },
  {
   "property": "C19",
   "status": "partial",
   "theorems": [
    "C19_32S_refuted",
    "C19_32_refuted",
    "C19_partial"
   ],
   "note": "R_X86_64_32 and 32S truncate silently; the other 32-bit types are refused out of range"
  },
  {
   "property": "C20",
   "status": "proved",
   "theorems": [
    "C20_mov_becomes_lea",
    "C20_final"
   ],
   "note": "also after the whole chunk is patched"
  },
  {
   "property": "C21",
   "status": "partial",
   "theorems": [
    "C21_refuted",
    "C21_partial"
   ],
   "note": "the relaxed branch goes 3 bytes past the symbol"
  },
  {
   "property": "C22",
   "status": "partial",
   "theorems": [
    "C22_refuted",
    "C22_slots_partial",
    "C22_got_size"
   ],
   "note": "fails for GOTTPOFF followed by TLSGD on one symbol; proved when no symbol mixes TLSGD with other GOT types"
  },
  {
   "property": "C23",
   "status": "proved",
   "theorems": [
    "C23_slots",
    "C23_sizes"
   ],
   "note": ""
  },
  {
   "property": "C24",
   "status": "proved",
   "theorems": [
    "C24",
    "C24_any_order"
   ],
   "note": "every good link: .plt and .got.plt decode as stated, one entry per symbol with a slot; the listing order of the map does not matter"
  },
  {
   "property": "C25",
   "status": "proved",
   "theorems": [
    "C25"
   ],
   "note": "every good link; both directions, with the record count equal to the number of entries"
  },
  {
   "property": "C26",
   "status": "proved",
   "theorems": [
    "C26"
   ],
   "note": "every good link; exactly one record per dynamic GOT slot and no others"
  },
  {
   "property": "C27",
   "status": "partial",
   "theorems": [
    "C27_refuted",
    "C27_partial"
   ],
   "note": "false: .copyrel is laid out before it has a size, so a copied object shares memory with .got; records, values, containment and mutual disjointness proved"
  },
  {
   "property": "C28",
   "status": "proved",
   "theorems": [
    "C28_comparison",
    "C28_order"
   ],
   "note": "the sections written are in non-increasing order of (allocated, permissions, alignment) as stated, whatever the unstable sort does with ties"
  },
  {
   "property": "C29",
   "status": "partial",
   "theorems": [
    "C29_layout",
    "C29_refuted",
    "C29_partial"
   ],
   "note": "at layout disjoint for every list; in the output .copyrel, sized after layout, overlaps the next section; all other pairs proved disjoint for every link"
  },
  {
   "property": "C30",
   "status": "partial",
   "theorems": [
    "C30_refuted",
    "C30_partial"
   ],
   "note": "a section with flags exactly SHF_WRITE is placed over the ELF header; without one (and with section names below 4 GiB) proved for every link"
  },
  {
   "property": "C31",
   "status": "partial",
   "theorems": [
    "C31_refuted_unallocated",
    "C31_refuted_copyrel",
    "C31_partial"
   ],
   "note": "false for write-only sections and for .copyrel; proved for all other sections of every link"
  },
  {
   "property": "C32",
   "status": "partial",
   "theorems": [
    "C32_refuted",
    "C32_partial"
   ],
   "note": "false if a zero-fill section precedes one with contents in a segment; proved otherwise; page congruence and pages not shared proved for every link without write-only sections"
  },
  {
   "property": "C33",
   "status": "partial",
   "theorems": [
    "C33_partial",
    "C33_refuted"
   ],
   "note": "proved for every link without write-only sections, with section names below 4 GiB; C33_refuted: with a write-only section the first segment holds other bytes than those of its sections."
  },
  {
   "property": "C34",
   "status": "partial",
   "theorems": [
    "C34_refuted",
    "C34_partial"
   ],
   "note": "false if an input section is called .interp; proved for inputs that use no reserved section name"
  },
  {
   "property": "C35",
   "status": "partial",
   "theorems": [
    "C35_refuted",
    "C35_partial"
   ],
   "note": "false: no padding is inserted; proved under the divisibility that makes it true"
  },
  {
   "property": "C36",
   "status": "partial",
   "theorems": [
    "C36_refuted",
    "C36_partial"
   ],
   "note": "false with a write-only section; proved for every link with plain inputs whose header fields fit their widths"
  },
  {
   "property": "C37",
   "status": "proved",
   "theorems": [
    "C37_ehdr",
    "C37_phdr",
    "C37_shdr",
    "C37_sym",
    "C37_rela",
    "C37_dyn",
    "C37_hash"
   ],
   "note": "for field values in range"
  },
  {
   "property": "C38",
   "status": "proved",
   "theorems": [
    "C38"
   ],
   "note": "every link of plain inputs whose fields fit; the sole .dynamic section decodes to entries naming the addresses and sizes of the tables, each once, ended by DT_NULL"
  },
  {
   "property": "C39",
   "status": "partial",
   "theorems": [
    "C39_refuted",
    "C39_partial"
   ],
   "note": "false: the entry is left out when the dynamic string table already holds the library's name (a symbol of that name), and the interpreter's file name is recorded too; everything else proved"
  },
  {
   "property": "C40",
   "status": "partial",
   "theorems": [
    "C40_partial",
    "C40_only",
    "C40_refuted",
    "C40_loading"
   ],
   "note": "Proved for every link of ordinary inputs (no reserved section names, no mixture of zero-fill and contents under one name): one section per name, contents are the contributions in load order apart from relocated fields, size is the sum, alignment the maximum, type and flags those of the first. Refuted when zero-fill and contents share a name."
  },
  {
   "property": "C41",
   "status": "partial",
   "theorems": [
    "C41_same_base",
    "C41_partial",
    "C41_refuted"
   ],
   "note": "False: zero-fill of all objects starts at the same address. Proved disjoint for symbols of different sections in all other cases."
  },
  {
   "property": "C42",
   "status": "partial",
   "theorems": [
    "C42_start",
    "C42_end",
    "C42_partial",
    "C42_refuted"
   ],
   "note": "Exact value of both symbols for every number of contributions; right for one, the end symbol is too far with two or more."
  },
  {
   "property": "C43",
   "status": "proved",
   "theorems": [
    "C43_got_symbol"
   ],
   "note": "every good link in which objects only refer to the name"
  },
  {
   "property": "C44",
   "status": "proved",
   "theorems": [
    "C44_entry",
    "C44_start"
   ],
   "note": "every good link; with the value of _start from C16"
  },
  {
   "property": "C45",
   "status": "partial",
   "theorems": [
    "C45_partial",
    "C45_ids_partial",
    "C45_refuted"
   ],
   "note": "Bytes of every contribution are at their offset in the output section of that name (ordinary inputs); additions under any name but .copyrel, .hash and .gnu.hash reach the section of that name (all inputs). Refuted for .copyrel, whose contents end up in .gnu.hash."
  },
  {
   "property": "C46",
   "status": "partial",
   "theorems": [
    "C46_partial",
    "C46_refuted"
   ],
   "note": "False: a library's own undefined symbol counts as a definition. Otherwise proved: object, linker or a library with a dynamic symbol of that name."
  },
  {
   "property": "C47",
   "status": "partial",
   "theorems": [
    "C47_refuted",
    "C47_partial"
   ],
   "note": "false: an archive index naming a member without the symbol makes the loop run forever; with truthful indices proved to end after at most 11*(names+1) rounds"
  },
  {
   "property": "C48",
   "status": "partial",
   "theorems": [
    "C48_refuted",
    "C48_partial"
   ],
   "note": "false: the output is truncated first; proved that nothing else is touched and no partial output is left"
  },
  {
   "property": "C49",
   "status": "partial",
   "theorems": [
    "C49_refuted_star",
    "C49_refuted_name",
    "C49_partial"
   ],
   "note": "false for comments containing a star and names beginning with A; proved for every other script of the grammar"
  },
  {
   "property": "C50",
   "status": "partial",
   "theorems": [
    "C50_refuted",
    "C50_partial"
   ],
   "note": "false: an unknown command is never consumed; proved to stop after length+1 rounds otherwise, and exactly where it can hang"
  },
  {
   "property": "C51",
   "status": "proved",
   "theorems": [
    "C51_read",
    "C51_missing_value",
    "C51_bad_value",
    "C51_result"
   ],
   "note": "every argument list is read as a token list or ends with an option without value; resulting fields characterised"
  },
  {
   "property": "C52",
   "status": "partial",
   "theorems": [
    "C52_refuted_script",
    "C52_refuted_needed",
    "C52_flags_ignored"
   ],
   "note": "false: AS_NEEDED leaks to later members and unused libraries are never recorded; proved that the flags do not influence the link at all"
  },
  {
   "property": "C53",
   "status": "partial",
   "theorems": [
    "C53_refuted",
    "C53_refuted_file",
    "C53_partial",
    "C53_single_partial"
   ],
   "note": "false: directory order is the hash set's, later directories override, a plain file of that name wins; proved what is found, and order independence if one directory has the library"
  },
  {
   "property": "C54",
   "status": "proved",
   "theorems": [
    "C54_kind"
   ],
   "note": "all four kinds characterised for every content"
  },
  {
   "property": "C55",
   "status": "proved",
   "theorems": [
    "C55_links",
    "C55_tables"
   ],
   "note": "every good link with fewer than 2^32 sections, every order of the sections"
  },
  {
   "property": "C56",
   "status": "proved",
   "theorems": [
    "C56_patch",
    "C56_file",
    "C56_ends",
    "C56_plt"
   ],
   "note": "the sets of symbols per chunk and the .got.plt map may be listed in any order: same symbol table, same PLT, same bytes; other iterations see C68"
  },
  {
   "property": "C57",
   "status": "partial",
   "theorems": [
    "C57_tpoff_refuted",
    "C57_tpoff_value_partial"
   ],
   "note": "TPOFF32 stores the address, not the offset from the thread pointer"
  },
  {
   "property": "C58",
   "status": "partial",
   "theorems": [
    "C58_no_storage",
    "C58_refuted",
    "C58_twice_refuted"
   ],
   "note": "false: a tentative definition gets no storage, its alignment is taken as its address, and two of them are refused as duplicates; C58_no_storage says what the entry is"
  },
  {
   "property": "C59",
   "status": "partial",
   "theorems": [
    "C59_partial",
    "C59_refuted"
   ],
   "note": "Holds when every relocation section directly follows the section it names; refuted otherwise: relocations always change the preceding section."
  },
  {
   "property": "C60",
   "status": "proved",
   "theorems": [
    "C60_refused_iff",
    "C60_accepted"
   ],
   "note": ""
  },
  {
   "property": "C61",
   "status": "proved",
   "theorems": [
    "C61_scan_rewrites"
   ],
   "note": ""
  },
  {
   "property": "C62",
   "status": "partial",
   "theorems": [
    "C62_partial",
    "C62_loading_partial",
    "C62_trace_hangs",
    "C62_refuted",
    "C62_strtab_refuted"
   ],
   "note": "All lock operations of a link in program order (single thread; parking_lot: shared with shared is fine, everything else blocks). Proved for inputs that use none of the linker's own section names, trace messages off. False otherwise: with trace messages on every such link hangs while writing .shstrtab; a non-empty input section named .symtab hangs the relocation scan, one named .strtab with a symbol hangs add_symbol. Not listed: the single unnested locks of symbol_name and of the undefined-symbol queries between additions."
  },
  {
   "property": "C63",
   "status": "partial",
   "theorems": [
    "C63_local_private_refuted",
    "C63_locals_merged_refuted",
    "C63_other_names_partial",
    "C63_link_refuted"
   ],
   "note": "false: the table is keyed by name only; C63_link_refuted is a whole link whose call ends up in another object's local function"
  },
  {
   "property": "C64",
   "status": "partial",
   "theorems": [
    "C64_refuted",
    "C64_no_address_panics"
   ],
   "note": "a program with a relocation in a non-allocated section aborts; the general statement about chunks without address is proved"
  },
  {
   "property": "C65",
   "status": "partial",
   "theorems": [
    "C65_refuted",
    "C65_partial"
   ],
   "note": "false for a script naming itself; proved when scripts do not include each other in a circle and each is parsed in finitely many rounds"
  },
  {
   "property": "C66",
   "status": "partial",
   "theorems": [
    "C66_near",
    "C66_defined",
    "C66_lea",
    "C66_plt",
    "C66_got",
    "C66_copy_partial",
    "C66_refuted"
   ],
   "note": "64/PC32/32/32S/PLT32 against defined symbols, relaxed GOT loads, calls through the PLT and GOT loads of library symbols, and references to copied objects, for fields no other relocation overlaps. Refuted for a direct reference to a library function (0, no dynamic relocation)."
  },
  {
   "property": "C67",
   "status": "partial",
   "theorems": [
    "C67_partial",
    "C67_refuted"
   ],
   "note": "Holds except for zero-fill sections after other zero-fill of the same name, which all start at the same address."
  },
  {
   "property": "C68",
   "status": "partial",
   "theorems": [
    "C68_refuted",
    "C68_partial",
    "C68_exact_partial"
   ],
   "note": "false: copied library objects get addresses in the order the symbol map is listed; without libraries and archives only records of .symtab whose names have the same GNU hash can change places, and with distinct hashes the file is the same byte for byte; C56 covers the order of the sets used in patching"
  },
  {
   "property": "C69",
   "status": "partial",
   "theorems": [
    "C69_partial",
    "C69_refuted"
   ],
   "note": "Mapping defined in SpecRun from the file's bytes. Proved for every section but .copyrel, without write-only sections and with zero-fill last in its segment; false with zero-fill before contents."
  },
  {
   "property": "C70",
   "status": "partial",
   "theorems": [
    "C70_partial",
    "C70_refuted"
   ],
   "note": "Loader of SpecRun (lazy binding). Proved for files without library objects; with one, copying it overwrites the GOT because its storage is sized after the layout (C70_refuted)."
  },
  {
   "property": "C71",
   "status": "partial",
   "theorems": [
    "C71_partial",
    "C71_refuted"
   ],
   "note": "Small-step execution of the call, the PLT entry, PLT0 and the loader's resolver, from any process that still has its tables (which C70 establishes and every such call keeps). Missing: files with library objects, where the call can end nowhere (C71_refuted)."
  },
  {
   "property": "C72",
   "status": "partial",
   "theorems": [
    "C72_partial",
    "C72_refuted"
   ],
   "note": "Missing: files with library objects (C72_refuted: the address loaded is made of bytes of the object)."
  },
  {
   "property": "C73",
   "status": "partial",
   "theorems": [
    "C73_partial",
    "C73_lea",
    "C73_refuted"
   ],
   "note": "Missing: names that a library lists and that only weak definitions or archive members define (C73_refuted: such a call arrives in the library)."
  },
  {
   "property": "C74",
   "status": "partial",
   "theorems": [
    "C74_partial",
    "C74_refuted"
   ],
   "note": "For a _start defined in one section (C74_refuted: with a weak and a strong one the entry point is at an address with no memory)."
  },
  {
   "property": "C75",
   "status": "partial",
   "theorems": [
    "C75_partial",
    "C75_refuted"
   ],
   "note": "Missing: names that a library lists and that only weak definitions or archive members define (C75_refuted: the pointer has neither address); files with library objects."
  },
  {
   "property": "C76",
   "status": "partial",
   "theorems": [
    "C76_partial",
    "C76_listed",
    "C76_refuted",
    "C76_archive_refuted"
   ],
   "note": "Proved for global definitions in objects of the command line. Refuted for weak definitions: a reference in a later object replaces the definition, and the name goes to the library. Refuted for definitions in archive members loaded for another name: the libraries are searched first."
  },
  {
   "property": "C77",
   "status": "proved",
   "theorems": [
    "C77_own_headers"
   ],
   "note": ""
  },
  {
   "property": "C78",
   "status": "partial",
   "theorems": [
    "C78_partial",
    "C78_complete",
    "C78_exact",
    "C78_once",
    "C78_refuted"
   ],
   "note": "C78_exact: a nonempty name with standard bindings is listed exactly when no object, library or the linker provides it, as long as its definitions outside sections are global; C78_complete needs no such condition. Missing: weak and local absolute definitions, refuted: a weak absolute definition is forgotten at a global reference in a later object, and the name is reported."
  },
  {
   "property": "C79",
   "status": "partial",
   "theorems": [
    "C79_partial",
    "C79_none",
    "C79_refuted"
   ],
   "note": "Proved when all input sections of the type have one name. Refuted otherwise: .init_array.00100 becomes a section of its own with a second DT_INIT_ARRAY, and the loader uses one only."
  },
  {
   "property": "C80",
   "status": "partial",
   "theorems": [
    "C80_partial",
    "C80_failed"
   ],
   "note": "Missing: outputs with write-only sections, whose file does not parse back (C36_refuted), and outputs with 0xff00 sections or more."
  },
  {
   "property": "C81",
   "status": "partial",
   "theorems": [
    "C81_refuted",
    "C81_always_refuted",
    "C81_archive_refuted",
    "C76_listed"
   ],
   "note": "Refuted: a weak reference that nothing defines stops the link, always, and archive members are loaded for weak references. A weak reference to a name of a library is bound to it (C76_listed)."
  },
  {
   "property": "C82",
   "status": "partial",
   "theorems": [
    "C82_refuted",
    "C82_always_refuted"
   ],
   "note": "Refuted: names defined by objects of the command line are never in .dynsym, so libraries cannot find them."
  },
  {
   "property": "C83",
   "status": "partial",
   "theorems": [
    "C83_refuted",
    "C83_always_refuted"
   ],
   "note": "Refuted, always: no output has a PT_TLS header."
  },
  {
   "property": "C84",
   "status": "partial",
   "theorems": [
    "C84_refuted",
    "C84_always_refuted"
   ],
   "note": "Refuted, always: no output has a PT_GNU_STACK header, so the stack is executable."
  },
  {
   "property": "C85",
   "status": "partial",
   "theorems": [
    "C85_ignored",
    "C85_always_refuted",
    "C85_refuted"
   ],
   "note": "Refuted, always: the options are read (C51) and change nothing about the link."
  },
  {
   "property": "C86",
   "status": "proved",
   "theorems": [
    "C86"
   ],
   "note": "For ordinary inputs; a section of the type of a hash table that an object brings under another name gets an entry in .dynamic of its own."
  },
  {
   "property": "C87",
   "status": "partial",
   "theorems": [
    "C87_sum_partial",
    "C87_always_refuted",
    "C87_refuted"
   ],
   "note": "Refuted, always (sections with contents in memory, definitions less than 2 MiB into their section): the addresses of all sections that define the name are added up."
  },
  {
   "property": "C88",
   "status": "partial",
   "theorems": [
    "C88_partial",
    "C88_refuted"
   ],
   "note": "Holds for runs of any length, failing ones included, if members have global definitions of the names indexed for them; refuted with a weak definition that a later global reference undefines: the member is loaded again and its other definition reported as a duplicate."
  },
  {
   "property": "C89",
   "status": "partial",
   "theorems": [
    "C89_partial",
    "C89_refuted"
   ],
   "note": "The name was undefined when the round began; refuted for the moment of loading: a member of the same round may have defined it, and the link fails though one member would have been enough."
  },
  {
   "property": "C90",
   "status": "proved",
   "theorems": [
    "C90",
    "C90_clean"
   ],
   "note": "For whole runs (link). Which names an undefined-symbols error lists is C78; that the named file need not be the one that defines the symbol is C11_error_file_refuted."
  },
  {
   "property": "C91",
   "status": "partial",
   "theorems": [
    "C91_kept",
    "C91_always_refuted",
    "C91_refuted"
   ],
   "note": "Refuted, always: no section of an input is left out. C91_refuted: an inline function in two objects, whose call ends at an address with no memory (C87)."
  },
  {
   "property": "C92",
   "status": "partial",
   "theorems": [
    "C92_always_refuted",
    "C92_refuted"
   ],
   "note": "Refuted, always: visibility does not matter, the name goes to the libraries like any other."
  },
  {
   "property": "C93",
   "status": "partial",
   "theorems": [
    "C93_always_refuted",
    "C93_refuted"
   ],
   "note": "Refuted, always: there are no such records, and a call runs the resolver itself."
  },
  {
   "property": "C94",
   "status": "partial",
   "theorems": [
    "C94_always_refuted",
    "C94_refuted"
   ],
   "note": "Refuted, always: .dynamic never has the tag."
  },
  {
   "property": "C95",
   "status": "partial",
   "theorems": [
    "C95_always_refuted",
    "C95_refuted"
   ],
   "note": "Refuted, always."
  },
  {
   "property": "C96",
   "status": "partial",
   "theorems": [
    "C96_kept",
    "C96_refuted"
   ],
   "note": "Refuted: such relocations are skipped, and the field keeps the bytes of the input (C96_kept)."
  },
  {
   "property": "C97",
   "status": "proved",
   "theorems": [
    "C97_import"
   ],
   "note": "For libraries whose symbol names are free of NUL bytes with local binding exactly for unnamed ones (tidy_libs), and fewer than 2^16 sections."
  },
  {
   "property": "C98",
   "status": "proved",
   "theorems": [
    "C98_success",
    "C98_failure"
   ],
   "note": ""
  },
  {
   "property": "C99",
   "status": "partial",
   "theorems": [
    "C99_partial",
    "C99_missing",
    "C99_refuted"
   ],
   "note": "Proved for the command line. Refuted for scripts: an input that is missing ends the list silently, and the inputs after it are dropped (src/main.rs:53)."
  }
 ]
}