# Formal model of gimli-rs/object in Rocq (Coq 8.16.1)

`properties.jsonl` lists the properties, `MANIFEST.json` the theorems proved for each of them,
`rocq/theories/` has the model and the proofs, `seeded/LOG.jsonl` the wrong programs that the theorems
were tested against (every edit of the model made a theorem fail, or is logged as a survivor with the
theorem that was tightened for it, or as an equivalent program).

## Conventions

- Bytes are `list Z` with every element in `[0,256)` (`byte_ok`), machine integers are `Z` with the
  wrap, checked or panicking behaviour of the Rust operation written explicitly in the model.
- `out A := Ok a | Err | Panic`.  `Err` is a Rust `Err(..)` (messages are not modelled), `Panic` is a
  panic path: `unwrap` on `None`, slice index out of bounds, failed `assert!`/`debug_assert!` and,
  because debug builds check overflow, arithmetic overflow of unchecked `+ - * <<`.
  "Never panics" therefore covers debug builds too.
- `usize` is 64 bits.  Slice lengths are below 2^63 (Rust's allocation rule) where a theorem needs it;
  it is then an explicit hypothesis.
- Methods with `&mut self` are functions `state -> out A * state`; iterators are such functions, and
  `runs next st items err st'` (Iter_model) says that calling `next` from `st` returns exactly `items`
  and then the end or an error; `results` (Ar_spec) is for iterators that go on after an error.
- Each definition in `*_model.v` cites the file and lines of /repo that it models, and says where it
  simplifies.  Loops use fuel only where Rust loops are not structural; the models return `Panic` when
  fuel runs out, and the theorems (that say `Ok`, `runs`, or "no panic") show that it does not.
- Per area `X`: `X_model.v` (executable definitions only), `X_spec.v` (the independent specification:
  encodings as concatenations of fields, relations between bytes and records, declarative definitions),
  `X*_proofs.v` (lemmas) and `X_props.v` (the theorems `Cxx_...`, with examples that meet the hypotheses
  and `Print Assumptions`).  Small early areas have their specification in `X_props.v` or `X_spec.v`.
- `Cxx_..._refuted` is a theorem that a claim one would expect is false of the code, with a witness.
  `Cxx_..._partial` is a part of a claim.

## Trusted base

- Coq's kernel, and its `vm_compute` for examples and finite case checks.
- The reading of the Rust code into the model (the definitions in `*_model.v`), since the Rust code is
  neither built nor run, and the specification files as the meaning of the English properties.
- No axioms: `Print Assumptions` under each property theorem says "Closed under the global context".
  (A listing of all loaded libraries also names the module type fields of the standard library's
  `ssrunder`, `Coq.ssr.ssrunder.Under_rel.*`, which come with ssreflect's tactics; no theorem depends on them.)
- The semantics of the Rust standard library where it is modelled by a definition: `sort_by` as insertion
  sort (stable), `sort_unstable_by` as any sorted permutation where the order of equal keys matters,
  `binary_search_by` as any function that meets its contract, hash maps and IndexSet as association lists
  in insertion order, `memchr` as the first position, `str::from_utf8` as a check on the bytes.
- `Pod` types: a struct is the byte string at its offset, and its fields are fixed ranges of these bytes
  (`fld e offset size b`); this is the layout of `#[repr(C)]` structs of bytes (unaligned feature).

## What is modelled

| Area | Files in /repo | Properties |
|---|---|---|
| Core: endian, alignment, ReadRef for slices, Bytes, LEB128, string tables | src/endian.rs, src/pod.rs, src/read/{read_ref,util}.rs, src/write/util.rs | C01-C03, C07-C10 |
| Cache | src/read/read_cache.rs | C04-C06 |
| Str, Buf | src/write/string.rs, src/write/util.rs | C11-C14 |
| Map, Tab | src/read/symbol_map.rs, src/build/table.rs | C15-C17 |
| Hash, Rel, Note, Attr, Ver | src/read/elf/{hash,relocation,note,attributes,version}.rs, src/write/elf/encoder.rs, src/elf.rs | C18-C24, C39 |
| Elf, ElfR | src/read/elf/*.rs and src/write/elf/encoder.rs below the unified reader | C25, C26, C37-C40 |
| ElfF | src/read/elf/{file,section,segment,symbol,comdat,import,export,compression}.rs: the unified ELF reader | C62-C65 |
| ElfW | src/write/elf/writer.rs: the two-phase writer | C27 |
| ElfO | src/write/elf/object.rs with src/write/mod.rs: written objects read back | C66 |
| Obj | src/write/mod.rs: the Object builder | C28, C29 |
| Kind | relocation kind translation of all formats | C41, C42 |
| Ar | src/read/archive.rs: common, BSD, GNU, COFF, AIX, z/OS, thin | C30, C43 |
| Coff, CoffW | src/read/coff/*.rs, src/write/coff/*.rs | C31, C44-C47 |
| Pe, PeW | src/read/pe/*.rs, src/write/pe.rs | C32, C33, C36, C48-C52 |
| Mach, MachW | src/read/macho/{file,load_command,segment,section,symbol,relocation,function_starts}.rs, src/write/macho/*.rs | C35, C53-C61 |
| Shc | src/read/macho/dyld_cache.rs (replacement of invalid UTF-8 in suffixes and the UTF-8 check of image paths are not) | C89-C93 |
| Bver | src/build/elf.rs: counting, sizes and writing of the version sections (the rest of `Builder::write` is not) | C94-C95 |
| Trie, Dyld, Fix, Sign, Imp | src/read/macho/{exports_trie,dyld_info,fixup,codesign,import,export}.rs | C34, C67-C70, C82-C88 |
| Fkind | FileKind (src/read/mod.rs), src/read/macho/fat.rs, src/read/coff/import.rs | C71-C73 |
| Xcoff | src/read/xcoff/*.rs, src/write/xcoff.rs | C74-C77 |
| Build | src/build/{elf,macho}.rs: deletion of orphans, unused versions, segment layout | C78-C81 |

## What is not modelled

- src/read/wasm.rs (its parsing is in an external crate), decompression
  (external crates; only the compression headers are modelled), src/read/any.rs (delegation to the
  formats), src/read/traits.rs (signatures), demangling, std::io readers behind ReadCache other than
  through an oracle, the `alloc` failure of vectors, error messages.
- src/build/elf.rs and src/build/macho.rs: reading a file into a builder and writing it, section sizes and
  the dynamic string table; only the editing operations in the table above are modelled.
- Display, Debug and constant name tables (src/constants.rs, src/goff.rs).
- Performance (for instance the time that a hostile exports trie takes; that it ends is proved).

## Findings

Behaviour that contradicts what a user may expect; those with a theorem are `_refuted` theorems.

- **Read cache**: a cached delimited read ignores the end of the range (C05), a sub-range can see a
  delimiter behind it (C06).
- **String tables**: a 64-bit XCOFF base makes the empty string a non-null offset (C11).
- **Hash**: bloom_shift of 32 or more panics in debug builds; a GNU hash table with symbol base 0.
- **Versions**: the last verdaux entry's link is written as non-zero (C24).
- **ELF writer**: `reserve_hash` and `reserve_gnu_hash` are not guarded against double reservation;
  reserving symbols after `reserve_symtab_shndx` was skipped panics at write; `.symtab_shndx` reserved
  before `.symtab` writes nothing; tables need their section index in debug builds; section indices
  reserved after `reserve_section_headers` was skipped give sections without a table; `symtab_num * 4`
  is 32-bit; the relative relocation section gets type SHT_RELA (C40).
- **ELF reader**: a `.zdebug_` section whose name is not UTF-8 counts as uncompressed; relocation headers
  that refer to section 0 hide a chain (C39).
- **ELF object writer**: groups list only the given sections, not their relocation sections; an undefined
  symbol of scope Compilation is local with global binding; a weak local symbol reads back as dynamic.
- **Relocations**: 32-bit relative RISC-V, SHARC type B, XCOFF sizes 0 and > 64, Mach-O 8/16/64-bit
  PC-relative (C41); big-endian Mach-O packing shifts the wrong way (C42).
- **Object builder**: add_subsection is unimplemented for XCOFF; a COFF stub section and symbol stay when
  the relocation then fails; set_data may lower the alignment of an empty section.
- **Archives**: COFF member index 0 wraps; an unparsable second member makes parsing fail; a thin archive
  with `__.SYMDEF` gets a symbol table at offset 0; FileKind does not detect AIX big and z/OS archives
  that ArchiveFile accepts (C71), nor very short files.
- **COFF**: names that start with "/" do not survive (C31); 32-bit and 16-bit truncations of offsets and
  counts; long file names panic; number_of_linenumbers is always 0; the NRELOC_OVFL flag with 65535
  relocations is misread; undefined symbols with a value read as common; weak COMDAT symbols read back
  as different symbols; "/" followed by null is a name offset 0.
- **PE**: an import of ordinal 0 ends the table; errors of the symbol table are ignored; an ABSOLUTE
  relocation at the page start is dropped; header size and length truncate; an image of only empty
  sections is shorter than reserved; an empty .reloc section gives an unreadable directory.
- **Mach-O**: load command errors silently end parsing and `entry`; offset reconstruction wraps at 2^64;
  `object_map` keeps the current function at SO/OSO symbols and splits at the first "("; the writer reads
  back garbage for bss kinds with other flags, truncates 32-bit symbol values.
- **dyld info**: after a done operation `next` resumes behind it.  In the imports, a symbol still pending
  at the end of a stream makes a bind of the next stream an error (C87_pending_refuted); an undefined
  symbol without a name is an export error (C85_unnamed_refuted).
- **Exports trie**: after an error the iterator returns it forever; a trie that is a DAG takes
  exponential time.  **Chained fixups**: a target below the base address mixes with the high bits.
- **Builder versions**: a live requirement on a deleted file is counted but not written
  (C94_deleted_file_refuted).
- **Shared caches**: relocations of version 2 report an offset within an unreported page, not within the
  mapping (C93_page_refuted); a zero delta_mask panics in debug builds (C92_mask_refuted); after an error
  the iterator returns it forever; an out-of-range index of extra chains ends the iteration silently.
- **XCOFF**: the writer loses bss sizes and gives bss no addresses (C77), local symbols lose kind and
  size (C77), empty names, 65535 relocations, section counts above 16 bits, names above 8 bytes;
  the reader sees undefined C_EXT symbols as common, and no relocations when they cannot be read.
- **Builder**: delete_orphans keeps sh_link/sh_info of deleted sections; dynamic tags outside the table
  are not checked; append_section after NOBITS or with alignment 0 panics in debug builds; leading empty
  sections are forgotten; sections out of order lose a range's end (C81); the Mach-O builder keeps
  relocations to deleted sections or panics (C80); delete_unused_versions does not restore versions that
  are used but deleted by the user.


## Plan per property

- **C01** Byte-range reads return exactly the requested file bytes. Model `read_bytes_at` on `list Z`; spec: `b = firstn/skipn` characterised by nth_error; proof by case split.
- **C02** Delimited reads return the shortest delimiter-free run, or an error. Model memchr as first index; spec by existence of first delimiter; direct proof.
- **C03** Bytes cursor: reads split the data, failures consume everything. Each Bytes method as `bytes -> out A * bytes`; op language + induction over op lists.
- **C04** ReadCache range reads agree with an in-memory slice. ReadCache as a state machine (association lists for the two maps, oracle reader with contents + read-chunk schedule); invariant 'every buf entry equals the slice', induction over histories.
- **C05** ReadCache delimited reads agree with an in-memory slice. Same state machine; full equality is expected to be FALSE (key ignores range end): refuted by witness, proved under the guard that the found terminator is in range.
- **C06** ReadCacheRange behaves like a sub-slice. Wrapper around C04/C05; expected partly false for delimited reads: witness + guarded theorem.
- **C07** ULEB128 encode/decode round trip, decoder soundness and no overflow. Encoder by well-founded recursion on value (fuel = 10 provably enough), decoder structural on the bytes; value spec sum of 7-bit digits.
- **C08** SLEB128 encode/decode round trip and decoder soundness. As C07, signed.
- **C09** Endian conversions are inverse and place bytes in the stated order. Byte lists of width n; div/mod recursion; both directions by induction.
- **C10** Alignment helpers round up to the next multiple. align as land with complement; shown equal to the least multiple by Z lemmas.
- **C11** Written string tables resolve every string. StringTable state machine: index set as nub list; write as fold over the sorted ids; invariant on emitted bytes.
- **C12** Suffix merging is maximal and predicted by size(). In-place 3-way partition modelled on lists with swaps; permutation + order lemma; maximality from order on reversed strings.
- **C13** String ids are stable and deduplicated. Induction over add histories.
- **C14** Writable buffers only append, and count what they append. Buffer models as state machines, op-list induction, fault schedule as oracle list.
- **C15** SymbolMap lookups find the enclosing symbol. Binary search as any function meeting std's documented contract; stable sort modelled by insertion sort.
- **C16** SymbolMapBuilder keeps one best symbol per address and guesses sizes safely. Fold-based model of build; invariants on sorted lists.
- **C17** Builder tables keep identifiers stable under deletion. State machine over Vec of items; op-list induction.
- **C18** SysV hash table: every written symbol is found, lookups are sound and terminate. Writer loop over chain indices, reader loop with the i<len guard; invariant: chain from bucket visits exactly indices with that hash bucket.
- **C19** GNU hash table: every written symbol is found, lookups are sound. As C18 with bloom filter (testbit reasoning) and sorted-bucket precondition.
- **C20** RELR iteration decodes the relative relocation list. State machine (offset,bits,words); spec: direct denotation of RELR words.
- **C21** CREL iteration decodes the compact relocation list. Stateful decoder over Bytes cursor; spec as fold of deltas.
- **C22** ELF note iteration. Iterator model; spec encoder for notes; induction.
- **C23** ELF attributes write/read round trip. Writer state machine; reader; round trip by induction over nested lists.
- **C24** ELF symbol version tables write/read round trip. Encoder and the next-offset following iterators.
- **C25** ELF extended numbering round trip. Header fields as the encoder computes them and reader recovers.
- **C26** ELF symbols, including extended section indices, round trip. Fixed layout record encode/decode; generic field-layout lemmas.
- **C27** ELF writer: what is reserved is what is written. The reserve methods and the write methods of the ELF Writer are modelled as two command lists over an explicit state (ElfW_model); an inductive description of the well-formed write orders (blocks) and an invariant relating reserved length, offsets, indices and written buffer give: writing what was reserved never panics, every part lands at the reserved offset, and the reader finds header, tables, names, symbols and contents (C27_*).
- **C28** Data put into a section stays where it was put. Obj_model: the builder as a state machine (17 calls); post-conditions of the appending calls, and an invariant/monotonicity proof over every later history.
- **C29** Object builder: ids stay valid, names resolve to the latest symbol, relocations are stored faithfully. Obj_model: every call keeps `coherent` and only `grows` the object (induction over histories); post-conditions of add_symbol, section_symbol, section_id, add_relocation and Mach-O thread-local data.
- **C30** Archive iteration yields the stored members. All of read/archive.rs; the spec is a relational grammar of the formats (Ar_spec.v), shown equivalent to the parser in both directions, plus encoders for GNU and BSD archives shown to be read back.
- **C31** COFF section names round trip. Decimal/base64 printing and parsing over u32.
- **C32** PE base relocations round trip. Block builder state machine and iterator.
- **C33** PE RVA to file offset translation. Section table scan; pure arithmetic.
- **C34** Mach-O exports trie iteration. Explicit stack iterator; spec: relational tree semantics.
- **C35** Mach-O load command iteration. Iterator over byte list.
- **C36** PE Rich header decoding. XOR masks via Z.lxor; search for header.
- **C37** ELF sections and segments: names, contents, lookup. 
- **C38** ELF relocation and dynamic entries round trip. Encoder and decoder of entries; bit-field arithmetic for the MIPS64EL scrambling; iterators by list induction.
- **C39** ELF relocation sections are found completely and in order. Index-vector chains with an invariant over the reverse loop; fuelled iterator shown never to run out; spec is a filter over the section list.
- **C40** ELF section headers made by the writer are recognised by the reader. Header constructors composed with reader accessors; RELR refuted.
- **C41** Generic relocations mean the same when read back. Tables of all match arms, generated from the source with line numbers (Kind_tables.v); translation and parsing as first-match over the tables; a checked enumeration per row lifted to all sizes and addends; addend arithmetic proved symbolically. Refutations where the claim fails (RISC-V, SHARC encoding, XCOFF sizes, Mach-O 8-bit PC-relative).
- **C42** Mach-O relocation entries round trip. Bit packing by arithmetic; iterator proved by induction over the list of relocations; the big-endian packing is refuted.
- **C43** Archive symbol tables are read completely. Relational table layout (sym_table) equivalent to the iterator in both directions.
- **C44** COFF object files round trip. Writer as a state machine; an image invariant describes the file, then the reader is evaluated on the image.
- **C45** COFF symbols and sections are reported as they were given. Case analysis over all classifications on the image of C44.
- **C46** COFF COMDAT groups round trip. Iteration as a walk over the table; COMDAT selections from the writer fold.
- **C47** The COFF reader is total. Walk relation for any table; fuel shown sufficient.
- **C48** PE export tables are read exactly. `export_section` spec: tables held at addresses; exactness of each function; iterator by `results` relation.
- **C49** PE import tables are read exactly. `ended` lists of descriptors and thunks; nested iteration shown equal to the concatenated results; fuel shown sufficient.
- **C50** PE resource directories are read exactly. Exactness of each function against `resource_table`/`resource_entry`/`resource_name`.
- **C51** PE images are parsed exactly and without panic. `pe_image` spec of the file layout; exactness in both directions.
- **C52** PE writer round trip. Writer as reserve phase on a record and write phase on bytes; invariants per section; then the reader's exactness theorem is applied to the layout.
- **C53** Mach-O files are parsed exactly and without panic. Whole-file reader as a function of the bytes; independent relational description of the file format; iff by inversion of every read.
- **C54** Mach-O section offsets beyond 4 GB are reconstructed. Fold over the sections with u64 wrapping arithmetic; spec: true offsets in order.
- **C55** Mach-O lookup of sections by name. First match over the section list; spec: prefix/suffix equations on the query.
- **C56** Mach-O function starts. Iterator over byte list; LEB128 denotations of C07.
- **C57** Mach-O object map. Fold over the symbols; inductive spec in terms of the symbols before each one.
- **C58** Mach-O symbols. Iterator over the symbol list.
- **C59** Mach-O indirect symbols. Range lookup in list; array reading lemma for the table.
- **C60** Mach-O UUID and entry point. First match over the load command list of C35.
- **C61** Mach-O object round trip. Inversion of the writer into the parts of the file, then the reader specifications of C53-C60 applied to those parts.
- **C62** Unified view of an ELF file. Inversion of the parser into a record of facts; each accessor equivalent to an inductive classification over the fields; iterators by induction over the tables.
- **C63** ELF build id and debug links. Note iteration lemmas of C22; relational contents of the link sections; first-match over sections.
- **C64** ELF symbol versions, imports and exports. Version table exactness of C24 applied to the sections found; import/export iterators equal a per-symbol relation, by induction with errors as items.
- **C65** ELF compressed sections. Three-way relational description (ELF header, GNU header, plain), proved equivalent; UTF-8 validity against the encoding of scalar values.
- **C66** An ELF object that is written can be read back. elf_write composed from the writer model of C27, read by the reader model of C62-C65; the file is an instance of the layout theorem of C27, the tables of the reader are computed from it, and every reader function is evaluated on them.
- **C67** Rebase and bind operations of a Mach-O file. Dyld_model (operation parsers over a cursor), Dyld_spec (rop_enc/bop_enc: encodings as relations), Iter `decodes`.
- **C68** Rebases and binds of a Mach-O file. Dyld_model (iterators as state machines), Dyld_spec (`rebases`/`binds`: meaning of a list of operations as a recursive function), DyldR/DyldB_proofs: induction over the operations, inner induction over the repeat count.
- **C69** Chained fixups of a Mach-O segment. Fix_model (bit-field accessors, iterator as a state machine with fuel above the page count), Fix_spec (words as packed field lists, chains/pages as inductive relations); both directions and totality.
- **C70** Chained fixup headers, imports and segments of a Mach-O file. Fix_model, Fix_spec (header, import and segment encodings); decode/encode equivalences and induction over the counts.
- **C71** The kind of a file. Fkind_model (comparison of prefixes in the order of the match), Fkind_spec (table of magic numbers, PE and bigobj headers); iff, and corollaries from the parsers' models. AIX big archives: C71_aix_refuted.
- **C72** Mach-O universal binaries. Fkind_model, Fkind_spec (encoding of header and entries); iff with the encoding at offset 0.
- **C73** COFF short import files. Fkind_model, Fkind_spec (encoding of header and strings, relation for the imported name); iff.
- **C74** Parsing XCOFF files. Xcoff_model (byte slices), Xcoff_spec (encodings of header, sections, symbols; xfile_of says what a file is); iff, and no panic.
- **C75** XCOFF sections. Xcoff_spec: sec_data, sec_relocs, padded, flag_kind; iffs for each accessor.
- **C76** XCOFF symbols. Xcoff_spec: xwalk (the visited entries), csect_of, sym_name, csect_kind; the iterator runs the walk; accessors equal the specified values.
- **C77** XCOFF objects can be read back. Model of all passes of xcoff_write; file_back says what the reader sees in terms of the object. Proved through the C74 encoding; refuted for bss sizes (C77_bss_refuted) and kinds of local symbols (C77_local_refuted).
- **C78** Deleting the orphans of an ELF builder. The loops over the live items of a table are modelled by a map over the list that skips deleted items, Vec::retain by a filter whose closure may panic; each pass is characterised by Forall2 against a specification that speaks of dead and alive ids only, and a builder without dangling references is shown to be a fixed point.
- **C79** Deleting unused symbol versions. Induction over the versions with the invariant that only the entry of the current id changes in the vector of used versions.
- **C80** Deleting the orphans of a Mach-O builder. As C78; the vector of deletion flags is collected from the live sections only, so it is always false: exact statement plus two counterexamples.
- **C81** Layout of sections in ELF segments. Induction over the appended sections; the invariant keeps address minus offset equal to a multiple of the segment alignment, so rounding up offset and address agree. Ranges: fold over the sections.
- **C82** Mach-O code signature blobs. Numbers at fixed offsets (num) against fields of the parsed structs; the index by indexing the chunks; the iterator by induction over the index with one independent blob specification per entry.
- **C83** Mach-O code directories. Closed form of the parser over the five version ranges, then equivalence with a directory record whose optional fields depend on the version; accessors by range lemmas with the checked 32-bit arithmetic.
- **C84** Mach-O library names and ordinals. load_ok: the commands of C35/C53 as a run of the iterator; the fold of each loop over it; library commands as concatenated fields with a string; induction over the run for the iterator.
- **C85** Mach-O imports and exports in the symbol table. Generic lemma for iterators that skip (first_from_picks) with the relation picks; per symbol equivalence with bit-level definitions of undefined, external and type.
- **C86** Mach-O imports of chained fixups. Induction over the run of C70, with the relation picks for the entries that are not skipped.
- **C87** Mach-O imports of bind operations. Specification by history: the value of dylib, symbol and pending flag at an operation is that of the last operation before it that sets it (last_set); the interpreter state is shown to be this history function; fuel by the decreasing stream lengths.
- **C88** Mach-O exports tries and the choice of the source. Induction over the run of C34 with a target relation per symbol; the command choice by a fold characterised by last_with.
- **C89** Shared cache files. Tables as encodings at offsets (array_iff); parse step by step against a relation between the cache and all its files.
- **C90** Shared cache file suffixes. Decimal digits by induction on the fuel; the count by determinism of the header tables.
- **C91** Shared cache addresses. Induction over mappings and files.
- **C92** Shared cache slide information and relocations. Slide information by field equivalences; a bound on the remaining loop iterations makes the fuel sufficient; induction on the chain, extras and page relations against the iterator states, totality by induction on the file length, then determinism of runs.
- **C93** Places of shared cache relocations. Induction on the relations of C92; counterexample for version 2 by computation.
- **C94** Version sections of an ELF builder. Induction on the version and file tables against the section contents of C24; counterexample by computation.
- **C95** Version table of an ELF builder read back. C94 with the string table of C11 and the version table of C24.
