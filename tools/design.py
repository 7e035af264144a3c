import json
props=[json.loads(l) for l in open('/verif/properties.jsonl')]
how={
"C01":"Model `read_bytes_at` on `list Z`; spec: `b = firstn/skipn` characterised by nth_error; proof by case split.",
"C02":"Model memchr as first index; spec by existence of first delimiter; direct proof.",
"C03":"Each Bytes method as `bytes -> out A * bytes`; op language + induction over op lists.",
"C04":"ReadCache as a state machine (association lists for the two maps, oracle reader with contents + read-chunk schedule); invariant 'every buf entry equals the slice', induction over histories.",
"C05":"Same state machine; full equality is expected to be FALSE (key ignores range end): refuted by witness, proved under the guard that the found terminator is in range.",
"C06":"Wrapper around C04/C05; expected partly false for delimited reads: witness + guarded theorem.",
"C07":"Encoder by well-founded recursion on value (fuel = 10 provably enough), decoder structural on the bytes; value spec sum of 7-bit digits.",
"C08":"As C07, signed.",
"C09":"Byte lists of width n; div/mod recursion; both directions by induction.",
"C10":"align as land with complement; shown equal to the least multiple by Z lemmas.",
"C11":"StringTable state machine: index set as nub list; write as fold over the sorted ids; invariant on emitted bytes.",
"C12":"In-place 3-way partition modelled on lists with swaps; permutation + order lemma; maximality from order on reversed strings.",
"C13":"Induction over add histories.",
"C14":"Buffer models as state machines, op-list induction, fault schedule as oracle list.",
"C15":"Binary search as any function meeting std's documented contract; stable sort modelled by insertion sort.",
"C16":"Fold-based model of build; invariants on sorted lists.",
"C17":"State machine over Vec of items; op-list induction.",
"C18":"Writer loop over chain indices, reader loop with the i<len guard; invariant: chain from bucket visits exactly indices with that hash bucket.",
"C19":"As C18 with bloom filter (testbit reasoning) and sorted-bucket precondition.",
"C20":"State machine (offset,bits,words); spec: direct denotation of RELR words.",
"C21":"Stateful decoder over Bytes cursor; spec as fold of deltas.",
"C22":"Iterator model; spec encoder for notes; induction.",
"C23":"Writer state machine; reader; round trip by induction over nested lists.",
"C24":"Encoder and the next-offset following iterators.",
"C25":"Header fields as the encoder computes them and reader recovers.",
"C26":"Fixed layout record encode/decode; generic field-layout lemmas.",
"C27":"The reserve methods and the write methods of the ELF Writer are modelled as two command lists over an explicit state (ElfW_model); an inductive description of the well-formed write orders (blocks) and an invariant relating reserved length, offsets, indices and written buffer give: writing what was reserved never panics, every part lands at the reserved offset, and the reader finds header, tables, names, symbols and contents (C27_*).",
"C28":"Obj_model: the builder as a state machine (17 calls); post-conditions of the appending calls, and an invariant/monotonicity proof over every later history.",
"C29":"Obj_model: every call keeps `coherent` and only `grows` the object (induction over histories); post-conditions of add_symbol, section_symbol, section_id, add_relocation and Mach-O thread-local data.",
"C30":"All of read/archive.rs; the spec is a relational grammar of the formats (Ar_spec.v), shown equivalent to the parser in both directions, plus encoders for GNU and BSD archives shown to be read back.",
"C31":"Decimal/base64 printing and parsing over u32.",
"C32":"Block builder state machine and iterator.",
"C33":"Section table scan; pure arithmetic.",
"C34":"Explicit stack iterator; spec: relational tree semantics.",
"C35":"Iterator over byte list.",
"C36":"XOR masks via Z.lxor; search for header.",
"C38":"Encoder and decoder of entries; bit-field arithmetic for the MIPS64EL scrambling; iterators by list induction.",
"C39":"Index-vector chains with an invariant over the reverse loop; fuelled iterator shown never to run out; spec is a filter over the section list.",
"C40":"Header constructors composed with reader accessors; RELR refuted.",
"C41":"Tables of all match arms, generated from the source with line numbers (Kind_tables.v); translation and parsing as first-match over the tables; a checked enumeration per row lifted to all sizes and addends; addend arithmetic proved symbolically. Refutations where the claim fails (RISC-V, SHARC encoding, XCOFF sizes, Mach-O 8-bit PC-relative).",
"C44":"Writer as a state machine; an image invariant describes the file, then the reader is evaluated on the image.",
"C45":"Case analysis over all classifications on the image of C44.",
"C46":"Iteration as a walk over the table; COMDAT selections from the writer fold.",
"C47":"Walk relation for any table; fuel shown sufficient.",
"C48":"`export_section` spec: tables held at addresses; exactness of each function; iterator by `results` relation.",
"C49":"`ended` lists of descriptors and thunks; nested iteration shown equal to the concatenated results; fuel shown sufficient.",
"C50":"Exactness of each function against `resource_table`/`resource_entry`/`resource_name`.",
"C51":"`pe_image` spec of the file layout; exactness in both directions.",
"C52":"Writer as reserve phase on a record and write phase on bytes; invariants per section; then the reader's exactness theorem is applied to the layout.",
"C53":"Whole-file reader as a function of the bytes; independent relational description of the file format; iff by inversion of every read.",
"C54":"Fold over the sections with u64 wrapping arithmetic; spec: true offsets in order.",
"C55":"First match over the section list; spec: prefix/suffix equations on the query.",
"C56":"Iterator over byte list; LEB128 denotations of C07.",
"C57":"Fold over the symbols; inductive spec in terms of the symbols before each one.",
"C58":"Iterator over the symbol list.",
"C59":"Range lookup in list; array reading lemma for the table.",
"C60":"First match over the load command list of C35.",
"C61":"Inversion of the writer into the parts of the file, then the reader specifications of C53-C60 applied to those parts.",
"C62":"Inversion of the parser into a record of facts; each accessor equivalent to an inductive classification over the fields; iterators by induction over the tables.",
"C63":"Note iteration lemmas of C22; relational contents of the link sections; first-match over sections.",
"C64":"Version table exactness of C24 applied to the sections found; import/export iterators equal a per-symbol relation, by induction with errors as items.",
"C65":"Three-way relational description (ELF header, GNU header, plain), proved equivalent; UTF-8 validity against the encoding of scalar values.",
"C66":"elf_write composed from the writer model of C27, read by the reader model of C62-C65; the file is an instance of the layout theorem of C27, the tables of the reader are computed from it, and every reader function is evaluated on them.",
"C67":"Dyld_model (operation parsers over a cursor), Dyld_spec (rop_enc/bop_enc: encodings as relations), Iter `decodes`.",
"C68":"Dyld_model (iterators as state machines), Dyld_spec (`rebases`/`binds`: meaning of a list of operations as a recursive function), DyldR/DyldB_proofs: induction over the operations, inner induction over the repeat count.",
"C69":"Fix_model (bit-field accessors, iterator as a state machine with fuel above the page count), Fix_spec (words as packed field lists, chains/pages as inductive relations); both directions and totality.",
"C70":"Fix_model, Fix_spec (header, import and segment encodings); decode/encode equivalences and induction over the counts.",
"C71":"Fkind_model (comparison of prefixes in the order of the match), Fkind_spec (table of magic numbers, PE and bigobj headers); iff, and corollaries from the parsers' models. AIX big archives: C71_aix_refuted.",
"C72":"Fkind_model, Fkind_spec (encoding of header and entries); iff with the encoding at offset 0.",
"C73":"Fkind_model, Fkind_spec (encoding of header and strings, relation for the imported name); iff.",
"C74":"Xcoff_model (byte slices), Xcoff_spec (encodings of header, sections, symbols; xfile_of says what a file is); iff, and no panic.",
"C75":"Xcoff_spec: sec_data, sec_relocs, padded, flag_kind; iffs for each accessor.",
"C76":"Xcoff_spec: xwalk (the visited entries), csect_of, sym_name, csect_kind; the iterator runs the walk; accessors equal the specified values.",
"C77":"Model of all passes of xcoff_write; file_back says what the reader sees in terms of the object. Proved through the C74 encoding; refuted for bss sizes (C77_bss_refuted) and kinds of local symbols (C77_local_refuted).",
"C78":"The loops over the live items of a table are modelled by a map over the list that skips deleted items, Vec::retain by a filter whose closure may panic; each pass is characterised by Forall2 against a specification that speaks of dead and alive ids only, and a builder without dangling references is shown to be a fixed point.",
"C79":"Induction over the versions with the invariant that only the entry of the current id changes in the vector of used versions.",
"C80":"As C78; the vector of deletion flags is collected from the live sections only, so it is always false: exact statement plus two counterexamples.",
"C81":"Induction over the appended sections; the invariant keeps address minus offset equal to a multiple of the segment alignment, so rounding up offset and address agree. Ranges: fold over the sections.",
"C82":"Numbers at fixed offsets (num) against fields of the parsed structs; the index by indexing the chunks; the iterator by induction over the index with one independent blob specification per entry.",
"C83":"Closed form of the parser over the five version ranges, then equivalence with a directory record whose optional fields depend on the version; accessors by range lemmas with the checked 32-bit arithmetic.",
"C84":"load_ok: the commands of C35/C53 as a run of the iterator; the fold of each loop over it; library commands as concatenated fields with a string; induction over the run for the iterator.",
"C85":"Generic lemma for iterators that skip (first_from_picks) with the relation picks; per symbol equivalence with bit-level definitions of undefined, external and type.",
"C86":"Induction over the run of C70, with the relation picks for the entries that are not skipped.",
"C87":"Specification by history: the value of dylib, symbol and pending flag at an operation is that of the last operation before it that sets it (last_set); the interpreter state is shown to be this history function; fuel by the decreasing stream lengths.",
"C88":"Induction over the run of C34 with a target relation per symbol; the command choice by a fold characterised by last_with.",
"C89":"Tables as encodings at offsets (array_iff); parse step by step against a relation between the cache and all its files.",
"C90":"Decimal digits by induction on the fuel; the count by determinism of the header tables.",
"C91":"Induction over mappings and files.",
"C92":"Slide information by field equivalences; a bound on the remaining loop iterations makes the fuel sufficient; induction on the chain, extras and page relations against the iterator states, totality by induction on the file length, then determinism of runs.",
"C93":"Induction on the relations of C92; counterexample for version 2 by computation.",
"C94":"Induction on the version and file tables against the section contents of C24; counterexample by computation.",
"C95":"C94 with the string table of C11 and the version table of C24.",
"C43":"Relational table layout (sym_table) equivalent to the iterator in both directions.",
"C42":"Bit packing by arithmetic; iterator proved by induction over the list of relocations; the big-endian packing is refuted.",
}
s=open('/verif/tools/design_head.md').read()
s+="\n## Plan per property\n\n"
for p in props:
    s+="- **%s** %s. %s\n"%(p['id'],p['title'],how.get(p['id'],''))
open('/verif/DESIGN.md','w').write(s)
