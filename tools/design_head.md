# Formal model of gimli-rs/object in Rocq (Coq 8.16.1)

`properties.jsonl` lists the properties, `MANIFEST.json` the theorems proved for each of them,
`rocq/theories/` has the model and the proofs, `seeded/LOG.jsonl` the wrong programs that the theorems
were tested against (every edit of the model made a theorem fail, or is logged as a survivor with the
theorem that was tightened for it, or as an equivalent program).

## Conventions

- Bytes are `list Z` with every element in `[0,256)` (`byte_ok`), machine integers are `Z` with the
  wrap, checked or panicking behaviour of the Rust operation written explicitly in the model.
- `out A := Ok a | Err | Panic`.  `Err` is a Rust `Err(..)` (messages are not modelled), `Panic` is a
  panic path: `unwrap` on `None`, slice index out of bounds, failed `assert!`/`debug_assert!` and,
  because debug builds check overflow, arithmetic overflow of unchecked `+ - * <<`.
  "Never panics" therefore covers debug builds too.
- `usize` is 64 bits.  Slice lengths are below 2^63 (Rust's allocation rule) where a theorem needs it;
  it is then an explicit hypothesis.
- Methods with `&mut self` are functions `state -> out A * state`; iterators are such functions, and
  `runs next st items err st'` (Iter_model) says that calling `next` from `st` returns exactly `items`
  and then the end or an error; `results` (Ar_spec) is for iterators that go on after an error.
- Each definition in `*_model.v` cites the file and lines of /repo that it models, and says where it
  simplifies.  Loops use fuel only where Rust loops are not structural; the models return `Panic` when
  fuel runs out, and the theorems (that say `Ok`, `runs`, or "no panic") show that it does not.
- Per area `X`: `X_model.v` (executable definitions only), `X_spec.v` (the independent specification:
  encodings as concatenations of fields, relations between bytes and records, declarative definitions),
  `X*_proofs.v` (lemmas) and `X_props.v` (the theorems `Cxx_...`, with examples that meet the hypotheses
  and `Print Assumptions`).  Small early areas have their specification in `X_props.v` or `X_spec.v`.
- `Cxx_..._refuted` is a theorem that a claim one would expect is false of the code, with a witness.
  `Cxx_..._partial` is a part of a claim.

## Trusted base

- Coq's kernel, and its `vm_compute` for examples and finite case checks.
- The reading of the Rust code into the model (the definitions in `*_model.v`), since the Rust code is
  neither built nor run, and the specification files as the meaning of the English properties.
- No axioms: `Print Assumptions` under each property theorem says "Closed under the global context".
  (A listing of all loaded libraries also names the module type fields of the standard library's
  `ssrunder`, `Coq.ssr.ssrunder.Under_rel.*`, which come with ssreflect's tactics; no theorem depends on them.)
- The semantics of the Rust standard library where it is modelled by a definition: `sort_by` as insertion
  sort (stable), `sort_unstable_by` as any sorted permutation where the order of equal keys matters,
  `binary_search_by` as any function that meets its contract, hash maps and IndexSet as association lists
  in insertion order, `memchr` as the first position, `str::from_utf8` as a check on the bytes.
- `Pod` types: a struct is the byte string at its offset, and its fields are fixed ranges of these bytes
  (`fld e offset size b`); this is the layout of `#[repr(C)]` structs of bytes (unaligned feature).

## What is modelled

| Area | Files in /repo | Properties |
|---|---|---|
| Core: endian, alignment, ReadRef for slices, Bytes, LEB128, string tables | src/endian.rs, src/pod.rs, src/read/{read_ref,util}.rs, src/write/util.rs | C01-C03, C07-C10 |
| Cache | src/read/read_cache.rs | C04-C06 |
| Str, Buf | src/write/string.rs, src/write/util.rs | C11-C14 |
| Map, Tab | src/read/symbol_map.rs, src/build/table.rs | C15-C17 |
| Hash, Rel, Note, Attr, Ver | src/read/elf/{hash,relocation,note,attributes,version}.rs, src/write/elf/encoder.rs, src/elf.rs | C18-C24, C39 |
| Elf, ElfR | src/read/elf/*.rs and src/write/elf/encoder.rs below the unified reader | C25, C26, C37-C40 |
| ElfF | src/read/elf/{file,section,segment,symbol,comdat,import,export,compression}.rs: the unified ELF reader | C62-C65 |
| ElfW | src/write/elf/writer.rs: the two-phase writer | C27 |
| ElfO | src/write/elf/object.rs with src/write/mod.rs: written objects read back | C66 |
| Obj | src/write/mod.rs: the Object builder | C28, C29 |
| Kind | relocation kind translation of all formats | C41, C42 |
| Ar | src/read/archive.rs: common, BSD, GNU, COFF, AIX, z/OS, thin | C30, C43 |
| Coff, CoffW | src/read/coff/*.rs, src/write/coff/*.rs | C31, C44-C47 |
| Pe, PeW | src/read/pe/*.rs, src/write/pe.rs | C32, C33, C36, C48-C52 |
| Mach, MachW | src/read/macho/{file,load_command,segment,section,symbol,relocation,function_starts}.rs, src/write/macho/*.rs | C35, C53-C61 |
| Shc | src/read/macho/dyld_cache.rs (replacement of invalid UTF-8 in suffixes and the UTF-8 check of image paths are not) | C89-C93 |
| Bver | src/build/elf.rs: counting, sizes and writing of the version sections (the rest of `Builder::write` is not) | C94-C95 |
| Trie, Dyld, Fix, Sign, Imp | src/read/macho/{exports_trie,dyld_info,fixup,codesign,import,export}.rs | C34, C67-C70, C82-C88 |
| Fkind | FileKind (src/read/mod.rs), src/read/macho/fat.rs, src/read/coff/import.rs | C71-C73 |
| Xcoff | src/read/xcoff/*.rs, src/write/xcoff.rs | C74-C77 |
| Build | src/build/{elf,macho}.rs: deletion of orphans, unused versions, segment layout | C78-C81 |

## What is not modelled

- src/read/wasm.rs (its parsing is in an external crate), decompression
  (external crates; only the compression headers are modelled), src/read/any.rs (delegation to the
  formats), src/read/traits.rs (signatures), demangling, std::io readers behind ReadCache other than
  through an oracle, the `alloc` failure of vectors, error messages.
- src/build/elf.rs and src/build/macho.rs: reading a file into a builder and writing it, section sizes and
  the dynamic string table; only the editing operations in the table above are modelled.
- Display, Debug and constant name tables (src/constants.rs, src/goff.rs).
- Performance (for instance the time that a hostile exports trie takes; that it ends is proved).

## Findings

Behaviour that contradicts what a user may expect; those with a theorem are `_refuted` theorems.

- **Read cache**: a cached delimited read ignores the end of the range (C05), a sub-range can see a
  delimiter behind it (C06).
- **String tables**: a 64-bit XCOFF base makes the empty string a non-null offset (C11).
- **Hash**: bloom_shift of 32 or more panics in debug builds; a GNU hash table with symbol base 0.
- **Versions**: the last verdaux entry's link is written as non-zero (C24).
- **ELF writer**: `reserve_hash` and `reserve_gnu_hash` are not guarded against double reservation;
  reserving symbols after `reserve_symtab_shndx` was skipped panics at write; `.symtab_shndx` reserved
  before `.symtab` writes nothing; tables need their section index in debug builds; section indices
  reserved after `reserve_section_headers` was skipped give sections without a table; `symtab_num * 4`
  is 32-bit; the relative relocation section gets type SHT_RELA (C40).
- **ELF reader**: a `.zdebug_` section whose name is not UTF-8 counts as uncompressed; relocation headers
  that refer to section 0 hide a chain (C39).
- **ELF object writer**: groups list only the given sections, not their relocation sections; an undefined
  symbol of scope Compilation is local with global binding; a weak local symbol reads back as dynamic.
- **Relocations**: 32-bit relative RISC-V, SHARC type B, XCOFF sizes 0 and > 64, Mach-O 8/16/64-bit
  PC-relative (C41); big-endian Mach-O packing shifts the wrong way (C42).
- **Object builder**: add_subsection is unimplemented for XCOFF; a COFF stub section and symbol stay when
  the relocation then fails; set_data may lower the alignment of an empty section.
- **Archives**: COFF member index 0 wraps; an unparsable second member makes parsing fail; a thin archive
  with `__.SYMDEF` gets a symbol table at offset 0; FileKind does not detect AIX big and z/OS archives
  that ArchiveFile accepts (C71), nor very short files.
- **COFF**: names that start with "/" do not survive (C31); 32-bit and 16-bit truncations of offsets and
  counts; long file names panic; number_of_linenumbers is always 0; the NRELOC_OVFL flag with 65535
  relocations is misread; undefined symbols with a value read as common; weak COMDAT symbols read back
  as different symbols; "/" followed by null is a name offset 0.
- **PE**: an import of ordinal 0 ends the table; errors of the symbol table are ignored; an ABSOLUTE
  relocation at the page start is dropped; header size and length truncate; an image of only empty
  sections is shorter than reserved; an empty .reloc section gives an unreadable directory.
- **Mach-O**: load command errors silently end parsing and `entry`; offset reconstruction wraps at 2^64;
  `object_map` keeps the current function at SO/OSO symbols and splits at the first "("; the writer reads
  back garbage for bss kinds with other flags, truncates 32-bit symbol values.
- **dyld info**: after a done operation `next` resumes behind it.  In the imports, a symbol still pending
  at the end of a stream makes a bind of the next stream an error (C87_pending_refuted); an undefined
  symbol without a name is an export error (C85_unnamed_refuted).
- **Exports trie**: after an error the iterator returns it forever; a trie that is a DAG takes
  exponential time.  **Chained fixups**: a target below the base address mixes with the high bits.
- **Builder versions**: a live requirement on a deleted file is counted but not written
  (C94_deleted_file_refuted).
- **Shared caches**: relocations of version 2 report an offset within an unreported page, not within the
  mapping (C93_page_refuted); a zero delta_mask panics in debug builds (C92_mask_refuted); after an error
  the iterator returns it forever; an out-of-range index of extra chains ends the iteration silently.
- **XCOFF**: the writer loses bss sizes and gives bss no addresses (C77), local symbols lose kind and
  size (C77), empty names, 65535 relocations, section counts above 16 bits, names above 8 bytes;
  the reader sees undefined C_EXT symbols as common, and no relocations when they cannot be read.
- **Builder**: delete_orphans keeps sh_link/sh_info of deleted sections; dynamic tags outside the table
  are not checked; append_section after NOBITS or with alignment 0 panics in debug builds; leading empty
  sections are forgotten; sections out of order lose a range's end (C81); the Mach-O builder keeps
  relocations to deleted sections or panics (C80); delete_unused_versions does not restore versions that
  are used but deleted by the user.

