import json
P=[]
def p(title,statement,quantifier,why,anchors):
    P.append(dict(id="C%02d"%(len(P)+1),title=title,statement=statement,quantifier=quantifier,why_tests_cant=why,anchors=anchors))
p("Byte-range reads return exactly the requested file bytes",
  "ReadRef::read_bytes_at(offset,size) on a byte slice succeeds iff size is 0 or offset+size (computed without wrap-around) is within the slice, and on success returns exactly the bytes at [offset, offset+size); the cursor variants advance the offset by exactly size on success.",
  "every byte slice, every u64 offset and size (including those whose sum overflows u64)",
  "the interesting cases are all offset/size pairs up to 2^64, including overflowing ones; tests sample a handful",
  ["src/read/read_ref.rs: ReadRef for &[u8]"])
p("Delimited reads return the shortest delimiter-free run, or an error",
  "read_bytes_at_until(start..end, d) on a byte slice succeeds iff start<=end<=len and d occurs in [start,end); the result is exactly the bytes from start up to, and excluding, the first d. StringTable::get inherits this.",
  "every slice, every u64 range, every delimiter, every string-table offset",
  "quantifies over all contents and all ranges",
  ["src/read/read_ref.rs: read_bytes_at_until","src/read/util.rs: StringTable::get"])
p("Bytes cursor: reads split the data, failures consume everything",
  "Every Bytes read method either returns a prefix of the remaining bytes and leaves exactly the rest (so any sequence of successful reads partitions the original data), or returns an error and leaves the cursor empty (except that the LEB128 readers, on an overlong or overflowing number, stop just after the offending byte); no method panics.",
  "every byte slice and every finite sequence of cursor operations with any usize arguments",
  "sequences of operations are unbounded",
  ["src/read/util.rs: Bytes"])
p("ReadCache range reads agree with an in-memory slice",
  "For any history of operations on a ReadCache over an error-free reader, read_bytes_at returns the same answer as the same call on the in-memory contents, whatever was cached before; and bytes returned earlier for a key are never changed by later operations (the references handed out stay valid).",
  "every file content, every finite history of cache operations, every offset/size",
  "depends on the cache state built by arbitrary histories",
  ["src/read/read_cache.rs: ReadCache::read_bytes_at, len, clear"])
p("ReadCache delimited reads agree with an in-memory slice",
  "For any history, ReadCache::read_bytes_at_until gives the same answer as on the in-memory contents, for strings within its documented small-string limit.",
  "every file content, every history, every range and delimiter, every chunking of the reads by the underlying reader",
  "cache keys ignore the range end, so the answer may depend on history; only a proof over histories settles which cases agree",
  ["src/read/read_cache.rs: ReadCache::read_bytes_at_until"])
p("ReadCacheRange behaves like a sub-slice",
  "Reading through ReadCache::range(offset,size) is the same as reading from the sub-slice contents[offset..offset+size] - nothing outside of the range can be observed.",
  "every contents, range, history, read",
  "universally quantified over histories and offsets, including overflowing offsets",
  ["src/read/read_cache.rs: ReadCacheRange"])
p("ULEB128 encode/decode round trip, decoder soundness and no overflow",
  "Decoding what the writer encoded yields the original u64 and consumes exactly the written bytes, whatever follows; for arbitrary input the decoder returns the mathematical value of the encoding exactly when that is a terminated encoding whose value fits, else an error; it never panics or reads past its terminator.",
  "every u64; every byte string",
  "2^64 values and unbounded inputs",
  ["src/write/util.rs: write_uleb128","src/read/util.rs: Bytes::read_uleb128"])
p("SLEB128 encode/decode round trip and decoder soundness",
  "Decoding what the writer encoded yields the original i64 and consumes exactly the written bytes; for arbitrary input the decoder returns the sign-extended mathematical value or an error and never panics.",
  "every i64; every byte string",
  "2^64 values and unbounded inputs",
  ["src/write/util.rs: write_sleb128","src/read/util.rs: Bytes::read_sleb128"])
p("Endian conversions are inverse and place bytes in the stated order",
  "For each width (16/32/64, signed and unsigned) and endianness, read(write(n)) = n and write(read(b)) = b, big endian puts the most significant byte first, little endian last, and one is the byte reversal of the other.",
  "every value of every width, both byte orders",
  "2^64 values",
  ["src/endian.rs: Endian","src/endian.rs: U16, U32, U64, I16, I32, I64"])
p("Alignment helpers round up to the next multiple",
  "align(offset,size) for a power of two size is the least multiple of size that is >= offset whenever it is representable, and panics/overflows only when it is not.",
  "every u64 offset and every power-of-two alignment",
  "all offsets and alignments",
  ["src/write/util.rs: align, align_u32","src/read/util.rs: align"])
p("Written string tables resolve every string",
  "After any sequence of StringTable::add calls followed by a successful write(base>0) appended to `base` bytes whose last byte is zero, reading a null terminated string at get_offset(id) of the result yields exactly the string that was added under id; the returned size is the end of the data.",
  "every sequence of null-free strings, every base, both the suffix-merging and the in-order mode",
  "unbounded sets of strings with arbitrary suffix relationships",
  ["src/write/string.rs: StringTable","src/read/util.rs: StringTable"])
p("Suffix merging is maximal and predicted by size()",
  "The suffix-merging table stores a string only if it is not a suffix of another string in the table (each maximal string once), and StringTable::size equals the size that write will return.",
  "every set of strings",
  "optimality depends on the in-place multi-key quicksort being correct for all inputs",
  ["src/write/string.rs: sort, write, size"])
p("String ids are stable and deduplicated",
  "StringTable::add returns the same id iff the strings are equal, get_string/get_id invert it, and ids never change with later adds.",
  "every history of adds",
  "history property",
  ["src/write/string.rs: StringTable::add, get_id, get_string"])
p("Writable buffers only append, and count what they append",
  "For any sequence of writes, CountingBuffer::count equals the number of bytes the inner buffer received, the buffer contents are exactly the concatenation of the writes, a fixed slice leaves trailing bytes untouched, and a streaming buffer writes nothing after its first error, which result() reports once.",
  "every sequence of write operations and every reader error schedule",
  "history and fault-schedule property",
  ["src/write/util.rs: WritableBuffer, CountingBuffer, StreamingBuffer"])
p("SymbolMap lookups find the enclosing symbol",
  "SymbolMap::before(a) returns a symbol with the greatest address <= a, None iff no symbol starts at or before a; containing(a) returns it iff its size is 0 or a is inside [address,address+size); symbols() is the sorted input.",
  "every list of symbols, every address, every conforming binary search",
  "all multisets of symbols including duplicates",
  ["src/read/symbol_map.rs: SymbolMap"])
p("SymbolMapBuilder keeps one best symbol per address and guesses sizes safely",
  "The map built from an object has at most one entry per address, that entry is the best candidate by the documented preference, entries with known size keep it, unknown sizes extend to the next candidate or section end, and no unnamed entry survives.",
  "every list of symbols and sections",
  "all inputs",
  ["src/read/symbol_map.rs: SymbolMapBuilder::build"])
p("Builder tables keep identifiers stable under deletion",
  "After any sequence of push and delete operations, get(id) still returns the item created with that id, iteration yields exactly the non-deleted items in creation order, and count/is_empty agree with iteration.",
  "every history of pushes, edits and deletes",
  "history property",
  ["src/build/table.rs: Table, TableIter"])
p("SysV hash table: every written symbol is found, lookups are sound and terminate",
  "A hash table written for a symbol table finds, for every symbol name in it, a symbol with that name and matching version; any answer of find on arbitrary (even cyclic or malformed) data has the requested name; find always terminates without panic.",
  "every symbol table, bucket count, name; every malformed table",
  "all tables incl. cyclic chains",
  ["src/read/elf/hash.rs: HashTable","src/write/elf/encoder.rs: hash_table"])
p("GNU hash table: every written symbol is found, lookups are sound",
  "A GNU hash table written for symbols sorted by bucket finds every one of its symbols, never reports a symbol with another name, and symbol_table_length recovers the symbol count.",
  "every symbol table sorted by bucket, all bloom/bucket parameters, every malformed table",
  "all tables and parameters",
  ["src/read/elf/hash.rs: GnuHashTable","src/write/elf/encoder.rs: gnu_hash_table"])
p("RELR iteration decodes the relative relocation list",
  "RelrIterator yields exactly the addresses denoted by the compact RELR encoding, in order, and terminates for every input.",
  "every sequence of words, both widths",
  "all bitmaps and lengths",
  ["src/read/elf/relocation.rs: RelrIterator, Relr"])
p("CREL iteration decodes the compact relocation list",
  "CrelIterator yields at most the header's count of entries, each the delta-decoded (offset, symbol, type, addend) of the stream; errors end iteration; it never panics.",
  "every byte string",
  "unbounded inputs",
  ["src/read/elf/relocation.rs: CrelIterator"])
p("ELF note iteration",
  "Iterating notes over a well-formed encoding of any list of notes yields exactly these notes; over arbitrary data it terminates, never panics, and every name/desc is inside of the data.",
  "every list of notes, both alignments, every byte string",
  "unbounded",
  ["src/read/elf/note.rs: NoteIterator, GnuPropertyIterator"])
p("ELF attributes write/read round trip",
  "Everything written with AttributesWriter is read back by AttributesSection iteration in order with identical vendor, tag, indices, and attributes.",
  "every sequence of subsections, sub-subsections and attributes",
  "unbounded nesting and lengths",
  ["src/write/elf/encoder.rs: AttributesWriter","src/read/elf/attributes.rs"])
p("ELF symbol version tables write/read round trip",
  "Version definitions and needs written by the encoder are iterated back exactly, and iteration over arbitrary data terminates without panic.",
  "every list of definitions/needs; every byte string",
  "linked structures via next offsets can form cycles",
  ["src/read/elf/version.rs","src/write/elf/encoder.rs: gnu_verdef, gnu_verneed"])
p("ELF extended numbering round trip",
  "Section count, program header count and string table index written by the encoder, including those that overflow the 16-bit header fields into section header 0, are recovered exactly by the reader.",
  "every u32 count/index",
  "boundaries at 0xff00/0xffff over all u32",
  ["src/write/elf/encoder.rs: file_header, null_section_header","src/read/elf/file.rs: phnum, shnum, shstrndx"])
p("ELF symbols, including extended section indices, round trip",
  "Symbol entries written by the encoder (32/64 bit, both endians) read back field by field, and the defining section is recovered exactly when indices need SHT_SYMTAB_SHNDX.",
  "every symbol value and every u32 section index",
  "all field values",
  ["src/write/elf/encoder.rs: symbol","src/read/elf/symbol.rs: symbol_section"])
p("ELF writer: what is reserved is what is written",
  "In the two-phase ELF writer every table is written at the offset that was reserved for it and the final length equals reserved_len, for every sequence of matching reserve/write calls.",
  "every sequence of sections, symbols, relocations",
  "unbounded object shapes",
  ["src/write/elf/writer.rs: Writer"])
p("Data put into a section stays where it was put",
  "append_section_data / append_section_bss / add_symbol_data / add_symbol_bss return the least multiple of the requested alignment that is not before the end of the section; the data is there, the gap is zero, the section's alignment is the maximum requested, a symbol given the data has that offset, size and section; whatever calls follow, the bytes stay, except where a relocation's field is written; the calls fail only when the section is of the wrong kind, the alignment is not a power of two or the size overflows.",
  "every history of builder calls before and after",
  "history property",
  ["src/write/mod.rs: Section::append_data, append_bss, Object::append_section_data, append_section_bss, add_symbol_data, add_symbol_bss, set_symbol_data"])
p("Object builder: ids stay valid, names resolve to the latest symbol, relocations are stored faithfully",
  "In every object built by any sequence of builder calls: an id handed out still denotes the same section, symbol or COMDAT (same name, kind and scope); section_id(s) is the first section that is s, created once; each section has at most one section symbol and section_symbol returns it; symbol_id(name) is the last named text, data or TLS symbol added with that name, stored with the format's prefix; a successful add_relocation appends exactly one relocation to its section, with the addend in the relocation or, if the format keeps it there, in the section's bytes at the relocation's offset and nowhere else; a failed one changes nothing that was there; a Mach-O thread-local symbol given data becomes a relocated three-word descriptor; COFF stubs are made once.",
  "every history of builder calls, formats, architectures and byte orders",
  "history property",
  ["src/write/mod.rs: Object", "src/write/coff/object.rs: coff_add_stub_symbol", "src/write/macho/object.rs: macho_add_thread_var, macho_tlv_bootstrap"])
p("Archive iteration yields the stored members",
  "ArchiveFile::parse accepts exactly the files in one of the supported layouts (GNU, GNU thin, BSD, COFF, AIX big, z/OS) and reports their kind; members() yields exactly the stored members in order with their names, sizes, dates, owners, modes and data, and stops after an error; member(offset) is the member stored there. Over arbitrary data iteration terminates, never panics, the number of members is bounded by the file size, ranges do not overlap, and every range is checked when the data is read.",
  "every list of members (names, sizes, padding); every byte string",
  "unbounded",
  ["src/read/archive.rs: ArchiveFile, ArchiveMember"])
p("COFF section names round trip",
  "Any section name stored through the string table (short inline, '/decimal', or '//base64' by offset) is recovered exactly by the reader.",
  "every name and every u32 string-table offset",
  "format switches at offset 9999999",
  ["src/write/coff/writer.rs: write_section_header","src/read/coff/section.rs: name_offset"])
p("PE base relocations round trip",
  "Relocations added in address order and written by the PE writer are iterated back exactly (address and type), blocks are padded to 4 bytes; iteration over arbitrary data terminates without panic.",
  "every sorted list of relocations; every byte string",
  "page grouping over all u32 addresses",
  ["src/write/pe.rs: add_reloc, write_reloc_section","src/read/pe/relocation.rs"])
p("PE RVA to file offset translation",
  "An RVA maps to a file range inside exactly the section containing it: the returned offset is raw pointer + (rva - virtual address) and the size does not pass the section's raw end.",
  "every section table and every u32 address",
  "all values incl. overflow",
  ["src/read/pe/section.rs: SectionTable::pe_file_range_at, pe_data_at"])
p("Mach-O exports trie iteration",
  "Iterating an exports trie yields exactly the exports encoded, in order, with full names; over arbitrary (cyclic) data it terminates with an error rather than looping.",
  "every trie; every byte string",
  "malformed tries with cycles or sharing",
  ["src/read/macho/exports_trie.rs"])
p("Mach-O load command iteration",
  "Iterating load commands yields exactly ncmds commands that are consecutive, non-overlapping pieces inside the command area, or an error; never panics and always advances by >= 8.",
  "every byte string and command count",
  "unbounded",
  ["src/read/macho/load_command.rs: LoadCommandIterator"])
p("PE Rich header decoding",
  "A Rich header written with any mask and entries is located and decoded to the same entries.",
  "every mask and list of entries",
  "all 2^32 masks",
  ["src/read/pe/rich.rs: RichHeaderInfo"])
p("ELF sections and segments: names, contents, lookup",
  "For every ELF file assembled from encoder output, each section is read back with its header, name and contents; section_by_name finds the first section of that name and nothing else; segment data_range returns exactly the requested bytes; ranges outside the file are errors, never panics.",
  "every class, byte order, section list, name and content, every address range",
  "unbounded files, overflow of offset + size",
  ["src/read/elf/file.rs: FileHeader::sections","src/read/elf/section.rs: SectionTable, SectionHeader::data","src/read/elf/segment.rs: data_range, interpreter"])
p("ELF relocation and dynamic entries round trip",
  "Every relocation entry (REL/RELA, 32/64 bit, both byte orders, MIPS64EL r_info) that fits the format is written with the layout of the ELF specification and read back unchanged; conversely every entry of a file is restored by writing what was read. Dynamic entries round trip; one that does not fit 32-bit ELF is an error, never truncated; iteration stops at DT_NULL and import libraries are the DT_NEEDED strings.",
  "every entry value, every byte string, every list of dynamic entries",
  "all 64-bit field values and bit scrambling",
  ["src/elf.rs: Rel32, Rela32, Rel64, Rela64","src/write/elf/encoder.rs: relocation, dynamic","src/read/elf/relocation.rs: Crel","src/read/elf/dynamic.rs","src/read/elf/import.rs"])
p("ELF relocation sections are found completely and in order",
  "For every section table the relocations() iterator of a section yields exactly the relocations of all relocation sections that target it (for the symbol table in use), in file order; dynamic_relocations() yields those linked to the dynamic symbols. Malformed targets are an error at parse time; the iterators end on every input, without panic.",
  "every section table, every file content",
  "linked chains through an index vector; cyclic or self-referring sh_info",
  ["src/read/elf/relocation.rs: RelocationSections, ElfSectionRelocationIterator, ElfDynamicRelocationIterator"])
p("ELF section headers made by the writer are recognised by the reader",
  "A section header the writer produces for a kind of table (relocations, group, dynamic, relative relocations) makes the corresponding reader accessor return exactly the entries written.",
  "every table content, class and byte order",
  "all contents",
  ["src/write/elf/encoder.rs: relocation_section_header, relative_relocation_section_header, comdat_section_header, dynamic_section_header","src/read/elf/section.rs: rel, rela, relr, group, dynamic_table"])
p("Generic relocations mean the same when read back",
  "A relocation given by kind, encoding, size and addend that add_relocation accepts is stored as a type that the reader of the same format and architecture reports with the same kind and size, and whose explicit plus in-place addend is the addend given (Relative and PltRelative may be exchanged for calls; on COFF GOT and PLT references become relative; on ARM64 Mach-O a relative data relocation becomes a difference). The architecture itself is read back from the file header.",
  "every architecture, byte order, kind, encoding, size, addend and offset",
  "the product of architectures, kinds, encodings, sizes and 64-bit addends",
  ["src/write/elf/object.rs: elf_translate_relocation","src/write/coff/object.rs: coff_translate_relocation, coff_adjust_addend","src/write/macho/object.rs: macho_translate_relocation, macho_adjust_addend","src/write/xcoff.rs: xcoff_translate_relocation","src/read/elf/relocation.rs: parse_relocation","src/read/coff/relocation.rs","src/read/macho/relocation.rs","src/read/xcoff/relocation.rs"])
p("Mach-O relocation entries round trip",
  "A Mach-O relocation entry (plain or scattered) unpacks to the fields it was packed from, and a section's entries, with subtractor and addend pairs, are iterated as exactly the relocations written, in the order written.",
  "every entry, every list of relocations, both byte orders",
  "bit packing over all field values; pairs interact across entries",
  ["src/macho.rs: Relocation, RelocationInfo, ScatteredRelocationInfo","src/read/macho/relocation.rs: MachORelocationIterator","src/write/macho/object.rs: macho_write (write_reloc)"])
p("Archive symbol tables are read completely",
  "symbols() returns None exactly if the archive has no symbol table, an error if the table is not inside the file or malformed, and otherwise an iterator that yields one result per table entry, in order: entry i is the name and member offset stored for it (GNU, GNU64, BSD, BSD64 or COFF layout), or an error if that entry has no valid name or member. size_hint is exact. Nothing panics.",
  "every archive file, every symbol table layout, any number of symbols",
  "unbounded tables whose names are found by walking a string table",
  ["src/read/archive.rs: ArchiveFile::symbols, ArchiveSymbolIterator, ArchiveSymbol"])
p("COFF object files round trip",
  "Writing an Object as COFF and parsing the result gives back, in order: architecture and file flags, every section (name, size, alignment, given flags, data, relocations also beyond 65535), every symbol (name, value, section, type, storage class, number of auxiliary records) at the index that relocations refer to, weak symbols with their default definition, file names and section definitions.",
  "every object the writer accepts (file smaller than 4 GiB), any number of sections, symbols and relocations",
  "unbounded tables; the string table, auxiliary records and relocation overflow interact",
  ["src/write/coff/object.rs: coff_write","src/write/coff/writer.rs: Writer","src/read/coff/file.rs","src/read/coff/section.rs","src/read/coff/symbol.rs"])
p("COFF symbols and sections are reported as they were given",
  "For symbols and sections with default flags, the read API of the written COFF file reports kind, section, weakness, globalness, scope, address and size according to what was given (documented collapses: Tls/Unknown read as Data, strings and debug kinds as their closest kind, an undefined symbol with nonzero value as common).",
  "every kind, scope, section and weakness of symbols, every section kind",
  "the combinations of classification functions of writer and reader",
  ["src/write/coff/object.rs: coff_section_flags, coff_symbol_flags","src/read/coff/symbol.rs: ObjectSymbol for CoffSymbol","src/read/coff/section.rs: kind"])
p("COFF COMDAT groups round trip",
  "If each COMDAT's symbol is the first symbol of its leader section after that section's symbol, and groups are disjoint, then iterating the COMDATs of the written file gives exactly the groups written (symbol, leader, kind), once each, and iterating a group's sections gives exactly its sections.",
  "every object with such COMDATs",
  "groups are encoded across auxiliary records of several symbols",
  ["src/write/coff/object.rs: coff_write","src/read/coff/comdat.rs"])
p("The COFF reader is total",
  "Parsing any bytes as COFF or bigobj, and asking sections for names, data and relocations or symbols for names, returns a value or an error, never a panic; iteration over symbols yields exactly the entries that are not auxiliary records; iterations over symbols, COMDATs and their sections end.",
  "every byte string",
  "hostile input",
  ["src/read/coff/file.rs","src/read/coff/section.rs","src/read/coff/symbol.rs","src/read/coff/comdat.rs"])
p("PE export tables are read exactly",
  "Parsing an export directory succeeds exactly if its directory, address table, name pointer table and ordinal table lie in the section data, and gives those tables; exports() lists one export per address with its ordinal (base + index), its last name and its target (address, or forward to library.name / library.#ordinal cut at the last dot); the export iterator yields each named export, then each unnamed one, an error in the place of each one that is invalid. Nothing panics.",
  "every section contents, every address, any number of exports",
  "tables are linked by addresses in attacker-controlled data; unbounded tables",
  ["src/read/pe/export.rs: ExportTable","src/read/pe/file.rs: PeExportIterator"])
p("PE import tables are read exactly",
  "The import iterator of a PE image yields, in order, one result for each thunk of each import descriptor and then of each delay load descriptor: library, name or ordinal, as the tables (ended by a null entry) say, an error in place of what cannot be read; the library iterator yields one result per descriptor. The table is looked up in the section that has its address. Iteration ends; nothing panics.",
  "every file, 32 and 64 bit, any number of libraries and imports",
  "nested null-terminated tables linked by addresses in attacker-controlled data",
  ["src/read/pe/import.rs","src/read/pe/file.rs: PeImportIterator, PeImportLibraryIterator"])
p("PE resource directories are read exactly",
  "A resource directory table at an offset parses exactly if header and both kinds of entries lie in the directory, and gives all entries; an entry's data is a sub-table or data entry according to its high bit, at its offset; a name gives its UTF-16 code units. Nothing panics.",
  "every directory contents and offset",
  "offsets in attacker-controlled data",
  ["src/read/pe/resource.rs"])
p("PE images are parsed exactly and without panic",
  "PeFile::parse succeeds exactly for files with DOS header, NT headers of the expected width, data directories and section headers inside the file, and gives these; pdb_info gives the first CodeView RSDS record of the debug directory. Nothing panics.",
  "every byte string, 32 and 64 bit",
  "hostile input",
  ["src/read/pe/file.rs: PeFile::parse, pdb_info","src/read/pe/data_directory.rs","src/read/pe/section.rs"])
p("PE writer round trip",
  "An image written with the two-phase PE writer is parsed back with the given headers, data directories, and sections (name, flags, size, contents, addresses consecutive and aligned, file offsets consecutive and aligned), DOS stub, Rich header and certificate at their places; sizes of code and data, image and headers are right; after the reserve phase succeeded the write phase never fails, and the length is what was reserved (unless no section has contents).",
  "every image description, any number of sections and relocations, 32 and 64 bit, all power of two alignments",
  "all offsets are computed in one phase and used in the other",
  ["src/write/pe.rs: Writer"])
p("Mach-O files are parsed exactly and without panic",
  "MachOFile::parse succeeds exactly for files with a header of the expected width, whose readable load commands (up to the first malformed one) have segments, sections and symbol tables that lie in the file, and gives these: all segments, all sections in order with their segment, the last symbol table. Section and segment data are the bytes at the recorded range. Nothing panics.",
  "every byte string, 32 and 64 bit, both byte orders",
  "hostile input",
  ["src/read/macho/file.rs: MachOFile::parse","src/read/macho/segment.rs","src/read/macho/section.rs","src/read/macho/load_command.rs","src/read/macho/symbol.rs"])
p("Mach-O section offsets beyond 4 GB are reconstructed",
  "If the sections with data of a segment are laid out in order with gaps of less than 4 GB within the segment's file range, then the reader finds the true 64-bit file offset of each section although the header only stores its low 32 bits; in general the offset is the first one after the previous section that agrees with the header, and a section that would end outside the segment is an error.",
  "every list of sections, all offsets and sizes",
  "large files; arithmetic over all 64-bit values",
  ["src/read/macho/segment.rs: section offsets","src/read/macho/section.rs: offset"])
p("Mach-O lookup of sections by name",
  "section_by_name(q) returns the first section whose name, cut at the first null, equals q, or equals the system name made from a query \".x\" (\"__x\" cut to 16 bytes) or \".debug_x\" (\"__zdebug_x\" cut to 16 bytes); None only if there is none.",
  "every list of sections and every query",
  "every name of every length",
  ["src/read/macho/file.rs: section_by_name_bytes, section_by_name"])
p("Mach-O function starts",
  "The function-start iterator yields the running sums of the ULEB128 deltas from the given start address up to a zero delta or the end of the data, an error for a malformed delta, and stops; it terminates and never panics.",
  "every byte string",
  "hostile input",
  ["src/read/macho/load_command.rs: FunctionStartsIterator"])
p("Mach-O object map",
  "The object map lists, in symbol order (before the address sort of C16), each function (N_FUN with a name, size from the following nameless N_FUN) and each static variable (N_STSYM) that occurs inside an object file (after an N_OSO, until N_SO), with the index of that object file; object files are listed once per N_OSO, split into path and archive member.",
  "every symbol table",
  "a state machine over unbounded symbol lists",
  ["src/read/macho/file.rs: object_map","src/read/mod.rs: ObjectMap"])
p("Mach-O symbols",
  "The symbol iterator of a Mach-O file yields exactly the symbols of the symbol table that are not stabs entries, in order with their indices; symbol_by_index returns the symbol at the index unless there is none or it is a stabs entry.",
  "every file and every index",
  "unbounded symbol tables",
  ["src/read/macho/symbol.rs: MachOSymbolIterator, symbol_by_index"])
p("Mach-O indirect symbols",
  "The indirect symbols of a section are the size/entry-size entries of the indirect symbol table that begin at its reserved1 field, for the section types that have them (entry size pointer width, or reserved2 for stubs), and an error exactly if the range is not in the table; the table is read from the file range that the dynamic symbol table command gives.",
  "every section header, every table",
  "attacker-controlled ranges and sizes, division by an attacker-controlled entry size",
  ["src/read/macho/section.rs: indirect_symbols","src/read/macho/load_command.rs: DysymtabCommand::indirect_symbols"])
p("Mach-O UUID and entry point",
  "mach_uuid returns the UUID of the first well-formed LC_UUID command, None if there is none; entry returns the value of the first LC_MAIN or LC_UNIXTHREAD command (program counter at the place the CPU type dictates), and 0 if there is none.",
  "every list of load commands",
  "unbounded lists of commands from hostile input",
  ["src/read/macho/file.rs: mach_uuid, entry"])
p("Mach-O object round trip",
  "A Mach-O object file that write::Object writes can be parsed, and what is read back is what was written: header (CPU type and subtype, flags), sections with names, sizes, alignment, flags and data at disjoint addresses in one segment, every emitted symbol (local symbols in order, then external, then undefined ones, sorted by name) with its name, value, section, scope and weakness, every relocation with its target and addend (little endian), the symbol ranges of the dynamic symbol table command, and the build version.",
  "every object with any sections, symbols and relocations within the format's limits, both word sizes",
  "round trip over unbounded objects and layouts",
  ["src/write/macho/object.rs: Object::macho_write","src/write/macho/encoder.rs","src/read/macho/file.rs: MachOFile::parse"])
p("Unified view of an ELF file",
  "For any bytes, ElfFile::parse does not panic; if it succeeds, endianness, architecture, kind, entry point and flags are those of the header; sections()/section_by_index show the section table from index 1; section_by_name finds the first section of the name, otherwise the .zdebug_ one for a .debug_ name; SectionKind, symbol kind, symbol section, scope, is_definition, is_weak and is_local are the documented functions of the header fields; comdats() yields exactly the COMDAT groups in order; the relocation section of a section is the unique one that applies to it.",
  "every byte string as a file, both classes and byte orders, every section, symbol and name",
  "hostile input of any size; exhaustive classification over all field values",
  ["src/read/elf/file.rs: ElfFile","src/read/elf/section.rs: ElfSection","src/read/elf/symbol.rs: ElfSymbol","src/read/elf/comdat.rs: ElfComdat","src/read/elf/segment.rs: ElfSegment"])
p("ELF build id and debug links",
  "build_id returns the description of the first GNU build id note in the note sections (the note segments if there is no section table), with everything before it well formed, None exactly if all notes are well formed and none is one; gnu_debuglink and gnu_debugaltlink return the file name and checksum or id exactly if the first section of the name has the documented contents; has_debug_symbols holds exactly if a section is named .debug_info or .zdebug_info; no panic.",
  "every file",
  "unbounded notes and sections from hostile input",
  ["src/read/elf/file.rs: build_id, gnu_debuglink, gnu_debugaltlink, has_debug_symbols","src/read/elf/note.rs"])
p("ELF symbol versions, imports and exports",
  "versions() gives the symbol version table that the first version sections of the file describe, or an error exactly if they do not describe one; the import and export iterators yield, in the order of the dynamic symbols, exactly the undefined named symbols and the exported definitions, each with its target, weakness, version, library and hidden flag, with an error only for the symbols whose name or version is invalid, and continue after errors.",
  "every file, every dynamic symbol table and version table",
  "unbounded tables, error paths in the middle of an iteration",
  ["src/read/elf/section.rs: SectionTable::versions","src/read/elf/import.rs: ElfImportIterator","src/read/elf/export.rs: ElfExportIterator","src/read/elf/version.rs"])
p("ELF compressed sections",
  "compressed_file_range of a section gives the format, file range and uncompressed size of an SHF_COMPRESSED section or of a GNU .zdebug_ section, the plain range otherwise, and an error exactly if none of these descriptions fits; compressed_data is that range of the file; names are accepted as strings exactly if they are valid UTF-8.",
  "every file and section; every byte string as a name",
  "hostile headers; all byte strings",
  ["src/read/elf/section.rs: compressed_file_range, compression","src/read/gnu_compression.rs","src/read/mod.rs: CompressedFileRange"])
p("An ELF object that is written can be read back",
  "If writing an object as ELF succeeds, for an object whose numbers fit the fields of the file class, the ELF reader accepts the file and shows the object: byte order, relocatable kind, entry 0, ABI and flags, architecture; no segments; each section under its number (groups first, relocated sections followed by their relocation section) with its name, data, size, alignment, address 0, and its kind (or the explicit type and flags); its relocations in order with offset, type, addend and the numbers of their symbols; each symbol, locals first, with name, value, size, section, kind, scope and weakness (or the explicit info and other bytes), and no further symbols; the COMDAT groups in order with their symbol, name and sections.",
  "every object (any number of sections, symbols, relocations and groups below 2^29, also beyond the 65280 sections where indices spill into the extended table), both classes and byte orders, every architecture",
  "layout, string tables and numbering interact over all objects; large counts are impractical to test",
  ["src/write/elf/object.rs: elf_write, elf_section_flags, elf_symbol_flags","src/write/elf/writer.rs: Writer","src/read/elf/file.rs: ElfFile::parse","src/read/elf/section.rs: ElfSection","src/read/elf/symbol.rs: ElfSymbol","src/read/elf/relocation.rs","src/read/elf/comdat.rs: ElfComdat"])
p("Rebase and bind operations of a Mach-O file",
  "The rebase and bind operation iterators decode every sequence of encoded operations to exactly these operations; for any other data they yield the operations before the first byte that does not begin an operation, then an error, then None; they never panic. The streams are the parts of the file that the command gives.",
  "every byte string",
  "hostile variable-length encodings of any length",
  ["src/read/macho/dyld_info.rs: RebaseOperation::parse, RebaseOperationIterator, BindOperation::parse, BindOperationIterator, DyldInfoCommand"])
p("Rebases and binds of a Mach-O file",
  "The rebase, bind, weak bind and lazy bind iterators yield exactly the locations that the operations of the stream denote: the current segment, type, library, symbol and addend apply to each operation, addresses advance modulo 2^64 by the pointer size and the given offsets, repeated operations yield each place, a lazy stream restarts at each done operation; a location before its state is set, or a broken stream, is an error, after which the iterator returns None.",
  "every byte string, every pointer size",
  "a state machine over unbounded streams with attacker-controlled repeat counts",
  ["src/read/macho/dyld_info.rs: RebaseIterator, BindIterator"])
p("Chained fixups of a Mach-O segment",
  "A chained pointer word of any supported format decodes to exactly the target, ordinal, addend, authentication data and distance whose bit fields make it up; iterating over the fixups of a segment returns, page after page, exactly the pointers of the chains that the page starts describe (no chain, one chain, or a list of chains), in order, each with its offset in the segment; an error is reported exactly where a start or pointer is missing or its format is unknown, and nothing follows it; no input makes it panic or loop.",
  "every segment description, every segment content, every format, every pointer word",
  "attacker-controlled chains over unbounded data; all 2^64 words",
  ["src/read/macho/fixup.rs: Fixup::parse, DyldChainedFixupIterator","src/macho.rs: DyldChainedPtr*"])
p("Chained fixup headers, imports and segments of a Mach-O file",
  "The chained fixups of a file are found exactly if the command's range lies in the file and starts with a version 0 header; the imports are the given number of entries at the given offset, each with its library ordinal (small negatives included), weakness, addend and name; a broken entry is an error after which nothing follows; the segments are exactly the ones with a non-zero offset in the table of starts, each with its page starts or an error if its description does not fit, and an error does not end the iteration.",
  "every file and command, every import format, every number of imports and segments",
  "unbounded tables from hostile input",
  ["src/read/macho/fixup.rs: DyldChainedFixups, DyldChainedImportIterator, DyldChainedImport::parse, DyldChainedSegmentIterator"])
p("The kind of a file",
  "FileKind::parse and parse_at name a kind exactly if the file has 16 bytes at the offset and the magic number of that kind (for PE: a DOS header that leads to a PE header with a 32- or 64-bit optional header; for bigobj: the class id), and an error otherwise; never a panic. Every ELF, PE, Mach-O, universal, short import and ar file that the readers accept, and every COFF object of a listed machine, is detected as what it is (AIX big archives are not).",
  "every byte string and offset",
  "overlapping magic numbers; the relation to five parsers over all files",
  ["src/read/mod.rs: FileKind::parse, FileKind::parse_at","src/read/pe/file.rs: optional_header_magic","src/read/coff/file.rs: anon_object_class_id"])
p("Mach-O universal binaries",
  "A universal file parses exactly if it starts with the header and the stated number of entries; the entries are then returned in order with their CPU types, offsets, sizes and alignments; the data of an entry is exactly the bytes of the file at its offset and size; never a panic.",
  "every file, both entry sizes, any number of entries",
  "hostile counts and offsets",
  ["src/read/macho/fat.rs: MachOFatFile::parse, FatArch::data, FatArch::architecture"])
p("COFF short import files",
  "A short import file parses exactly if it has the header, a known import type and name type, and the null-terminated strings inside the stated size; it shows the machine, ordinal, type, symbol and DLL, and the imported name that the name type denotes: the ordinal, the symbol, the symbol without a prefix character, also without what follows @, or the export name; never a panic.",
  "every byte string",
  "hostile sizes and strings",
  ["src/read/coff/import.rs: ImportFile::parse, ImportObjectHeader::parse, parse_data"])
p("Parsing XCOFF files",
  "A 32- or 64-bit XCOFF file parses exactly if it starts with the file header of that size, the optional header is there if the file is executable and states its full size, the section headers follow it, and the symbol table, if any, is at the stated offset and followed by the length of the string table; the parsed file shows exactly these parts; never a panic.",
  "every file below 2^63 bytes, both word sizes",
  "hostile counts and offsets",
  ["src/read/xcoff/file.rs: XcoffFile::parse, FileHeader::parse, FileHeader::aux_header","src/read/xcoff/section.rs: SectionTable::parse","src/read/xcoff/symbol.rs: SymbolTable::parse"])
p("XCOFF sections",
  "The data of a section is exactly the bytes of its size at its file offset, its relocations the stated number of entries at their offset (a 32-bit section with 65535 relocations, whose count is elsewhere, gives none); its name is the field up to the null padding, its kind that of the first known flag; sections are found by 1-based index and by name; never a panic.",
  "every parsed file and section",
  "hostile offsets; all flag combinations",
  ["src/read/xcoff/section.rs: XcoffSection, SectionHeader","src/read/xcoff/relocation.rs","src/read/xcoff/file.rs: section_by_name_bytes, section_by_index"])
p("XCOFF symbols",
  "The symbol iterator returns, from the start, each entry that is not null, skips the auxiliary entries that it announces, and ends at the first index outside of the table; a symbol is available by the index of any entry that is not null. The name of a symbol is in its field, or in the string table, or for file symbols in the first auxiliary entry; size, kind and definition follow from the csect record, which is the last auxiliary entry of external, weak and hidden symbols; section, scope, weakness and address from the symbol; never a panic.",
  "every parsed file, every entry of its symbol table",
  "auxiliary entries are reinterpreted bytes of any content; name offsets are hostile",
  ["src/read/xcoff/symbol.rs: SymbolTable, SymbolIterator, XcoffSymbol, Symbol"])
p("XCOFF objects can be read back",
  "An XCOFF file written by write::Object parses, and shows every section with its name, address, flags, data and relocations (which point to the right symbols), and every symbol with its name, address, section, storage class, type, and csect record, where file names, long names and the string table are found again. (Sizes of uninitialised sections and kinds of local symbols are lost.)",
  "every object with non-empty symbol names, up to 2^15 sections and files below 2^32 bytes, 32 and 64 bits, any number of symbols and relocations (below 65535 per section in 32-bit files)",
  "layout, string table and symbol numbering interact over all objects",
  ["src/write/xcoff.rs: xcoff_write, xcoff_section_flags, xcoff_symbol_flags"])
p("Deleting the orphans of an ELF builder","After build::elf::Builder::delete_orphans no live segment lists a deleted section, no live symbol is in a deleted section, no relocation of a live section refers to a deleted symbol and no automatic dynamic entry describes a table without a live section; exactly the orphans have been deleted (segments only if they had sections and all are deleted), everything else and the order are unchanged, and a second call changes nothing. It completes exactly when the ids that live items refer to exist.",
  "all builders: any tables, any combination of deleted items and of references between them",
  "deletion flags combine arbitrarily across six tables; a test fixes one combination",
  ["src/build/elf.rs: Builder::delete_orphans, delete_orphan_segments, delete_orphan_symbols, delete_orphan_relocations, delete_orphan_dynamics","src/build/table.rs"])
p("Deleting unused symbol versions","build::elf::Builder::delete_unused_versions deletes exactly the versions that no live dynamic symbol has, except the needed version GLIBC_ABI_DT_RELR, and exactly the version files that no remaining needed version refers to; nothing else changes, and it completes exactly when the version ids of live dynamic symbols and the file ids of used needed versions exist.",
  "all builders: any versions, version files, dynamic symbols and deletion flags",
  "the set of used versions depends on all symbols and on earlier deletions",
  ["src/build/elf.rs: Builder::delete_unused_versions, VersionId"])
p("Deleting the orphans of a Mach-O builder","build::macho::Builder::delete_orphans deletes exactly the segments whose sections are all deleted, the symbols of deleted sections, the relocations to deleted symbols and the load commands of deleted segments and dylibs. Relocations to a deleted section, however, are kept, and the call may panic when a section is deleted (shown by counterexamples).",
  "all builders: any tables, deletion flags and references",
  "the fault only appears with a deleted section before a referenced one",
  ["src/build/macho.rs: Builder::delete_orphans, delete_orphan_relocations, delete_orphan_load_commands"])
p("Layout of sections in ELF segments","A segment made by Segments::add_load_segment starts after all live segments in file and memory with its address congruent to its offset modulo the alignment; sections with contents then appended to it are aligned, in order, not overlapping, all at the same distance between address and offset, inside the segment's ranges and outside those of all other live segments, so that contains_offset, contains_address and address_from_offset answer correctly for every byte of them. recalculate_ranges gives the smallest ranges covering the listed sections, if they are listed in order of offset and address (a counterexample shows the order is needed).",
  "all segment tables, section lists, sizes and power-of-two alignments up to the segment's",
  "the layout of each section depends on all earlier ones",
  ["src/build/elf.rs: Segments::add_load_segment, Segments::copy, Segment::append_section, append_section_range, recalculate_ranges, contains_offset, contains_address, address_from_offset"])
p("Mach-O code signature blobs","CodeSignature::parse (and LinkeditDataCommand::code_signature on the range of the load command) succeeds exactly on data that starts with an embedded signature super blob whose index fits, and shows exactly the slots and offsets of its index. The blob iterator gives one result per index entry in order, continuing after errors: the blob at that offset with its magic number and exactly the bytes of its length, or an error if the header or the data is outside of the signature. Nothing panics.",
  "all byte sequences, all load command ranges, any number of index entries",
  "offsets, lengths and the entry count are hostile and independent of each other",
  ["src/read/macho/codesign.rs: CodeSignature, CodeSignatureBlobIterator, CodeSignatureBlob, LinkeditDataCommand::code_signature"])
p("Mach-O code directories","CodeDirectory::parse succeeds exactly on data with the code directory magic number that contains every part its version requires; the fields of a part are shown exactly from the version on that has it. The identifier and team identifier are the null terminated strings at their offsets, special_hash(k) is the k-th hash before the hash offset for 1 <= k <= n_special_slots, code_hash(i) is the i-th hash from the hash offset for i < n_code_slots when there is no scatter vector, and every other slot is an error. Nothing panics.",
  "all byte sequences, versions, slots and pages",
  "the layout depends on the version; slot * size and offsets overflow only for extreme values",
  ["src/read/macho/codesign.rs: CodeDirectory, CodeSignatureBlob::code_directory"])
p("Mach-O library names and ordinals","MachOFile::libraries is, exactly when all load commands can be read, an empty name followed by the null terminated names of the commands that name a dynamic library, in command order, so that index k is the library with ordinal k; otherwise it is an error. The library iterator returns one library (name, ordinal from 1, command, versions, use flags) or error for each such command in order and goes on after an error, followed by an error if the commands cannot all be read. Neither panics.",
  "all files that parse, any number of commands, any contents of the commands",
  "library commands are mixed with others and may be malformed anywhere",
  ["src/read/macho/file.rs: MachOFile::libraries","src/read/macho/import.rs: MachOImportLibraryIterator","src/read/macho/load_command.rs: dylib, dylib_use_flags"])
p("Mach-O imports and exports in the symbol table","The symbol import iterator returns exactly the undefined symbols in order, with name, weakness and the library that the ordinal in n_desc names (none for the special ordinals or without two-level names), or an error for one whose name or library is missing. The symbol export iterator returns exactly the external, non-private absolute, indirect and section symbols in order with their targets (address, thread local, resolver, absolute, reexport).",
  "all files that parse, any symbols and library lists",
  "the selection depends on several bit fields of each symbol",
  ["src/read/macho/import.rs: MachOImportSymbols","src/read/macho/export.rs: MachOExportSymbols"])
p("Mach-O imports of chained fixups","The import iterator over chained fixups returns, for each import entry in order that is not of the image itself (dylib 0), its name, weakness and library, or an error if that library does not exist; and one error at the end if the entries cannot all be read.",
  "all import tables in all formats, any library lists",
  "depends on every entry of the table and on where it becomes unreadable",
  ["src/read/macho/import.rs: MachOImportChainedFixups"])
p("Mach-O imports of bind operations","The import iterator over bind operations reports each symbol once, at its first bind, with the library and flags set by the latest operations before it in its stream; over the bind, weak bind (with the special weak ordinal) and lazy bind streams in this order, where a done operation ends a stream except a lazy one, whose state it resets. Binds without symbol or library, too large ordinals and missing libraries are errors after which the iteration goes on; it always ends.",
  "all byte sequences for the three streams, all library lists",
  "an interpreter over an unbounded operation history carrying state across streams",
  ["src/read/macho/import.rs: MachOImportDyldInfo"])
p("Mach-O exports tries and the choice of the source","The exports of a trie are, in trie order, an export or error per symbol: name, weakness and a target according to its kind, relative to the address of the first __TEXT segment (0 if none), with reexports naming the library of their ordinal. Imports come from the last chained fixups command, else the last dyld info command, else the symbol table; exports from the last exports trie command, else the last dyld info command, else the symbol table; creation fails exactly if the commands, the chosen command's data or the needed libraries cannot be read.",
  "all files that parse, all tries and command sequences",
  "the choice depends on all load commands",
  ["src/read/macho/export.rs: MachOExportIterator, MachOExportsTrie","src/read/macho/import.rs: MachOImportIterator::new"])
p("Shared cache files","DyldCache::parse succeeds exactly when the main file has a known magic, its tables of mappings and images (old or new layout by the header size) can be read, and the given subcache files are as many as the header requires, in order, each with its table of mappings and the UUID that the main file gives it, with the file of local symbols last if its UUID is not zero; the cache then has exactly these files, mappings and images. An image path is the null terminated string at its offset. Parsing never panics.",
  "all files, any number of subcaches",
  "three layouts by header size, and conditions that link several files",
  ["src/read/macho/dyld_cache.rs: DyldCache::parse, DyldCacheHeader::parse, parse_magic, mappings, subcaches, images, symbols_subcache_uuid, DyldCacheImageInfo::path"])
p("Shared cache file suffixes","DyldCache::subcache_suffixes returns, for the subcaches in order, the name up to the first null byte in the new layout, a dot and the decimal index from 1 in the old layout, and .symbols at the end if there is a file of local symbols; for each cache that parses these are as many as the files that parse needs.",
  "all files, all numbers of subcaches",
  "decimal numbers of any length, links two functions",
  ["src/read/macho/dyld_cache.rs: DyldCache::subcache_suffixes"])
p("Shared cache addresses","data_and_offset_for_address and image_data_and_offset return the file and file offset of the address by the first mapping that contains it, in the first file in which that mapping gives an offset without overflow, and nothing if there is none; the byte of the file there is the byte of the mapping's data.",
  "all caches, all addresses",
  "mappings may overlap, overflow or be empty",
  ["src/read/macho/dyld_cache.rs: DyldCache::data_and_offset_for_address, DyldFile::address_to_file_offset, DyldCacheMapping::data, DyldCacheImage::image_data_and_offset"])
p("Shared cache slide information and relocations","The slide information of a mapping is read exactly from the structure and tables of its version (2, 3 or 5). Its relocation iterator returns exactly the non-zero pointers (version 2) or all pointers (3 and 5) of the chains of the pages in table order, including the extra chains of a page, with value and authentication decoded from the pointer, and ends with an error exactly at the first pointer that cannot be read or whose successor overflows. The iteration always ends, and does not panic except for a zero mask in version 2.",
  "all files, all mappings, chains of any length",
  "linked chains in the file, with a state machine over pages and extra chains",
  ["src/read/macho/dyld_cache.rs: DyldCacheSlideInfo, DyldCacheRelocationIterator, DyldCacheRelocationIteratorV2, V3, V5","src/macho.rs: DyldCacheSlidePointer3, DyldCacheSlidePointer5"])
p("Places of shared cache relocations","The pointer of each relocation is in the mapping at the offset that the relocation reports (its documentation: the offset of the relocation within the mapping). This holds for versions 3 and 5; in version 2 the reported offset is relative to the start of an unreported page (refuted by an example with two pages).",
  "all files, mappings and chains",
  "visible only with more than one page",
  ["src/read/macho/dyld_cache.rs: DyldRelocation"])
p("Version sections of an ELF builder","When a Builder with well-formed versions is written, its version definition and requirement sections have exactly the sizes that gnu_verdef_size and gnu_verneed_size report (and that write reserves), and reading them yields the base definition and exactly the definitions and requirements that were not deleted, with their ids, flags, hashes, names and files. A requirement on a deleted file breaks the size (refuted by an example).",
  "all version tables, version names, files, deletions and string tables",
  "the size is computed in one pass and the bytes in another; the first definition may share the entry of the base",
  ["src/build/elf.rs: Builder::write, Builder::gnu_verdef_size, Builder::gnu_verneed_size, VersionDef::is_shared","src/write/elf/encoder.rs: Encoder::gnu_verdef, gnu_verdef_shared, gnu_verneed"])
p("Version table of an ELF builder read back","Parsing the version sections and the dynamic string table written by a Builder gives a version table in which each index from 2 on is the version of the builder with that id (name, hash, file), and an error if that version was deleted or does not exist.",
  "all version tables, files, deletions and other dynamic strings",
  "needs the string table, both sections and the parser together",
  ["src/build/elf.rs: Builder::write","src/read/elf/version.rs: VersionTable::parse, VersionTable::version","src/write/string.rs: StringTable"])
open('/verif/properties.jsonl','w').write(''.join(json.dumps(x)+'\n' for x in P))
print(len(P))
