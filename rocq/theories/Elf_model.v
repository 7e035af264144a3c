(** Model of ELF file headers, program headers, section headers, string tables and symbol tables.
    Readers: src/read/elf/file.rs, section.rs, segment.rs, symbol.rs.  Writer: src/write/elf/encoder.rs.
    Definitions only.  [usize] is 64 bits.  [is64] selects the 64-bit structs. *)
From Verif Require Export Iter_model Hash_model.

(** src/elf.rs 3-6, 309-320 [ELFMAG], 325-330 [ELFCLASS32/64], [ELFDATA2LSB/MSB], [EV_CURRENT], [PN_XNUM],
    [SHN_LORESERVE], [SHN_XINDEX], section types *)
Definition ELFMAG : bytes := [127; 69; 76; 70].
Definition PN_XNUM := 65535.
Definition SHN_LORESERVE := 65280.
Definition SHN_XINDEX := 65535.
Definition SHT_SYMTAB := 2.
Definition SHT_STRTAB := 3.
Definition SHT_NOBITS := 8.
Definition SHT_DYNSYM := 11.
Definition SHT_SYMTAB_SHNDX := 18.
Definition PT_LOAD := 1.
Definition PT_INTERP := 3.

(** * src/elf.rs 960-990 [SymbolSection] *)
Definition symsec_new (index : Z) : Z := if SHN_LORESERVE <=? index then SHN_XINDEX else wrap_u 16 index.
Definition symsec_index (n : Z) : option Z := if (n =? 0) || (SHN_LORESERVE <=? n) then None else Some n.

(** * Sizes: src/elf.rs 122-160 [FileHeader32], 168-206 [FileHeader64], 888-945 [SectionHeader32/64], 1273-1345
    [Sym32/64], 1841-1885 [ProgramHeader32/64]; encoder.rs 408, 522, 570, 902 *)
Definition ehdr_size (is64 : bool) : Z := if is64 then 64 else 52.
Definition phdr_size (is64 : bool) : Z := if is64 then 56 else 32.
Definition shdr_size (is64 : bool) : Z := if is64 then 64 else 40.
Definition sym_size (is64 : bool) : Z := if is64 then 24 else 16.

(** A file header is kept as its bytes; the accessors are src/read/elf/file.rs 830-1010 *)
Definition ei_class (h : bytes) : Z := fld Little 4 1 h.
Definition ei_data (h : bytes) : Z := fld Little 5 1 h.
Definition ei_version (h : bytes) : Z := fld Little 6 1 h.
Definition ei_osabi (h : bytes) : Z := fld Little 7 1 h.
Definition ei_abiversion (h : bytes) : Z := fld Little 8 1 h.
Definition e_type (e : endian) (h : bytes) : Z := fld e 16 2 h.
Definition e_machine (e : endian) (h : bytes) : Z := fld e 18 2 h.
Definition e_version (e : endian) (h : bytes) : Z := fld e 20 4 h.
Definition e_entry (is64 : bool) (e : endian) (h : bytes) : Z := if is64 then fld e 24 8 h else fld e 24 4 h.
Definition e_phoff (is64 : bool) (e : endian) (h : bytes) : Z := if is64 then fld e 32 8 h else fld e 28 4 h.
Definition e_shoff (is64 : bool) (e : endian) (h : bytes) : Z := if is64 then fld e 40 8 h else fld e 32 4 h.
Definition e_flags (is64 : bool) (e : endian) (h : bytes) : Z := if is64 then fld e 48 4 h else fld e 36 4 h.
Definition e_ehsize (is64 : bool) (e : endian) (h : bytes) : Z := if is64 then fld e 52 2 h else fld e 40 2 h.
Definition e_phentsize (is64 : bool) (e : endian) (h : bytes) : Z := if is64 then fld e 54 2 h else fld e 42 2 h.
Definition e_phnum (is64 : bool) (e : endian) (h : bytes) : Z := if is64 then fld e 56 2 h else fld e 44 2 h.
Definition e_shentsize (is64 : bool) (e : endian) (h : bytes) : Z := if is64 then fld e 58 2 h else fld e 46 2 h.
Definition e_shnum (is64 : bool) (e : endian) (h : bytes) : Z := if is64 then fld e 60 2 h else fld e 48 2 h.
Definition e_shstrndx (is64 : bool) (e : endian) (h : bytes) : Z := if is64 then fld e 62 2 h else fld e 50 2 h.

(** Program headers, section headers and symbols: the reader returns references to the raw structs, the model their
    field values (the accessors of the traits in segment.rs 290-380, section.rs 1140-1280, symbol.rs 578-680). *)
Record phdr := { p_type : Z; p_flags : Z; p_offset : Z; p_vaddr : Z; p_paddr : Z; p_filesz : Z; p_memsz : Z; p_align : Z }.
Definition phdr_of (is64 : bool) (e : endian) (b : bytes) : phdr :=
  if is64 then {| p_type := fld e 0 4 b; p_flags := fld e 4 4 b; p_offset := fld e 8 8 b; p_vaddr := fld e 16 8 b;
                  p_paddr := fld e 24 8 b; p_filesz := fld e 32 8 b; p_memsz := fld e 40 8 b; p_align := fld e 48 8 b |}
  else {| p_type := fld e 0 4 b; p_offset := fld e 4 4 b; p_vaddr := fld e 8 4 b; p_paddr := fld e 12 4 b;
          p_filesz := fld e 16 4 b; p_memsz := fld e 20 4 b; p_flags := fld e 24 4 b; p_align := fld e 28 4 b |}.
Record shdr := { sh_name : Z; sh_type : Z; sh_flags : Z; sh_addr : Z; sh_offset : Z; sh_size : Z; sh_link : Z; sh_info : Z;
                 sh_addralign : Z; sh_entsize : Z }.
Definition shdr_of (is64 : bool) (e : endian) (b : bytes) : shdr :=
  if is64 then {| sh_name := fld e 0 4 b; sh_type := fld e 4 4 b; sh_flags := fld e 8 8 b; sh_addr := fld e 16 8 b;
                  sh_offset := fld e 24 8 b; sh_size := fld e 32 8 b; sh_link := fld e 40 4 b; sh_info := fld e 44 4 b;
                  sh_addralign := fld e 48 8 b; sh_entsize := fld e 56 8 b |}
  else {| sh_name := fld e 0 4 b; sh_type := fld e 4 4 b; sh_flags := fld e 8 4 b; sh_addr := fld e 12 4 b;
          sh_offset := fld e 16 4 b; sh_size := fld e 20 4 b; sh_link := fld e 24 4 b; sh_info := fld e 28 4 b;
          sh_addralign := fld e 32 4 b; sh_entsize := fld e 36 4 b |}.
Record sym := { st_name : Z; st_info : Z; st_other : Z; st_shndx : Z; st_value : Z; st_size : Z }.
Definition sym_of (is64 : bool) (e : endian) (b : bytes) : sym :=
  if is64 then {| st_name := fld e 0 4 b; st_info := fld e 4 1 b; st_other := fld e 5 1 b; st_shndx := fld e 6 2 b;
                  st_value := fld e 8 8 b; st_size := fld e 16 8 b |}
  else {| st_name := fld e 0 4 b; st_value := fld e 4 4 b; st_size := fld e 8 4 b; st_info := fld e 12 1 b;
          st_other := fld e 13 1 b; st_shndx := fld e 14 2 b |}.

(** * Reading the file header: src/read/elf/file.rs *)
(** 608-632 [is_supported] *)
Definition eh_supported (is64 : bool) (h : bytes) : bool :=
  bytes_eqb (zslice 0 4 h) ELFMAG && (is64 || (ei_class h =? 1)) && (negb is64 || (ei_class h =? 2)) &&
  ((ei_data h =? 1) || (ei_data h =? 2)) && (ei_version h =? 1).
(** 594-603 [parse] *)
Definition eh_parse (is64 : bool) (data : bytes) : out bytes :=
  h <- rr_read_at data 0 (ehdr_size is64) ;;
  if eh_supported is64 h then Ok h else Err.
(** 634-636 [endian], for [Endianness] *)
Definition eh_endian (h : bytes) : out endian := Ok (if ei_data h =? 2 then Big else Little).
(** 642-660 [section_0] *)
Definition section_0 (is64 : bool) (e : endian) (h data : bytes) : out (option shdr) :=
  let shoff := e_shoff is64 e h in
  if shoff =? 0 then Ok None else
  if negb (e_shentsize is64 e h =? shdr_size is64) then Err else
  b <- rr_read_at data shoff (shdr_size is64) ;; Ok (Some (shdr_of is64 e b)).
(** 665-675 [phnum] *)
Definition phnum (is64 : bool) (e : endian) (h data : bytes) : out Z :=
  let n := e_phnum is64 e h in
  if n <? PN_XNUM then Ok n else
  s <- section_0 is64 e h data ;;
  match s with Some s => Ok (sh_info s) | None => Err end.
(** 680-695 [shnum]; [try_into] to u32 *)
Definition shnum (is64 : bool) (e : endian) (h data : bytes) : out Z :=
  let n := e_shnum is64 e h in
  if 0 <? n then Ok n else
  s <- section_0 is64 e h data ;;
  match s with Some s => if sh_size s <? 2 ^ 32 then Ok (sh_size s) else Err | None => Ok 0 end.
(** 700-721 [shstrndx] *)
Definition shstrndx (is64 : bool) (e : endian) (h data : bytes) : out Z :=
  let n := e_shstrndx is64 e h in
  match symsec_index n with
  | Some i => Ok i
  | None =>
    if n =? SHN_XINDEX then
      s <- section_0 is64 e h data ;;
      match s with Some s => Ok (sh_link s) | None => Err end
    else Err
  end.
(** 726-749 [program_headers] *)
Definition program_headers (is64 : bool) (e : endian) (h data : bytes) : out (list phdr) :=
  let phoff := e_phoff is64 e h in
  if phoff =? 0 then Ok [] else
  n <- phnum is64 e h data ;;
  if n =? 0 then Ok [] else
  if negb (e_phentsize is64 e h =? phdr_size is64) then Err else
  l <- rr_read_slice_at data phoff (phdr_size is64) n ;; Ok (map (phdr_of is64 e) l).
(** 754-777 [section_headers] *)
Definition section_headers (is64 : bool) (e : endian) (h data : bytes) : out (list shdr) :=
  let shoff := e_shoff is64 e h in
  if shoff =? 0 then Ok [] else
  n <- shnum is64 e h data ;;
  if n =? 0 then Ok [] else
  if negb (e_shentsize is64 e h =? shdr_size is64) then Err else
  l <- rr_read_slice_at data shoff (shdr_size is64) n ;; Ok (map (shdr_of is64 e) l).

(** * Section headers: src/read/elf/section.rs *)
(** src/read/util.rs 273-305 [StringTable]: data, start, end *)
Record strtab := { stb_data : option bytes; stb_start : Z; stb_end : Z }.
Definition strtab_default := {| stb_data := None; stb_start := 0; stb_end := 0 |}.
Definition stb_get (s : strtab) (offset : Z) : out bytes := strtab_get (stb_data s) (stb_start s) (stb_end s) offset.
(** 750-757 [file_range] *)
Definition sh_file_range (s : shdr) : option (Z * Z) := if sh_type s =? SHT_NOBITS then None else Some (sh_offset s, sh_size s).
(** 762-773 [data] *)
Definition sh_data (s : shdr) (data : bytes) : out bytes :=
  match sh_file_range s with Some (o, n) => rr_read_bytes_at data o n | None => Ok [] end.
(** 780-787 [data_as_array] for structs of [size] bytes *)
Definition sh_data_as_array (size : Z) (s : shdr) (data : bytes) : out (list bytes) :=
  d <- sh_data s data ;; slice_from_all_bytes d size.
(** 793-807 [strings] *)
Definition sh_strings (s : shdr) (data : bytes) : out (option strtab) :=
  if negb (sh_type s =? SHT_STRTAB) then Ok None else
  fin <- of_opt (cadd 64 (sh_offset s) (sh_size s)) ;;
  Ok (Some {| stb_data := Some data; stb_start := sh_offset s; stb_end := fin |}).
(** 26-48 [SectionTable] *)
Record sectab := { stab_sections : list shdr; stab_strings : strtab }.
(** file.rs 791-812 [section_strings] *)
Definition section_strings (is64 : bool) (e : endian) (h data : bytes) (sections : list shdr) : out strtab :=
  match sections with
  | [] => Ok strtab_default
  | _ =>
    index <- shstrndx is64 e h data ;;
    s <- of_opt (zget sections index) ;;
    match sh_file_range s with
    | Some (o, n) => fin <- of_opt (cadd 64 o n) ;; Ok {| stb_data := Some data; stb_start := o; stb_end := fin |}
    | None => Ok strtab_default
    end
  end.
(** file.rs 814-822 [sections] *)
Definition eh_sections (is64 : bool) (e : endian) (h data : bytes) : out sectab :=
  l <- section_headers is64 e h data ;;
  s <- section_strings is64 e h data l ;;
  Ok {| stab_sections := l; stab_strings := s |}.
(** 84-91 [section] *)
Definition stab_section (t : sectab) (index : Z) : out shdr :=
  if index =? 0 then Err else of_opt (zget (stab_sections t) index).
(** 106-112 [section_name], 717-725 [name] *)
Definition section_name (t : sectab) (s : shdr) : out bytes := stb_get (stab_strings t) (sh_name s).
(** [Iterator::enumerate] and [find] *)
Definition enumerate {A} (l : list A) : list (Z * A) := combine (seqZ (length l)) l.
(** 96-103 [section_by_name] *)
Definition section_by_name (t : sectab) (name : bytes) : option (Z * shdr) :=
  find (fun p => match section_name t (snd p) with Ok n => bytes_eqb n name | _ => false end) (enumerate (stab_sections t)).
(** 119-131 [strings] *)
Definition stab_strings_at (t : sectab) (data : bytes) (index : Z) : out strtab :=
  if index =? 0 then Ok strtab_default else
  s <- stab_section t index ;;
  r <- sh_strings s data ;;
  of_opt r.

(** * Symbol tables: src/read/elf/symbol.rs *)
(** 24-46 [SymbolTable]; [smt_shndx] holds the decoded words *)
Record symtab := { smt_section : Z; smt_string_section : Z; smt_shndx_section : Z; smt_symbols : list sym; smt_strings : strtab;
                   smt_shndx : list Z }.
Definition symtab_default :=
  {| smt_section := 0; smt_string_section := 0; smt_shndx_section := 0; smt_symbols := []; smt_strings := strtab_default; smt_shndx := [] |}.
(** 69-79: the loop over the sections *)
Fixpoint find_shndx (e : endian) (data : bytes) (section_index : Z) (l : list (Z * shdr)) (acc : Z * list Z) : out (Z * list Z) :=
  match l with
  | [] => Ok acc
  | (i, s) :: l =>
    if (sh_type s =? SHT_SYMTAB_SHNDX) && (sh_link s =? section_index) then
      a <- sh_data_as_array 4 s data ;;
      find_shndx e data section_index l (i, map (read_u e) a)
    else find_shndx e data section_index l acc
  end.
(** 51-89 [parse]; the debug assertion is the panic *)
Definition symtab_parse (is64 : bool) (e : endian) (data : bytes) (t : sectab) (section_index : Z) (s : shdr) : out symtab :=
  if negb ((sh_type s =? SHT_DYNSYM) || (sh_type s =? SHT_SYMTAB)) then Panic else
  symbols <- sh_data_as_array (sym_size is64) s data ;;
  strings <- stab_strings_at t data (sh_link s) ;;
  x <- find_shndx e data section_index (enumerate (stab_sections t)) (0, nil) ;;
  Ok {| smt_section := section_index; smt_string_section := sh_link s; smt_shndx_section := fst x;
        smt_symbols := map (sym_of is64 e) symbols; smt_strings := strings; smt_shndx := snd x |}.
(** section.rs 137-151 [symbols] *)
Definition stab_symbols (is64 : bool) (e : endian) (data : bytes) (t : sectab) (ty : Z) : out symtab :=
  if negb ((ty =? SHT_DYNSYM) || (ty =? SHT_SYMTAB)) then Panic else
  match find (fun p => sh_type (snd p) =? ty) (enumerate (stab_sections t)) with
  | None => Ok symtab_default
  | Some (i, s) => symtab_parse is64 e data t i s
  end.
(** section.rs 157-170 [symbol_table_by_index] *)
Definition symtab_by_index (is64 : bool) (e : endian) (data : bytes) (t : sectab) (index : Z) : out symtab :=
  s <- stab_section t index ;;
  if (sh_type s =? SHT_DYNSYM) || (sh_type s =? SHT_SYMTAB) then symtab_parse is64 e data t index s else Err.
(** 157-164 [symbol] *)
Definition symtab_symbol (t : symtab) (index : Z) : out sym := if index =? 0 then Err else of_opt (zget (smt_symbols t) index).
(** 168-170 [shndx] *)
Definition symtab_shndx (t : symtab) (index : Z) : option Z := zget (smt_shndx t) index.
(** 175-196 [symbol_section] *)
Definition symbol_section (t : symtab) (s : sym) (index : Z) : out (option Z) :=
  match symsec_index (st_shndx s) with
  | Some i => Ok (Some i)
  | None =>
    if st_shndx s =? SHN_XINDEX then
      x <- of_opt (symtab_shndx t index) ;;
      if x =? 0 then Ok None else Ok (Some x)
    else Ok None
  end.
(** 199-201 [symbol_name], 516-524 [name] *)
Definition symbol_name (t : symtab) (s : sym) : out bytes := stb_get (smt_strings t) (st_name s).
(** 528-530 [is_undefined] *)
Definition sym_undefined (s : sym) : bool := st_shndx s =? 0.

(** * Segments: src/read/elf/segment.rs *)
(** 178-192 [file_range], [data] *)
Definition ph_data (p : phdr) (data : bytes) : out bytes := rr_read_bytes_at data (p_offset p) (p_filesz p).
(** 211-224 [data_range] *)
Definition ph_data_range (p : phdr) (data : bytes) (address size : Z) : out (option bytes) :=
  d <- ph_data p data ;; Ok (data_range d (p_vaddr p) address size).
(** 248-265 [interpreter] *)
Definition ph_interpreter (p : phdr) (data : bytes) : out (option bytes) :=
  if negb (p_type p =? PT_INTERP) then Ok None else
  d <- ph_data p data ;;
  len <- of_opt (memchr 0 d) ;;
  b <- unwrap (get_to d len) ;;
  Ok (Some b).
(** 36-47 [ElfSegmentIterator::next], collected *)
Definition load_segments (l : list phdr) : list phdr := filter (fun p => p_type p =? PT_LOAD) l.

(** * Writing: src/write/elf/encoder.rs *)
(** 27-34 [FileHeader], 55-72 [FileHeaderLayout] *)
Record fhdr := { fh_os_abi : Z; fh_abi_version : Z; fh_type : Z; fh_machine : Z; fh_entry : Z; fh_flags : Z }.
Record layout := { ly_phoff : Z; ly_segment_num : Z; ly_shoff : Z; ly_section_num : Z; ly_shstrtab_index : Z }.
(** 41-51 [FileHeader::from_raw] *)
Definition fhdr_from_raw (is64 : bool) (e : endian) (h : bytes) : fhdr :=
  {| fh_os_abi := ei_osabi h; fh_abi_version := ei_abiversion h; fh_type := e_type e h; fh_machine := e_machine e h;
     fh_entry := e_entry is64 e h; fh_flags := e_flags is64 e h |}.
(** 79-97 [FileHeaderLayout::from_raw] *)
Definition layout_from_raw (is64 : bool) (e : endian) (h data : bytes) : out layout :=
  i <- (if e_shstrndx is64 e h =? 0 then Ok 0 else shstrndx is64 e h data) ;;
  sn <- phnum is64 e h data ;;
  cn <- shnum is64 e h data ;;
  Ok {| ly_phoff := e_phoff is64 e h; ly_segment_num := sn; ly_shoff := e_shoff is64 e h; ly_section_num := cn; ly_shstrtab_index := i |}.
(** an address-sized field: [U64::new] or [U32::new(.. as u32)] *)
Definition enc_word (is64 : bool) (e : endian) (v : Z) : bytes := if is64 then write_u e 8 v else write_u e 4 (wrap_u 32 v).
(** 425-518 [file_header] *)
Definition enc_ident (is64 : bool) (e : endian) (h : fhdr) : bytes :=
  ELFMAG ++ [if is64 then 2 else 1] ++ [match e with Little => 1 | Big => 2 end] ++ [1] ++ [fh_os_abi h] ++ [fh_abi_version h] ++ zeros 7.
Definition enc_file_header (is64 : bool) (e : endian) (h : fhdr) (l : layout) : out bytes :=
  let phentsize := if ly_segment_num l =? 0 then 0 else phdr_size is64 in
  pn <- (if PN_XNUM <=? ly_segment_num l then (if ly_section_num l =? 0 then Err else Ok PN_XNUM) else Ok (wrap_u 16 (ly_segment_num l))) ;;
  let shentsize := if ly_section_num l =? 0 then 0 else shdr_size is64 in
  let sn := if SHN_LORESERVE <=? ly_section_num l then 0 else wrap_u 16 (ly_section_num l) in
  Ok (enc_ident is64 e h ++ write_u e 2 (fh_type h) ++ write_u e 2 (fh_machine h) ++ write_u e 4 1 ++
      enc_word is64 e (fh_entry h) ++ enc_word is64 e (ly_phoff l) ++ enc_word is64 e (ly_shoff l) ++ write_u e 4 (fh_flags h) ++
      write_u e 2 (ehdr_size is64) ++ write_u e 2 phentsize ++ write_u e 2 pn ++ write_u e 2 shentsize ++ write_u e 2 sn ++
      write_u e 2 (symsec_new (ly_shstrtab_index l))).
(** 536-567 [program_header] *)
Definition enc_phdr (is64 : bool) (e : endian) (p : phdr) : bytes :=
  if is64 then write_u e 4 (p_type p) ++ write_u e 4 (p_flags p) ++ write_u e 8 (p_offset p) ++ write_u e 8 (p_vaddr p) ++
    write_u e 8 (p_paddr p) ++ write_u e 8 (p_filesz p) ++ write_u e 8 (p_memsz p) ++ write_u e 8 (p_align p)
  else write_u e 4 (p_type p) ++ write_u e 4 (wrap_u 32 (p_offset p)) ++ write_u e 4 (wrap_u 32 (p_vaddr p)) ++
    write_u e 4 (wrap_u 32 (p_paddr p)) ++ write_u e 4 (wrap_u 32 (p_filesz p)) ++ write_u e 4 (wrap_u 32 (p_memsz p)) ++
    write_u e 4 (p_flags p) ++ write_u e 4 (wrap_u 32 (p_align p)).
(** 641-675 [section_header] *)
Definition enc_shdr (is64 : bool) (e : endian) (s : shdr) : bytes :=
  write_u e 4 (sh_name s) ++ write_u e 4 (sh_type s) ++ enc_word is64 e (sh_flags s) ++ enc_word is64 e (sh_addr s) ++
  enc_word is64 e (sh_offset s) ++ enc_word is64 e (sh_size s) ++ write_u e 4 (sh_link s) ++ write_u e 4 (sh_info s) ++
  enc_word is64 e (sh_addralign s) ++ enc_word is64 e (sh_entsize s).
(** 583-633 [null_section_header]; the two struct literals differ from [section_header] only in using no truncation *)
Definition null_shdr (l : layout) : shdr :=
  {| sh_name := 0; sh_type := 0; sh_flags := 0; sh_addr := 0; sh_offset := 0;
     sh_size := if SHN_LORESERVE <=? ly_section_num l then ly_section_num l else 0;
     sh_link := if SHN_LORESERVE <=? ly_shstrtab_index l then ly_shstrtab_index l else 0;
     sh_info := if PN_XNUM <=? ly_segment_num l then ly_segment_num l else 0; sh_addralign := 0; sh_entsize := 0 |}.
Definition enc_null_shdr (is64 : bool) (e : endian) (l : layout) : bytes := enc_shdr is64 e (null_shdr l).
(** 170-180 [Sym]: the raw fields and the optional section index *)
Record wsym := { ws_section : option Z; ws_name : Z; ws_info : Z; ws_other : Z; ws_shndx : Z; ws_value : Z; ws_size : Z }.
(** 189-201 [Sym::from_raw] *)
Definition wsym_from_raw (s : sym) (section : option Z) : wsym :=
  {| ws_section := section; ws_name := st_name s; ws_info := st_info s; ws_other := st_other s; ws_shndx := st_shndx s;
     ws_value := st_value s; ws_size := st_size s |}.
(** 929-966 [symbol]: the bytes written and the extended index *)
Definition enc_sym (is64 : bool) (e : endian) (s : wsym) : bytes * option Z :=
  let shndx := match ws_section s with Some n => symsec_new n | None => ws_shndx s end in
  ((if is64 then write_u e 4 (ws_name s) ++ write_u e 1 (ws_info s) ++ write_u e 1 (ws_other s) ++ write_u e 2 shndx ++
      write_u e 8 (ws_value s) ++ write_u e 8 (ws_size s)
    else write_u e 4 (ws_name s) ++ write_u e 4 (wrap_u 32 (ws_value s)) ++ write_u e 4 (wrap_u 32 (ws_size s)) ++
      write_u e 1 (ws_info s) ++ write_u e 1 (ws_other s) ++ write_u e 2 shndx),
   if shndx =? SHN_XINDEX then Some (match ws_section s with Some n => n | None => 0 end) else None).
(** 913-919 [null_symbol] *)
Definition enc_null_sym (is64 : bool) : bytes := zeros (sym_size is64).
