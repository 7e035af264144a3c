(** Model of the unified ELF reader: src/read/elf/{file,section,segment,symbol,comdat,import,export}.rs, src/read/gnu_compression.rs and
    the compression types of src/read/mod.rs.  Definitions only.  The [compression] feature is on (the default of the [all] feature set).
    [slice::Iter] is the list of the remaining elements. *)
From Verif Require Export Note_model Ver_model ElfR_model Kind_model Coff_model.
From Verif Require Import Obj_model.
From Verif Require Export Str_model Elf_model.

(** src/constants.rs 741-743 [contains] *)
Definition has_flags (x f : Z) : bool := Z.land x f =? f.

(** * src/read/elf/file.rs 45-60 [ElfFile] *)
Record efile := { ef_raw : bytes; ef_endian : endian; ef_segments : list phdr; ef_sections : sectab; ef_relocs : list Z;
  ef_symbols : symtab; ef_dynsyms : symtab }.
(** 68-90 [parse] *)
Definition efile_parse (is64 : bool) (F : bytes) : out efile :=
  raw <- eh_parse is64 F ;;
  e <- eh_endian raw ;;
  ps <- program_headers is64 e raw F ;;
  t <- eh_sections is64 e raw F ;;
  sy <- stab_symbols is64 e F t SHT_SYMTAB ;;
  dy <- stab_symbols is64 e F t SHT_DYNSYM ;;
  r <- relsec_parse t (smt_section sy) ;;
  Ok {| ef_raw := raw; ef_endian := e; ef_segments := ps; ef_sections := t; ef_relocs := r; ef_symbols := sy; ef_dynsyms := dy |}.
(** src/common.rs 150-175 [ObjectKind] *)
Inductive fkind := FUnknown | FRelocatable | FExecutable | FDynamic | FCore.
(** 272-320 [architecture] *)
Definition ef_architecture (is64 : bool) (f : efile) : arch :=
  elf_architecture (e_machine (ef_endian f) (ef_raw f)) is64 (e_flags is64 (ef_endian f) (ef_raw f)).
(** 323-325 [is_little_endian]: [EI_DATA] is [ELFDATA2LSB] *)
Definition ef_little (f : efile) : bool := ei_data (ef_raw f) =? 1.
(** 332-341 [kind] *)
Definition ef_kind (f : efile) : fkind :=
  let t := e_type (ef_endian f) (ef_raw f) in
  if t =? 1 then FRelocatable else if t =? 2 then FExecutable else if t =? 3 then FDynamic else if t =? 4 then FCore else FUnknown.
(** 530-532 [entry] *)
Definition ef_entry (is64 : bool) (f : efile) : Z := e_entry is64 (ef_endian f) (ef_raw f).
(** 534-540 [flags] *)
Definition ef_flags (is64 : bool) (f : efile) : Z * Z * Z := (ei_osabi (ef_raw f), ei_abiversion (ef_raw f), e_flags is64 (ef_endian f) (ef_raw f)).

(** * Sections.  A section is its index and its header. *)
(** 358-365 [section_by_index] *)
Definition ef_section (f : efile) (index : Z) : out (Z * shdr) := s <- stab_section (ef_sections f) index ;; Ok (index, s).
(** 367-369 [sections], section.rs 388-392, 402-408: without the null section *)
Definition ef_all_sections (f : efile) : list (Z * shdr) := tl (enumerate (stab_sections (ef_sections f))).
(** section.rs 561-580 *)
Definition es_address (s : shdr) : Z := sh_addr s.
Definition es_size (s : shdr) : Z := sh_size s.
Definition es_align (s : shdr) : Z := sh_addralign s.
(** 500-504 [bytes], 581-583 [data] *)
Definition es_data (F : bytes) (s : shdr) : out bytes := sh_data s F.
(** 585-592 [data_range] *)
Definition es_data_range (F : bytes) (s : shdr) (address size : Z) : out (option bytes) :=
  d <- es_data F s ;; Ok (data_range d (es_address s) address size).
(** 608-612 [name_bytes] *)
Definition es_name (f : efile) (s : shdr) : out bytes := section_name (ef_sections f) s.
(** 631-676 [kind] *)
Definition es_kind (s : shdr) : skind :=
  let flags := sh_flags s in let ty := sh_type s in
  if ty =? 1 then
    if has_flags flags 2 then
      if has_flags flags 4 then SKText else if has_flags flags 1024 then SKTls else if has_flags flags 1 then SKData
      else if has_flags flags 32 then SKReadOnlyString else SKReadOnlyData
    else if has_flags flags 32 then SKOtherString else SKOther
  else if ty =? SHT_NOBITS then if has_flags flags 1024 then SKUninitializedTls else SKUninitializedData
  else if ty =? 7 then SKNote
  else if existsb (Z.eqb ty) [0; SHT_SYMTAB; SHT_STRTAB; SHT_RELA; 5; SHT_DYNAMIC; SHT_REL; SHT_DYNSYM; SHT_GROUP; SHT_SYMTAB_SHNDX; SHT_RELR; SHT_CREL]
  then SKMetadata else SKUnknown.
(** 690-695 [flags] *)
Definition es_flags (s : shdr) : sflags := SFElf (sh_type s) (sh_flags s).
(** 447-457 [elf_relocation_section_index] *)
Definition es_reloc_index (f : efile) (index : Z) : out (option Z) :=
  match relsec_get (ef_relocs f) index with
  | None => Ok None
  | Some r => match relsec_get (ef_relocs f) r with Some _ => Err | None => Ok (Some r) end
  end.
(** 463-468 [elf_relocation_section] *)
Definition es_reloc_section (f : efile) (index : Z) : out (option shdr) :=
  r <- es_reloc_index f index ;;
  match r with None => Ok None | Some r => h <- stab_section (ef_sections f) r ;; Ok (Some h) end.
(** [slice::starts_with] *)
Fixpoint starts_with (s p : bytes) {struct p} : bool :=
  match p, s with [], _ => true | x :: p, y :: s => (x =? y) && starts_with s p | _, [] => false end.
(** file.rs 171-183 [zdebug_section_by_name]; indexing panics if out of range *)
Definition zdebug_by_name (f : efile) (name : bytes) : out (option (Z * shdr)) :=
  if negb (starts_with name (str ".debug_")) then Ok None else
  rest <- unwrap (get_from name 7) ;; Ok (section_by_name (ef_sections f) (str ".zdebug_" ++ rest)).
(** 350-356 [section_by_name_bytes] *)
Definition ef_section_by_name (f : efile) (name : bytes) : out (option (Z * shdr)) :=
  match section_by_name (ef_sections f) name with Some x => Ok (Some x) | None => zdebug_by_name f name end.
(** 446-455 [has_debug_symbols] *)
Definition ef_has_debug (f : efile) : bool :=
  existsb (fun s => match section_name (ef_sections f) s with
                    | Ok name => bytes_eqb name (str ".debug_info") || bytes_eqb name (str ".zdebug_info")
                    | _ => false end) (stab_sections (ef_sections f)).

(** * Segments: segment.rs 84-140 ([ElfSegmentIterator] in 30-58 yields the [PT_LOAD] headers: [load_segments]) *)
(** 139-150 [permissions]: readable, writable, executable *)
Definition eg_permissions (p : phdr) : bool * bool * bool := (has_flags (p_flags p) 4, has_flags (p_flags p) 2, has_flags (p_flags p) 1).

(** * Compression *)
(** src/read/mod.rs 1217-1233 [CompressionFormat], 1238-1248 [CompressedFileRange] *)
Inductive cformat := CFNone | CFUnknown | CFZlib | CFZstd.
Record crange := { cg_format : cformat; cg_offset : Z; cg_size : Z; cg_uncompressed : Z }.
(** 1253-1269 [none] *)
Definition crange_none (r : option (Z * Z)) : crange :=
  match r with
  | Some (o, n) => {| cg_format := CFNone; cg_offset := o; cg_size := n; cg_uncompressed := n |}
  | None => {| cg_format := CFNone; cg_offset := 0; cg_size := 0; cg_uncompressed := 0 |}
  end.
(** 1272-1281 [data]: format, data, uncompressed size *)
Definition crange_data (F : bytes) (c : crange) : out (cformat * bytes * Z) :=
  d <- rr_read_bytes_at F (cg_offset c) (cg_size c) ;; Ok (cg_format c, d, cg_uncompressed c).
(** src/elf.rs 1196-1232: sizes of [CompressionHeader32] and [64] *)
Definition chdr_size (is64 : bool) : Z := if is64 then 24 else 12.
(** section.rs 1176-1201 [compression]: the type and size of the header, offset and size of the data *)
Definition sh_compression (is64 : bool) (e : endian) (F : bytes) (s : shdr) : out (option (Z * Z * Z * Z)) :=
  if negb (has_flags (sh_flags s) 2048) then Ok None else
  ' (so, ss) <- of_opt (sh_file_range s) ;;
  let '(h, off) := rr_read F so (chdr_size is64) in
  h <- h ;;
  used <- psub off so ;;
  n <- of_opt (csub ss used) ;;
  Ok (Some (fld e 0 4 h, (if is64 then fld e 8 8 h else fld e 4 4 h), off, n)).
(** 506-526 [maybe_compressed] *)
Definition es_maybe_compressed (is64 : bool) (e : endian) (F : bytes) (s : shdr) : out (option crange) :=
  c <- sh_compression is64 e F s ;;
  match c with
  | Some (ty, size, off, n) =>
    fmt <- (if ty =? 1 then Ok CFZlib else if ty =? 2 then Ok CFZstd else Err) ;;
    Ok (Some {| cg_format := fmt; cg_offset := off; cg_size := n; cg_uncompressed := size |})
  | None => Ok None
  end.
(** src/read/gnu_compression.rs 7-36 [compressed_file_range] *)
Definition gnu_compressed (F : bytes) (so ss : Z) : out crange :=
  let '(h, off) := rr_read_bytes F so 8 in
  h <- h ;;
  if negb (bytes_eqb h [90; 76; 73; 66; 0; 0; 0; 0]) then Err else
  let '(u, off) := rr_read F off 4 in
  u <- u ;;
  used <- psub off so ;;
  n <- of_opt (csub ss used) ;;
  Ok {| cg_format := CFZlib; cg_offset := off; cg_size := n; cg_uncompressed := read_u Big u |}.
(** [str::from_utf8] succeeds (Unicode, table 3-7) *)
Definition utf8_cont (lo hi y : Z) : bool := (lo <=? y) && (y <=? hi).
Fixpoint utf8_valid (b : bytes) : bool :=
  match b with
  | [] => true
  | x :: r =>
    if x <? 128 then utf8_valid r
    else if utf8_cont 194 223 x then
      match r with y :: r => utf8_cont 128 191 y && utf8_valid r | _ => false end
    else if utf8_cont 224 239 x then
      match r with
      | y :: z :: r => utf8_cont (if x =? 224 then 160 else 128) (if x =? 237 then 159 else 191) y && utf8_cont 128 191 z && utf8_valid r
      | _ => false end
    else if utf8_cont 240 244 x then
      match r with
      | y :: z :: w :: r => utf8_cont (if x =? 240 then 144 else 128) (if x =? 244 then 143 else 191) y && utf8_cont 128 191 z && utf8_cont 128 191 w && utf8_valid r
      | _ => false end
    else false
  end.
(** section.rs 614-619, symbol.rs 372-377 [name] as a [str] *)
Definition to_str (name : out bytes) : out bytes := n <- name ;; if utf8_valid n then Ok n else Err.
(** 529-538 [maybe_compressed_gnu] *)
Definition es_maybe_gnu (f : efile) (F : bytes) (s : shdr) : out (option crange) :=
  match to_str (es_name f s) with
  | Panic => Panic
  | Err => Ok None
  | Ok name => if negb (starts_with name (str ".zdebug_")) then Ok None else
    ' (so, ss) <- of_opt (sh_file_range s) ;;
    c <- gnu_compressed F so ss ;; Ok (Some c)
  end.
(** 594-602 [compressed_file_range] *)
Definition es_compressed_range (is64 : bool) (f : efile) (F : bytes) (s : shdr) : out crange :=
  c <- es_maybe_compressed is64 (ef_endian f) F s ;;
  match c with
  | Some c => Ok c
  | None => c <- es_maybe_gnu f F s ;; match c with Some c => Ok c | None => Ok (crange_none (sh_file_range s)) end
  end.
(** 604-606 [compressed_data] *)
Definition es_compressed_data (is64 : bool) (f : efile) (F : bytes) (s : shdr) : out (cformat * bytes * Z) :=
  c <- es_compressed_range is64 f F s ;; crange_data F c.

(** * Symbols: symbol.rs.  A symbol is its table, index and entry. *)
(** file.rs 375-383 and symbol.rs 253-261 [symbol_by_index] *)
Definition ef_symbol (t : symtab) (index : Z) : out (Z * sym) := s <- symtab_symbol t index ;; Ok (index, s).
(** symbol.rs 280-289 [ElfSymbolIterator::new] starts at 1; 303-315 [next] *)
Definition esym_next (t : symtab) (index : Z) : out (option (Z * sym)) * Z :=
  match zget (smt_symbols t) index with None => (Ok None, index) | Some s => (Ok (Some (index, s)), index + 1) end.
(** src/elf.rs 1372-1375 [st_bind], 1378-1381 [st_type] of [SymbolInfo]; 1580-1582 [visibility] *)
Definition st_bind (s : sym) : Z := Z.shiftr (st_info s) 4.
Definition st_type (s : sym) : Z := Z.land (st_info s) 15.
Definition st_visibility (s : sym) : Z := Z.land (st_other s) 3.
Definition shn_special (n : Z) : bool := (n =? 0) || (SHN_LORESERVE <=? n).
(** 519-521 [is_common], 523-526 [is_absolute], 529-536 [is_local], [is_weak] *)
Definition ey_common (s : sym) : bool := st_shndx s =? 65522.
Definition ey_local (s : sym) : bool := st_bind s =? 0.
Definition ey_weak (s : sym) : bool := st_bind s =? 2.
(** 379-386 [address], 388-391 [size] *)
Definition ey_address (s : sym) : Z := if ey_common s then 0 else st_value s.
Definition ey_size (s : sym) : Z := st_size s.
(** 393-403 [kind] *)
Definition ey_kind (s : sym) : symkind :=
  let t := st_type s in
  if t =? 0 then YUnknown else if (t =? 1) || (t =? 5) then YData else if (t =? 2) || (t =? 10) then YText else if t =? 3 then YSection
  else if t =? 4 then YFile else if t =? 6 then YTls else YUnknown.
(** 405-430 [section] *)
Definition ey_section (t : symtab) (index : Z) (s : sym) : rsec :=
  let n := st_shndx s in
  if n =? 0 then RUndefined
  else if n =? 65521 then if st_type s =? 4 then RNone else RAbsolute
  else if n =? 65522 then RCommon
  else if n =? SHN_XINDEX then
    match symtab_shndx t index with Some i => if i =? 0 then RNone else RSection i | None => RUnknown end
  else match symsec_index n with Some i => RSection i | None => RUnknown end.
(** 493-517 [is_definition] *)
Definition ey_definition (t : symtab) (s : sym) : bool :=
  let n := st_shndx s in
  if shn_special n && negb (n =? SHN_XINDEX) then false else
  if (st_type s =? 0) && (st_bind s =? 0) then
    match symbol_name t s with Ok name => negb (starts_with name [36]) | _ => true end
  else (st_type s =? 2) || (st_type s =? 1) || (st_type s =? 0).
(** 455-471 [scope] *)
Definition ey_scope (s : sym) : scope :=
  if st_shndx s =? 0 then ScUnknown
  else if st_bind s =? 0 then ScCompilation
  else if (st_bind s =? 1) || (st_bind s =? 2) then if st_visibility s =? 2 then ScLinkage else ScDynamic
  else ScUnknown.
(** 484-489 [flags] *)
Definition ey_flags (s : sym) : Z * Z := (st_info s, st_other s).

(** * COMDAT groups: comdat.rs.  A group is its header and section indices. *)
(** 84-97 [ElfComdat::parse] *)
Definition comdat_parse (e : endian) (F : bytes) (s : shdr) : out (option (shdr * list Z)) :=
  match sh_group e F s with
  | Ok (Some (flag, l)) => Ok (if has_flags flag 1 then Some (s, l) else None)
  | Ok None | Err => Ok None
  | Panic => Panic
  end.
(** 50-57 [next]; 35-41 [new] skips the null section: the state is the remaining headers *)
Fixpoint comdat_next (e : endian) (F : bytes) (l : list shdr) : out (option (shdr * list Z)) * list shdr :=
  match l with
  | [] => (Ok None, [])
  | s :: l => match comdat_parse e F s with
              | Ok (Some c) => (Ok (Some c), l)
              | Ok None => comdat_next e F l
              | Err => (Err, l) | Panic => (Panic, l)
              end
  end.
Definition ef_comdats (f : efile) : list shdr := tl (stab_sections (ef_sections f)).
(** 127-130 [symbol], 132-137 [name_bytes] *)
Definition comdat_symbol (c : shdr * list Z) : Z := sh_info (fst c).
Definition comdat_name (f : efile) (c : shdr * list Z) : out bytes :=
  s <- symtab_symbol (ef_symbols f) (comdat_symbol c) ;; symbol_name (ef_symbols f) s.

(** * Build id and debug links: file.rs *)
(** 463-470: the [while let Some(note)] loop over one note section, with the fuel of [Ver_model] *)
Fixpoint find_build_id (fuel : nat) (e : endian) (al : Z) (data : bytes) : out (option bytes) :=
  match fuel with
  | O => Panic
  | Datatypes.S fuel =>
    match note_next e al data with
    | (Ok None, _) => Ok None
    | (Ok (Some n), data) => if bytes_eqb (note_name n) (str "GNU") && (n_type e n =? 3) then Ok (Some (nt_desc n)) else find_build_id fuel e al data
    | (Err, _) => Err
    | (Panic, _) => Panic
    end
  end.
(** section.rs 952-966 and segment.rs 262-275 [notes], with the loop *)
Definition build_id_in (e : endian) (isnote : bool) (d : out bytes) (al : Z) : out (option bytes) :=
  if negb isnote then Ok None else
  d <- d ;; al <- note_align al ;; find_build_id (fuel_of d) e al d.
(** [for section in self.sections.iter() { if let Some(x) = f(section)? { return Ok(Some(x)) } }] *)
Fixpoint first_found {A B} (f : A -> out (option B)) (l : list A) : out (option B) :=
  match l with
  | [] => Ok None
  | x :: l => r <- f x ;; match r with Some y => Ok (Some y) | None => first_found f l end
  end.
(** 457-486 [build_id] *)
Definition ef_build_id (f : efile) (F : bytes) : out (option bytes) :=
  match stab_sections (ef_sections f) with
  | [] => first_found (fun p => build_id_in (ef_endian f) (p_type p =? 4) (ph_data p F) (p_align p)) (ef_segments f)
  | l => first_found (fun s => build_id_in (ef_endian f) (sh_type s =? 7) (sh_data s F) (sh_addralign s)) l
  end.
(** 488-507 [gnu_debuglink] *)
Definition ef_debuglink (f : efile) (F : bytes) : out (option (bytes * Z)) :=
  match section_by_name (ef_sections f) (str ".gnu_debuglink") with
  | None => Ok None
  | Some (_, s) =>
    d <- sh_data s F ;;
    filename <- b_read_string_at d 0 ;;
    n <- padd 64 (zlen filename) 1 ;;
    off <- align 64 n 4 ;;
    crc <- b_read_at d off 4 ;;
    Ok (Some (filename, read_u (ef_endian f) crc))
  end.
(** 509-524 [gnu_debugaltlink] *)
Definition ef_debugaltlink (f : efile) (F : bytes) : out (option (bytes * bytes)) :=
  match section_by_name (ef_sections f) (str ".gnu_debugaltlink") with
  | None => Ok None
  | Some (_, s) =>
    d <- sh_data s F ;;
    match b_read_string d with
    | (Ok filename, rest) => Ok (Some (filename, rest))
    | (Err, _) => Err | (Panic, _) => Panic
    end
  end.

(** * Versions: section.rs 292-362, 1079-1140 *)
Definition SHT_GNU_VERDEF := 1879048189. Definition SHT_GNU_VERNEED := 1879048190. Definition SHT_GNU_VERSYM := 1879048191.
(** 1079-1091 and 293-303 [gnu_versym] *)
Definition sh_versym (e : endian) (F : bytes) (s : shdr) : out (option (list Z * Z)) :=
  if negb (sh_type s =? SHT_GNU_VERSYM) then Ok None else a <- sh_data_as_array 2 s F ;; Ok (Some (map (read_u e) a, sh_link s)).
(** 1099-1137 and 312-341 [gnu_verdef], [gnu_verneed]: the data of the iterator; the link is not used *)
Definition sh_verdata (ty : Z) (F : bytes) (s : shdr) : out (option bytes) :=
  if negb (sh_type s =? ty) then Ok None else d <- sh_data s F ;; Ok (Some d).
(** 348-362 [versions] *)
Definition ef_versions (is64 : bool) (f : efile) (F : bytes) : out (option vtable) :=
  let t := ef_sections f in let e := ef_endian f in
  v <- first_found (sh_versym e F) (stab_sections t) ;;
  match v with
  | None => Ok None
  | Some (versyms, link) =>
    st <- symtab_by_index is64 e F t link ;;
    defs <- first_found (sh_verdata SHT_GNU_VERDEF F) (stab_sections t) ;;
    needs <- first_found (sh_verdata SHT_GNU_VERNEED F) (stab_sections t) ;;
    v <- vt_parse e versyms defs needs (stb_get (smt_strings st)) ;; Ok (Some v)
  end.

(** * Imports and exports *)
(** src/read/mod.rs [Import] with [ImportFlags::Elf]; [None] for no version *)
Record import := { im_library : bytes; im_name : bytes; im_weak : bool; im_info : Z; im_other : Z; im_version : option bytes }.
(** import.rs 131-166 [ElfImportIterator::next]; the state is the index; [fuel] bounds the [loop] by the number of symbols *)
Fixpoint import_loop (fuel : nat) (v : option vtable) (t : symtab) (index : Z) : out (option import) * Z :=
  match zget (smt_symbols t) index with
  | None => (Ok None, index)
  | Some s =>
    match fuel with
    | O => (Panic, index)
    | Datatypes.S fuel =>
      if negb (sym_undefined s) then import_loop fuel v t (index + 1) else
      match symbol_name t s with
      | Err => (Err, index + 1) | Panic => (Panic, index + 1)
      | Ok [] => import_loop fuel v t (index + 1)
      | Ok name =>
        (version <- match v with Some v => vt_version v (versym_index (vt_version_index v index)) | None => Ok None end ;;
         Ok (Some {| im_library := match version with Some x => match v_file x with Some l => l | None => [] end | None => [] end;
                     im_name := name; im_weak := st_bind s =? 2; im_info := st_info s; im_other := st_other s;
                     im_version := option_map v_name version |}), index + 1)
      end
    end
  end.
Definition import_next (v : option vtable) (t : symtab) (index : Z) := import_loop (length (smt_symbols t)) v t index.
(** src/read/mod.rs [ExportTarget] as used for ELF; [Export] with [ExportFlags::Elf] *)
Inductive xtarget := XAbsolute (value : Z) | XAddress (address : Z) | XTls (offset : Z) | XResolver (resolver : Z).
Record export := { ex_name : bytes; ex_target : xtarget; ex_weak : bool; ex_info : Z; ex_other : Z; ex_version : option bytes; ex_hidden : bool }.
(** export.rs 53-60, 62-76: the target, or [None] for a symbol that is skipped *)
Definition export_target (s : sym) : option xtarget :=
  if ey_local s then None else
  let n := st_shndx s in
  if shn_special n && negb (n =? 65521) && negb (n =? SHN_XINDEX) then None else
  let t := st_type s in
  if (t =? 0) || (t =? 1) || (t =? 2) then Some (if n =? 65521 then XAbsolute (st_value s) else XAddress (st_value s))
  else if t =? 6 then Some (XTls (st_value s))
  else if t =? 10 then Some (XResolver (st_value s))
  else None.
(** 42-99 [ElfExportIterator::next] *)
Fixpoint export_loop (fuel : nat) (v : option vtable) (t : symtab) (index : Z) : out (option export) * Z :=
  match zget (smt_symbols t) index with
  | None => (Ok None, index)
  | Some s =>
    match fuel with
    | O => (Panic, index)
    | Datatypes.S fuel =>
      match export_target s with
      | None => export_loop fuel v t (index + 1)
      | Some target =>
        (name <- symbol_name t s ;;
         ' (version, hidden) <- match v with
           | Some v => let vi := vt_version_index v index in x <- vt_version v (versym_index vi) ;; Ok (option_map v_name x, versym_is_hidden vi)
           | None => Ok (None, false)
           end ;;
         Ok (Some {| ex_name := name; ex_target := target; ex_weak := st_bind s =? 2; ex_info := st_info s; ex_other := st_other s;
                     ex_version := version; ex_hidden := hidden |}), index + 1)
      end
    end
  end.
Definition export_next (v : option vtable) (t : symtab) (index : Z) := export_loop (length (smt_symbols t)) v t index.
