(** Model of the COFF reader: src/read/coff/{file,section,symbol,comdat,relocation}.rs.  Definitions only.
    [big] selects the bigobj variant.  All fields are little-endian. *)
From Verif Require Export Iter_model Hash_model Enum_model.

(** src/pe.rs 335, 815, 933, 951, 1270 and the sizes of the structs *)
Definition coff_header_size (big : bool) : Z := if big then 56 else 20.
Definition coff_sec_size := 40.
Definition coff_sym_size (big : bool) : Z := if big then 20 else 18.
Definition coff_rel_size := 10.

(** src/pe.rs 979-990, 1096-1150, 834-915, 1235-1250: constants *)
Definition IMAGE_SYM_SECTION_MAX := 65279.
Definition IMAGE_SYM_UNDEFINED := 0.
Definition IMAGE_SYM_ABSOLUTE := -1.
Definition IMAGE_SYM_DEBUG := -2.
Definition CLASS_EXTERNAL := 2.
Definition CLASS_STATIC := 3.
Definition CLASS_LABEL := 6.
Definition CLASS_FILE := 103.
Definition CLASS_SECTION := 104.
Definition CLASS_WEAK := 105.
Definition DTYPE_FUNCTION := 2.
Definition SELECT_ASSOCIATIVE := 5.
Definition SCN_CODE := 32.
Definition SCN_INIT := 64.
Definition SCN_UNINIT := 128.
Definition SCN_INFO := 512.
Definition SCN_REMOVE := 2048.
Definition SCN_COMDAT := 4096.
Definition SCN_ALIGN_MASK := 15728640.
Definition SCN_OVFL := 16777216.
Definition SCN_DISCARDABLE := 33554432.
Definition SCN_EXECUTE := 536870912.
Definition SCN_READ := 1073741824.
Definition SCN_WRITE := 2147483648.
(** src/pe.rs 759-761 *)
Definition BIGOBJ_CLASS : bytes := [199; 161; 186; 209; 238; 186; 169; 75; 175; 32; 250; 246; 106; 164; 220; 184].
(** flags: [contains] and [intersects] *)
Definition fl_has (v m : Z) : bool := Z.land v m =? m.
Definition fl_any (v m : Z) : bool := negb (Z.land v m =? 0).

(** * Headers: src/pe.rs 325-333, 765-795 *)
(** src/read/coff/file.rs 370-388, 415-433 (accessors on the header bytes) *)
Definition ch_machine (big : bool) (h : bytes) : Z := if big then fld Little 6 2 h else fld Little 0 2 h.
Definition ch_nsections (big : bool) (h : bytes) : Z := if big then fld Little 44 4 h else fld Little 2 2 h.
Definition ch_symptr (big : bool) (h : bytes) : Z := if big then fld Little 48 4 h else fld Little 8 4 h.
Definition ch_nsyms (big : bool) (h : bytes) : Z := if big then fld Little 52 4 h else fld Little 12 4 h.
Definition ch_opt (h : bytes) : Z := fld Little 16 2 h.
Definition ch_flags (big : bool) (h : bytes) : Z := if big then 0 else fld Little 18 2 h.
(** 390-403, 435-450 [CoffHeader::parse]: the header and the offset of the section table *)
Definition coff_header_parse (big : bool) (data : bytes) : out (bytes * Z) :=
  match rr_read data 0 (coff_header_size big) with
  | (Ok h, o) =>
    if big then
      if negb (fld Little 0 2 h =? 0) || negb (fld Little 2 2 h =? 65535) || (fld Little 4 2 h <? 2) ||
         negb (bytes_eqb (zslice 12 16 h) BIGOBJ_CLASS) then Err
      else Ok (h, o)
    else o' <- of_opt (cadd 64 o (ch_opt h)) ;; Ok (h, o')
  | (Err, _) => Err
  | (Panic, _) => Panic
  end.

(** * Sections: src/pe.rs 802-813 *)
Record csec := { c_name : bytes; c_vsize : Z; c_vaddr : Z; c_rawsize : Z; c_rawptr : Z; c_relptr : Z; c_lnptr : Z; c_nrel : Z;
  c_nln : Z; c_flags : Z }.
Definition csec_of (b : bytes) : csec :=
  {| c_name := zslice 0 8 b; c_vsize := fld Little 8 4 b; c_vaddr := fld Little 12 4 b; c_rawsize := fld Little 16 4 b;
     c_rawptr := fld Little 20 4 b; c_relptr := fld Little 24 4 b; c_lnptr := fld Little 28 4 b; c_nrel := fld Little 32 2 b;
     c_nln := fld Little 34 2 b; c_flags := fld Little 36 4 b |}.
(** src/read/coff/section.rs 29-38 [SectionTable::parse] *)
Definition coff_sections_parse (big : bool) (h data : bytes) (offset : Z) : out (list csec) :=
  l <- rr_read_slice_at data offset coff_sec_size (ch_nsections big h) ;; Ok (map csec_of l).
(** 73-77 [section]: 1-based; index 0 wraps to usize::MAX *)
Definition coff_section (t : list csec) (index : Z) : out csec := of_opt (zget t (wrap_u 64 (index - 1))).

(** 478-490: one base-64 digit *)
Definition digit64 (b : Z) : option Z :=
  if (65 <=? b) && (b <=? 90) then Some (b - 65)
  else if (97 <=? b) && (b <=? 122) then Some (b - 97 + 26)
  else if (48 <=? b) && (b <=? 57) then Some (b - 48 + 52)
  else if b =? 43 then Some 62
  else if b =? 47 then Some 63
  else None.
Fixpoint off64 (l : bytes) (offset : Z) : out Z :=
  match l with
  | [] => Ok offset
  | b :: l => match digit64 b with Some d => off64 l (offset * 64 + d) | None => Err end
  end.
(** 495-504: decimal digits up to a null byte, in u32 arithmetic *)
Fixpoint off10 (l : bytes) (offset : Z) : out Z :=
  match l with
  | [] => Ok offset
  | b :: l =>
    if (48 <=? b) && (b <=? 57) then x <- pmul 32 offset 10 ;; y <- padd 32 x (b - 48) ;; off10 l y
    else if b =? 0 then Ok offset else Err
  end.
(** 469-506 [name_offset]; the name has 8 bytes *)
Definition coff_name_offset (s : csec) : out (option Z) :=
  let bytes := c_name s in
  b0 <- unwrap (zget bytes 0) ;;
  if negb (b0 =? 47) then Ok None else
  b1 <- unwrap (zget bytes 1) ;;
  if b1 =? 47 then
    o <- off64 (zdrop 2 bytes) 0 ;;
    if o <? 2 ^ 32 then Ok (Some o) else Err
  else o <- off10 (zdrop 1 bytes) 0 ;; Ok (Some o).
(** bytes up to the first null byte, or all *)
Definition until_null (b : bytes) : bytes := match memchr 0 b with Some n => ztake n b | None => b end.
(** 523-529 [raw_name] *)
Definition coff_raw_name (s : csec) : bytes := until_null (c_name s).
(** src/read/util.rs [StringTable]: the data ([None] for the default table), start and end *)
Definition strings := (option bytes * Z * Z)%type.
Definition strings_get (t : strings) (offset : Z) : out bytes := let '(d, a, b) := t in strtab_get d a b offset.
(** 509-520 [name] *)
Definition coff_section_name (t : strings) (s : csec) : out bytes :=
  o <- coff_name_offset s ;;
  match o with Some o => strings_get t o | None => Ok (coff_raw_name s) end.
(** 534-547 [coff_file_range] *)
Definition coff_file_range (s : csec) : option (Z * Z) :=
  if fl_has (c_flags s) SCN_UNINIT then None else Some (c_rawptr s, c_rawsize s).
(** 553-559 [coff_data] *)
Definition coff_data (data : bytes) (s : csec) : out bytes :=
  match coff_file_range s with Some (o, n) => rr_read_bytes_at data o n | None => Ok [] end.
(** 564-582 [coff_alignment] *)
Definition coff_alignment (s : csec) : Z :=
  let a := Z.land (c_flags s) SCN_ALIGN_MASK in
  let k := Z.shiftr a 20 in
  if (1 <=? k) && (k <=? 14) then 2 ^ (k - 1) else 16.
(** src/pe.rs 1270-1276 [ImageRelocation]: offset, symbol, type *)
Record crel := { cr_va : Z; cr_sym : Z; cr_typ : Z }.
Definition crel_of (b : bytes) : crel := {| cr_va := fld Little 0 4 b; cr_sym := fld Little 4 4 b; cr_typ := fld Little 8 2 b |}.
(** 587-616 [coff_relocations] *)
Definition coff_relocations (data : bytes) (s : csec) : out (list crel) :=
  ' (pointer, number) <- (if (c_nrel s =? 65535) && fl_has (c_flags s) SCN_OVFL then
      b <- rr_read_at data (c_relptr s) coff_rel_size ;;
      let number := fld Little 0 4 b in
      if number =? 0 then Err else
      p <- padd 64 (c_relptr s) coff_rel_size ;;
      n <- psub number 1 ;; Ok (p, n)
    else Ok (c_relptr s, c_nrel s)) ;;
  l <- rr_read_slice_at data pointer coff_rel_size number ;; Ok (map crel_of l).
(** 442-463 [kind] *)
Definition coff_section_kind (s : csec) : skind :=
  let c := c_flags s in
  if fl_any c (Z.lor SCN_CODE SCN_EXECUTE) then SKText
  else if fl_has c SCN_INIT then
    if fl_has c SCN_DISCARDABLE then SKOther else if fl_has c SCN_WRITE then SKData else SKReadOnlyData
  else if fl_has c SCN_UNINIT then SKUninitializedData
  else if fl_has c SCN_INFO then SKLinker
  else SKUnknown.

(** * Symbols: src/pe.rs 923-931, 941-949; accessors src/read/coff/symbol.rs 650-696 *)
Record csym := { y_name : bytes; y_value : Z; y_secnum : Z; y_typ : Z; y_class : Z; y_naux : Z }.
Definition csym_of (big : bool) (b : bytes) : csym :=
  if big then {| y_name := zslice 0 8 b; y_value := fld Little 8 4 b; y_secnum := read_i Little (zslice 12 4 b); y_typ := fld Little 16 2 b;
                 y_class := fld Little 18 1 b; y_naux := fld Little 19 1 b |}
  else {| y_name := zslice 0 8 b; y_value := fld Little 8 4 b;
          y_secnum := (let n := fld Little 12 2 b in if IMAGE_SYM_SECTION_MAX <? n then wrap_s 16 n else n);
          y_typ := fld Little 14 2 b; y_class := fld Little 16 1 b; y_naux := fld Little 17 1 b |}.
(** 27-31 [SymbolTable] *)
Record csymtab := { ct_big : bool; ct_entries : list bytes; ct_strings : strings }.
(** 44-68 [SymbolTable::parse] *)
Definition coff_symbols_parse (big : bool) (h data : bytes) : out csymtab :=
  let offset := ch_symptr big h in
  if offset =? 0 then Ok {| ct_big := big; ct_entries := []; ct_strings := (None, 0, 0) |} else
  match rr_read_slice data offset (coff_sym_size big) (ch_nsyms big h) with
  | (Ok l, offset) =>
    b <- rr_read_at data offset 4 ;;
    e <- of_opt (cadd 64 offset (fld Little 0 4 b)) ;;
    Ok {| ct_big := big; ct_entries := l; ct_strings := (Some data, offset, e) |}
  | (Err, _) => Err
  | (Panic, _) => Panic
  end.
(** 148-157 [get], for a type of [size] bytes: the bytes of the value *)
Definition coff_get (t : csymtab) (index offset size : Z) : out bytes :=
  x <- of_opt (cadd 64 index offset) ;;
  b <- of_opt (zget (ct_entries t) x) ;;
  fst (b_read b size).
(** 101-103 [symbol] *)
Definition coff_symbol (t : csymtab) (index : Z) : out csym :=
  b <- coff_get t index 0 (coff_sym_size (ct_big t)) ;; Ok (csym_of (ct_big t) b).
(** src/pe.rs 1205-1222 [ImageAuxSymbolSection] *)
Record caux := { x_length : Z; x_nrel : Z; x_nln : Z; x_sum : Z; x_number : Z; x_sel : Z; x_high : Z }.
Definition caux_of (b : bytes) : caux :=
  {| x_length := fld Little 0 4 b; x_nrel := fld Little 4 2 b; x_nln := fld Little 6 2 b; x_sum := fld Little 8 4 b;
     x_number := fld Little 12 2 b; x_sel := fld Little 14 1 b; x_high := fld Little 16 2 b |}.
(** 117-119 [aux_section] *)
Definition coff_aux_section (t : csymtab) (index : Z) : out caux := b <- coff_get t index 1 18 ;; Ok (caux_of b).
(** 109-111 [aux_function]: its [total_size] (src/pe.rs 1166-1172) *)
Definition coff_aux_function (t : csymtab) (index : Z) : out Z := b <- coff_get t index 1 18 ;; Ok (fld Little 4 4 b).
(** 125-127 [aux_weak_external] (src/pe.rs 1193-1197): default symbol and search type *)
Definition coff_aux_weak (t : csymtab) (index : Z) : out (Z * Z) := b <- coff_get t index 1 8 ;; Ok (fld Little 0 4 b, fld Little 4 4 b).
(** 132-145 [aux_file_name] *)
Definition coff_aux_file_name (t : csymtab) (index aux_count : Z) : out bytes :=
  a <- of_opt (cadd 64 index 1) ;;
  b <- of_opt (cadd 64 a aux_count) ;;
  l <- of_opt (get_range (ct_entries t) a b) ;;
  Ok (until_null (concat l)).
(** 549-567 [Symbol::name] *)
Definition coff_symbol_name (t : strings) (y : csym) : out bytes :=
  b0 <- unwrap (zget (y_name y) 0) ;;
  if b0 =? 0 then strings_get t (read_u Little (zslice 4 4 (y_name y))) else Ok (until_null (y_name y)).
(** src/pe.rs 1014-1016 [derived_type] *)
Definition derived_type (typ : Z) : Z := Z.shiftr (Z.land typ 48) 4.
(** 612-636 [has_aux_*] *)
Definition has_aux_file_name (y : csym) : bool := (0 <? y_naux y) && (y_class y =? CLASS_FILE).
Definition has_aux_function (y : csym) : bool :=
  (0 <? y_naux y) && (derived_type (y_typ y) =? DTYPE_FUNCTION) && ((y_class y =? CLASS_EXTERNAL) || (y_class y =? CLASS_STATIC)).
Definition has_aux_section (y : csym) : bool := (0 <? y_naux y) && (y_class y =? CLASS_STATIC) && (y_typ y =? 0).
Definition has_aux_weak (y : csym) : bool :=
  (0 <? y_naux y) && (y_class y =? CLASS_WEAK) && (y_secnum y =? IMAGE_SYM_UNDEFINED) && (y_value y =? 0).
(** src/pe.rs 969-975 [SymbolSection::index] *)
Definition secnum_index (n : Z) : option Z := if 0 <? n then Some n else None.

(** * Files: src/read/coff/file.rs 21-63 *)
Record cfile := { cf_big : bool; cf_header : bytes; cf_sections : list csec; cf_symbols : csymtab; cf_data : bytes }.
(** 50-65 [CoffFile::parse] *)
Definition coff_parse (big : bool) (data : bytes) : out cfile :=
  ' (h, offset) <- coff_header_parse big data ;;
  s <- coff_sections_parse big h data offset ;;
  y <- coff_symbols_parse big h data ;;
  Ok {| cf_big := big; cf_header := h; cf_sections := s; cf_symbols := y; cf_data := data |}.
(** section.rs 395-397 [CoffSection::name_bytes] *)
Definition cs_name (f : cfile) (s : csec) : out bytes := coff_section_name (ct_strings (cf_symbols f)) s.

(** symbol.rs 291-301 [CoffSymbolIterator::next] (192-201 [SymbolIterator::next] is the same): the index is the state *)
Definition coff_sym_next (t : csymtab) (index : Z) : out (option (Z * csym)) * Z :=
  match coff_symbol t index with
  | Ok y => match padd 64 index (1 + y_naux y) with Ok i => (Ok (Some (index, y)), i) | _ => (Panic, index) end
  | Err => (Ok None, index)
  | Panic => (Panic, index)
  end.

(** src/common.rs [SymbolFlags] as the reader gives them *)
Inductive cflags := CFCoff (typ class : Z) | CFSection (typ class selection : Z) (associative : option Z).
(** src/read/traits.rs [SymbolSection] *)
Inductive rsec := RUnknown | RNone | RUndefined | RAbsolute | RCommon | RSection (i : Z).
(** symbol.rs 350-358 [name_bytes] *)
Definition cy_name (f : cfile) (index : Z) (y : csym) : out bytes :=
  if has_aux_file_name y then coff_aux_file_name (cf_symbols f) index (y_naux y) else coff_symbol_name (ct_strings (cf_symbols f)) y.
(** 573-590 [Symbol::address] and 367-372 [address]; the image base of an object file is 0 *)
Definition coff_address (image_base : Z) (t : list csec) (y : csym) : out (option Z) :=
  if (y_class y =? CLASS_STATIC) || (y_class y =? CLASS_WEAK) || (y_class y =? CLASS_LABEL) || (y_class y =? CLASS_EXTERNAL) then
    match secnum_index (y_secnum y) with
    | None => Ok None
    | Some i => s <- coff_section t i ;; Ok (Some (wrap_u 64 (wrap_u 64 (image_base + c_vaddr s) + y_value y)))
    end
  else Ok None.
Definition cy_address (f : cfile) (y : csym) : Z := match coff_address 0 (cf_sections f) y with Ok (Some a) => a | _ => 0 end.
(** 374-407 [size] *)
Definition cy_size (f : cfile) (index : Z) (y : csym) : Z :=
  if y_class y =? CLASS_STATIC then
    if has_aux_section y then match coff_aux_section (cf_symbols f) index with Ok a => x_length a | _ => 0 end else 0
  else if y_class y =? CLASS_EXTERNAL then
    if y_secnum y =? IMAGE_SYM_UNDEFINED then y_value y
    else if has_aux_function y then match coff_aux_function (cf_symbols f) index with Ok n => n | _ => 0 end else 0
  else 0.
(** 409-429 [kind] *)
Definition cy_kind (y : csym) : symkind :=
  let derived := if derived_type (y_typ y) =? DTYPE_FUNCTION then YText else YData in
  if y_class y =? CLASS_STATIC then if has_aux_section y then YSection else derived
  else if (y_class y =? CLASS_EXTERNAL) || (y_class y =? CLASS_WEAK) then derived
  else if y_class y =? CLASS_SECTION then YSection
  else if y_class y =? CLASS_FILE then YFile
  else if y_class y =? CLASS_LABEL then YLabel
  else YUnknown.
(** 431-459 [section] *)
Definition cy_section (y : csym) : rsec :=
  if y_secnum y =? IMAGE_SYM_UNDEFINED then
    if y_class y =? CLASS_EXTERNAL then if y_value y =? 0 then RUndefined else RCommon
    else if y_class y =? CLASS_SECTION then RUndefined else RUnknown
  else if y_secnum y =? IMAGE_SYM_ABSOLUTE then RAbsolute
  else if y_secnum y =? IMAGE_SYM_DEBUG then if y_class y =? CLASS_FILE then RNone else RUnknown
  else match secnum_index (y_secnum y) with Some i => RSection i | None => RUnknown end.
(** 461-507 *)
Definition cy_is_undefined (y : csym) : bool := (y_class y =? CLASS_EXTERNAL) && (y_secnum y =? IMAGE_SYM_UNDEFINED) && (y_value y =? 0).
Definition cy_is_common (y : csym) : bool := (y_class y =? CLASS_EXTERNAL) && (y_secnum y =? IMAGE_SYM_UNDEFINED) && negb (y_value y =? 0).
Definition cy_is_weak (y : csym) : bool := y_class y =? CLASS_WEAK.
Definition cy_is_global (y : csym) : bool := (y_class y =? CLASS_EXTERNAL) || (y_class y =? CLASS_WEAK).
Definition cy_is_local (y : csym) : bool := negb (cy_is_global y).
Definition cy_scope (y : csym) : scope := if cy_is_global y then ScLinkage else ScCompilation.
(** 600-609 [is_definition] *)
Definition cy_is_definition (y : csym) : bool :=
  if y_secnum y <=? 0 then false
  else if y_class y =? CLASS_STATIC then negb (has_aux_section y) else cy_is_global y.
(** the associated section number of an auxiliary record (519-523, comdat.rs 209-213) *)
Definition aux_number (big : bool) (a : caux) : Z := if big then Z.lor (x_number a) (Z.shiftl (x_high a) 16) else x_number a.
(** 509-534 [flags] *)
Definition cy_flags (f : cfile) (index : Z) (y : csym) : cflags :=
  match (if has_aux_section y then coff_aux_section (cf_symbols f) index else Err) with
  | Ok a => let number := aux_number (cf_big f) a in
      CFSection (y_typ y) (y_class y) (x_sel a) (if number =? 0 then None else Some number)
  | _ => CFCoff (y_typ y) (y_class y)
  end.

(** * COMDATs: src/read/coff/comdat.rs *)
(** 71-76: symbol index, section index, selection *)
Record ccomdat := { cc_symbol : Z; cc_section : Z; cc_sel : Z }.
(** 100-108: the first symbol after [index] in section [n]; [fuel] at least the number of table entries *)
Fixpoint comdat_symbol (fuel : nat) (t : csymtab) (n index : Z) (y : csym) : out (option Z) :=
  match fuel with
  | O => Panic
  | S fuel =>
    i <- padd 64 index (1 + y_naux y) ;;
    match coff_symbol t i with
    | Ok y' => if n =? y_secnum y' then Ok (Some i) else comdat_symbol fuel t n i y'
    | Err => Ok None
    | Panic => Panic
    end
  end.
(** 77-118 [CoffComdat::parse] *)
Definition comdat_parse (f : cfile) (y : csym) (index : Z) : out (option ccomdat) :=
  let t := cf_symbols f in
  if negb (has_aux_section y) then Ok None else
  match secnum_index (y_secnum y) with
  | None => Ok None
  | Some sec =>
    match coff_aux_section t index with
    | Err => Ok None
    | Panic => Panic
    | Ok a =>
      if (x_sel a =? 0) || (x_sel a =? SELECT_ASSOCIATIVE) then Ok None else
      o <- comdat_symbol (S (length (ct_entries t))) t (y_secnum y) index y ;;
      Ok (option_map (fun i => {| cc_symbol := i; cc_section := sec; cc_sel := x_sel a |}) o)
    end
  end.
(** 41-52 [CoffComdatIterator::next]: the loop, [fuel] at least the number of entries left *)
Fixpoint comdat_next (fuel : nat) (f : cfile) (index : Z) : out (option ccomdat) * Z :=
  match fuel with
  | O => (Panic, index)
  | S fuel =>
    match coff_symbol (cf_symbols f) index with
    | Err => (Ok None, index)
    | Panic => (Panic, index)
    | Ok y =>
      match padd 64 index (1 + y_naux y) with
      | Ok i =>
        match comdat_parse f y index with
        | Ok (Some c) => (Ok (Some c), i)
        | Ok None => comdat_next fuel f i
        | _ => (Panic, i)
        end
      | _ => (Panic, index)
      end
    end
  end.
Definition coff_comdat_next (f : cfile) : Z -> out (option ccomdat) * Z := comdat_next (S (length (ct_entries (cf_symbols f)))) f.
(** 129-139 [kind], as the position in src/common.rs [ComdatKind] *)
Definition comdat_kind (sel : Z) : Z :=
  if sel =? 1 then 2 else if sel =? 2 then 1 else if sel =? 3 then 3 else if sel =? 4 then 4 else if sel =? 6 then 5
  else if sel =? 7 then 6 else 0.
(** 192-225 [CoffComdatSectionIterator::next] *)
Fixpoint comdat_sec_next (fuel : nat) (f : cfile) (section : Z) (index : Z) : out (option Z) * Z :=
  match fuel with
  | O => (Panic, index)
  | S fuel =>
    match coff_symbol (cf_symbols f) index with
    | Err => (Ok None, index)
    | Panic => (Panic, index)
    | Ok y =>
      match padd 64 index (1 + y_naux y) with
      | Ok i =>
        if negb (has_aux_section y) then comdat_sec_next fuel f section i else
        match secnum_index (y_secnum y) with
        | None => comdat_sec_next fuel f section i
        | Some sec =>
          match coff_aux_section (cf_symbols f) index with
          | Err => (Ok None, i)
          | Panic => (Panic, i)
          | Ok a =>
            if x_sel a =? SELECT_ASSOCIATIVE then
              if aux_number (cf_big f) a =? section then (Ok (Some sec), i) else comdat_sec_next fuel f section i
            else if negb (x_sel a =? 0) then
              if sec =? section then (Ok (Some sec), i) else comdat_sec_next fuel f section i
            else comdat_sec_next fuel f section i
          end
        end
      | _ => (Panic, index)
      end
    end
  end.
Definition coff_comdat_sec_next (f : cfile) (section : Z) : Z -> out (option Z) * Z :=
  comdat_sec_next (S (length (ct_entries (cf_symbols f)))) f section.

(** file.rs 159-177 [architecture], [sub_architecture] (true: Arm64EC), [is_little_endian] *)
Definition coff_arch (f : cfile) : arch :=
  let m := ch_machine (cf_big f) (cf_header f) in
  if m =? 452 then AArm else if (m =? 43620) || (m =? 42561) then AAarch64 else if m =? 332 then AI386 else if m =? 34404 then AX86_64
  else if (m =? 496) || (m =? 497) || (m =? 498) then APowerPc else AUnknown.
Definition coff_arm64ec (f : cfile) : bool := ch_machine (cf_big f) (cf_header f) =? 42561.
Definition coff_endian (f : cfile) : endian := if ch_machine (cf_big f) (cf_header f) =? 498 then Big else Little.
