(** Model of the XCOFF reader (src/read/xcoff/{file,section,symbol,relocation}.rs) and of the XCOFF writer (src/write/xcoff.rs).  Definitions
    only.  All fields are big-endian; [is64] selects the 64-bit structures.  Not modelled: UTF-8 conversion of names, [segments], [comdats],
    [dynamic_symbols], imports and exports (always empty). *)
From Verif Require Export CoffW_model.

(** * Structures *)
(** src/xcoff.rs 18-53 [FileHeader32], [FileHeader64] *)
Record xhdr := { xh_nscns : Z; xh_timdat : Z; xh_symptr : Z; xh_nsyms : Z; xh_opthdr : Z; xh_flags : Z }.
Definition xhdr_size (is64 : bool) : Z := if is64 then 24 else 20.
Definition xhdr_of (is64 : bool) (b : bytes) : xhdr :=
  if is64 then {| xh_nscns := fld Big 2 2 b; xh_timdat := fld Big 4 4 b; xh_symptr := fld Big 8 8 b; xh_nsyms := fld Big 20 4 b; xh_opthdr := fld Big 16 2 b; xh_flags := fld Big 18 2 b |}
  else {| xh_nscns := fld Big 2 2 b; xh_timdat := fld Big 4 4 b; xh_symptr := fld Big 8 4 b; xh_nsyms := fld Big 12 4 b; xh_opthdr := fld Big 16 2 b; xh_flags := fld Big 18 2 b |}.
(** 102-232 [AuxHeader32], [AuxHeader64]: sizes, and the offsets of [o_entry], [o_algntext], [o_algndata] *)
Definition xaux_size (is64 : bool) : Z := if is64 then 120 else 72.
Definition xaux_entry (is64 : bool) (b : bytes) : Z := if is64 then fld Big 80 8 b else fld Big 16 4 b.
Definition xaux_algntext (is64 : bool) (b : bytes) : Z := if is64 then fld Big 44 2 b else fld Big 44 2 b.
Definition xaux_algndata (is64 : bool) (b : bytes) : Z := if is64 then fld Big 46 2 b else fld Big 46 2 b.
(** 241-290 [SectionHeader32], [SectionHeader64] *)
Record xsec := { xs_name : bytes; xs_paddr : Z; xs_vaddr : Z; xs_size : Z; xs_scnptr : Z; xs_relptr : Z; xs_lnnoptr : Z; xs_nreloc : Z; xs_nlnno : Z;
  xs_flags : Z; xs_reserve : Z }.
Definition xsec_size (is64 : bool) : Z := if is64 then 72 else 40.
Definition xsec_of (is64 : bool) (b : bytes) : xsec :=
  if is64 then {| xs_name := zslice 0 8 b; xs_paddr := fld Big 8 8 b; xs_vaddr := fld Big 16 8 b; xs_size := fld Big 24 8 b; xs_scnptr := fld Big 32 8 b; xs_relptr := fld Big 40 8 b;
    xs_lnnoptr := fld Big 48 8 b; xs_nreloc := fld Big 56 4 b; xs_nlnno := fld Big 60 4 b; xs_flags := fld Big 64 4 b; xs_reserve := fld Big 68 4 b |}
  else {| xs_name := zslice 0 8 b; xs_paddr := fld Big 8 4 b; xs_vaddr := fld Big 12 4 b; xs_size := fld Big 16 4 b; xs_scnptr := fld Big 20 4 b; xs_relptr := fld Big 24 4 b;
    xs_lnnoptr := fld Big 28 4 b; xs_nreloc := fld Big 32 2 b; xs_nlnno := fld Big 34 2 b; xs_flags := fld Big 36 4 b; xs_reserve := 0 |}.
(** 438-471 [Symbol32], [Symbol64]: 18 bytes; [xy_field] is the name field: 8 bytes, or the 4 bytes of the string offset *)
Record xsym := { xy_field : bytes; xy_value : Z; xy_scnum : Z; xy_type : Z; xy_class : Z; xy_naux : Z }.
Definition xsym_of (is64 : bool) (b : bytes) : xsym :=
  {| xy_field := if is64 then zslice 8 4 b else zslice 0 8 b; xy_value := if is64 then fld Big 0 8 b else fld Big 8 4 b;
     xy_scnum := read_i Big (zslice 12 2 b); xy_type := fld Big 14 2 b; xy_class := fld Big 16 1 b; xy_naux := fld Big 17 1 b |}.
(** 1036-1060 [Rel32], [Rel64] *)
Record xrel := { xr_vaddr : Z; xr_symndx : Z; xr_rsize : Z; xr_rtype : Z }.
Definition xrel_size (is64 : bool) : Z := if is64 then 14 else 10.
Definition xrel_of (is64 : bool) (b : bytes) : xrel :=
  if is64 then {| xr_vaddr := fld Big 0 8 b; xr_symndx := fld Big 8 4 b; xr_rsize := fld Big 12 1 b; xr_rtype := fld Big 13 1 b |}
  else {| xr_vaddr := fld Big 0 4 b; xr_symndx := fld Big 4 4 b; xr_rsize := fld Big 8 1 b; xr_rtype := fld Big 9 1 b |}.
(** src/xcoff.rs 70-91, 366-412, 494-500, 577-640, 828-893, 1016-1030 *)
Definition XF_RELFLG := 1.
Definition XF_EXEC := 2.
Definition XF_SHROBJ := 8192.
Definition C_EXT := 2.
Definition C_STAT := 3.
Definition C_FILE := 103.
Definition C_HIDEXT := 107.
Definition C_WEAKEXT := 111.
Definition AUX_FILE := 252.
Definition AUX_CSECT := 251.

(** * Reader *)
(** src/read/xcoff/symbol.rs 22-31 [SymbolTable] *)
Record xsymtab := { xt_64 : bool; xt_entries : list bytes; xt_strings : strings }.
(** file.rs 43-53 [XcoffFile] *)
Record xfile := { xf_64 : bool; xf_header : xhdr; xf_aux : option bytes; xf_sections : list xsec; xf_symbols : xsymtab; xf_data : bytes }.
(** file.rs 342-356 [parse], [is_supported] *)
Definition xc_header (is64 : bool) (data : bytes) : out (xhdr * Z) :=
  match rr_read data 0 (xhdr_size is64) with
  | (Ok b, o) => if negb (fld Big 0 2 b =? (if is64 then 503 else 479)) then Err else Ok (xhdr_of is64 b, o)
  | (Err, _) => Err
  | (Panic, _) => Panic
  end.
(** 359-384 [aux_header] *)
Definition xc_aux_header (is64 : bool) (h : xhdr) (data : bytes) (offset : Z) : out (option bytes * Z) :=
  if Z.land (xh_flags h) XF_EXEC =? 0 then o <- padd 64 offset (xh_opthdr h) ;; Ok (None, o)
  else if negb (xh_opthdr h =? xaux_size is64) then o <- padd 64 offset (xh_opthdr h) ;; Ok (None, o)
  else match rr_read data offset (xaux_size is64) with
       | (Ok b, o) => Ok (Some b, o)
       | (Err, _) => Err
       | (Panic, _) => Panic
       end.
(** section.rs 262-271 [SectionTable::parse] *)
Definition xc_sections (is64 : bool) (h : xhdr) (data : bytes) (offset : Z) : out (list xsec) :=
  if xh_nscns h =? 0 then Ok []
  else match rr_read_slice data offset (xsec_size is64) (xh_nscns h) with
       | (Ok l, _) => Ok (map (xsec_of is64) l)
       | (Err, _) => Err
       | (Panic, _) => Panic
       end.
(** symbol.rs 52-80 [SymbolTable::parse] *)
Definition xc_symbols (is64 : bool) (h : xhdr) (data : bytes) : out xsymtab :=
  let offset := xh_symptr h in
  if offset =? 0 then Ok {| xt_64 := is64; xt_entries := []; xt_strings := (None, 0, 0) |} else
  match rr_read_slice data offset 18 (xh_nsyms h) with
  | (Ok l, offset) =>
    b <- rr_read_at data offset 4 ;;
    e <- of_opt (cadd 64 offset (fld Big 0 4 b)) ;;
    Ok {| xt_64 := is64; xt_entries := l; xt_strings := (Some data, offset, e) |}
  | (Err, _) => Err
  | (Panic, _) => Panic
  end.
(** file.rs 60-74 [XcoffFile::parse] *)
Definition xc_parse (is64 : bool) (data : bytes) : out xfile :=
  ' (h, o) <- xc_header is64 data ;;
  ' (a, o) <- xc_aux_header is64 h data o ;;
  s <- xc_sections is64 h data o ;;
  y <- xc_symbols is64 h data ;;
  Ok {| xf_64 := is64; xf_header := h; xf_aux := a; xf_sections := s; xf_symbols := y; xf_data := data |}.
(** file.rs 186-192 [architecture] *)
Definition xf_arch (f : xfile) : arch := if xf_64 f then APowerPc64 else APowerPc.
(** 202-213 [kind] *)
Inductive xkind := XExecutable | XDynamic | XRelocatable | XUnknown.
Definition xf_kind (f : xfile) : xkind :=
  let fl := xh_flags (xf_header f) in
  if fl_has fl XF_EXEC then XExecutable else if fl_has fl XF_SHROBJ then XDynamic else if negb (fl_has fl XF_RELFLG) then XRelocatable else XUnknown.
(** 307-313 [entry] *)
Definition xf_entry (f : xfile) : Z := match xf_aux f with Some a => xaux_entry (xf_64 f) a | None => 0 end.
(** section.rs 303-310 [name], 119-121 [name_bytes] *)
Definition xs_name_bytes (s : xsec) : bytes := until_null (xs_name s).
(** 313-326 [file_range], [data] *)
Definition xs_data (f : xfile) (s : xsec) : out bytes := rr_read_bytes_at (xf_data f) (xs_scnptr s) (xs_size s).
(** 126-133 [data_range] *)
Definition xs_data_range (f : xfile) (s : xsec) (address size : Z) : out (option bytes) := d <- xs_data f s ;; Ok (data_range d (xs_paddr s) address size).
(** 163-187 [kind]: [typ] is the low half of the flags *)
Definition xs_kind (s : xsec) : skind :=
  let t := wrap_u 16 (xs_flags s) in
  let any m := negb (Z.land t m =? 0) in
  if any 32 then SKText else if any 64 then SKData else if any 1024 then SKTls else if any 128 then SKUninitializedData else if any 2048 then SKUninitializedTls
  else if any (Z.lor 8192 16) then SKDebug else if any (Z.lor 4096 32768) then SKMetadata
  else if any (Z.lor (Z.lor (Z.lor 512 256) 8) 16384) then SKOther else SKUnknown.
(** 108-119 [align] *)
Definition xs_align (f : xfile) (s : xsec) : Z :=
  match xf_aux f with
  | Some a => match xs_kind s with SKText => xaux_algntext (xf_64 f) a | SKData => xaux_algndata (xf_64 f) a | _ => 4 end
  | None => 4
  end.
(** 376-389, 447-453 [SectionHeader::relocations] *)
Definition xs_relocations (f : xfile) (s : xsec) : out (list xrel) :=
  if negb (xf_64 f) && (xs_nreloc s =? 65535) then Err
  else l <- rr_read_slice_at (xf_data f) (xs_relptr s) (xrel_size (xf_64 f)) (xs_nreloc s) ;; Ok (map (xrel_of (xf_64 f)) l).
(** 189-195 [relocations], relocation.rs 41-76 [next]: offset, symbol, and what Kind_model's [xcoff_parse] gives for type and size *)
Definition xs_relocs (f : xfile) (s : xsec) : out (list (Z * Z * (rkind * renc * Z * Z))) :=
  match xs_relocations f s with
  | Ok l => Ok (map (fun r => (xr_vaddr r, xr_symndx r, xcoff_parse (xr_rtype r) (xr_rsize r))) l)
  | Err => Ok []
  | Panic => Panic
  end.
(** section.rs 289-293 [SectionTable::section], file.rs 226-233 [section_by_index]; the position is the 1-based index without 1 *)
Definition xf_section (f : xfile) (index : Z) : out xsec := of_opt (zget (xf_sections f) (wrap_u 64 (index - 1))).
(** file.rs 218-224 [section_by_name_bytes]: the index and the section *)
Definition xf_section_by_name (f : xfile) (name : bytes) : option (Z * xsec) :=
  find (fun p => bytes_eqb (xs_name_bytes (snd p)) name) (combine (map (fun i => i + 1) (seqZ (length (xf_sections f)))) (xf_sections f)).

(** symbol.rs 108-116 [get], for the types of 18 bytes *)
Definition xt_get (t : xsymtab) (index offset : Z) : out bytes :=
  x <- of_opt (cadd 64 index offset) ;; b <- of_opt (zget (xt_entries t) x) ;; fst (b_read b 18).
(** 121-123 [symbol_unchecked] *)
Definition xt_unchecked (t : xsymtab) (index : Z) : out xsym := b <- xt_get t index 0 ;; Ok (xsym_of (xt_64 t) b).
(** 590-592 [is_null] *)
Definition xy_null (y : xsym) : bool := xy_class y =? 0.
(** 129-135 [symbol] *)
Definition xt_symbol (t : xsymtab) (index : Z) : out xsym := y <- xt_unchecked t index ;; if xy_null y then Err else Ok y.
(** 602-616 [has_aux_file], [has_aux_csect] *)
Definition has_file_aux (y : xsym) : bool := (0 <? xy_naux y) && (xy_class y =? C_FILE).
Definition has_csect_aux (y : xsym) : bool := (0 <? xy_naux y) && ((xy_class y =? C_EXT) || (xy_class y =? C_WEAKEXT) || (xy_class y =? C_HIDEXT)).
(** 138-147 [aux_file]: the 8 bytes of [x_fname] and the file type (src/xcoff.rs 693-722) *)
Record xfaux := { xa_fname : bytes; xa_ftype : Z }.
Definition xt_aux_file (t : xsymtab) (index offset : Z) : out xfaux :=
  y <- xt_symbol t index ;;
  if negb (has_file_aux y) then Panic else
  b <- xt_get t index offset ;;
  if xt_64 t && negb (fld Big 17 1 b =? AUX_FILE) then Err else Ok {| xa_fname := zslice 0 8 b; xa_ftype := fld Big 14 1 b |}.
(** 150-159 [aux_csect] (src/xcoff.rs 744-781) *)
Record xcaux := { xc_scnlen : Z; xc_parmhash : Z; xc_snhash : Z; xc_smtyp : Z; xc_smclas : Z }.
Definition xcaux_of (is64 : bool) (b : bytes) : xcaux :=
  {| xc_scnlen := if is64 then Z.lor (fld Big 0 4 b) (Z.shiftl (fld Big 12 4 b) 32) else fld Big 0 4 b; xc_parmhash := fld Big 4 4 b; xc_snhash := fld Big 8 2 b;
     xc_smtyp := fld Big 10 1 b; xc_smclas := fld Big 11 1 b |}.
Definition xt_aux_csect (t : xsymtab) (index offset : Z) : out xcaux :=
  y <- xt_symbol t index ;;
  if negb (has_csect_aux y) then Panic else
  b <- xt_get t index offset ;;
  if xt_64 t && negb (fld Big 17 1 b =? AUX_CSECT) then Err else Ok (xcaux_of (xt_64 t) b).
(** 187-201 [SymbolIterator::next]; the state is the index *)
Fixpoint xt_loop (fuel : nat) (t : xsymtab) (index : Z) : out (option (Z * xsym)) * Z :=
  match fuel with
  | O => (Panic, index)
  | S fuel =>
    match xt_unchecked t index with
    | Ok y => match padd 64 index (1 + xy_naux y) with
              | Ok i => if xy_null y then xt_loop fuel t i else (Ok (Some (index, y)), i)
              | _ => (Panic, index)
              end
    | Err => (Ok None, index)
    | Panic => (Panic, index)
    end
  end.
Definition xt_next (t : xsymtab) (index : Z) : out (option (Z * xsym)) * Z := xt_loop (S (length (xt_entries t))) t index.
(** 640-647, 683-705 [name_offset], [name]; 717-745 [fname] is [x_field_name] for the 8 bytes of [x_fname] *)
Definition x_field_name (t : strings) (field : bytes) : out bytes :=
  b0 <- unwrap (zget field 0) ;;
  if b0 =? 0 then strings_get t (read_u Big (zslice 4 4 field)) else Ok (until_null field).
Definition xy_own_name (t : xsymtab) (y : xsym) : out bytes :=
  if xt_64 t then strings_get (xt_strings t) (read_u Big (xy_field y)) else x_field_name (xt_strings t) (xy_field y).
(** 327-337 [name_bytes] *)
Definition xy_name (t : xsymtab) (index : Z) (y : xsym) : out bytes :=
  if has_file_aux y then a <- xt_aux_file t index 1 ;; x_field_name (xt_strings t) (xa_fname a) else xy_own_name t y.
(** 346-358 [address] *)
Definition xy_address (y : xsym) : Z :=
  let c := xy_class y in
  if (c =? C_EXT) || (c =? C_WEAKEXT) || (c =? C_HIDEXT) || (c =? 101) || (c =? 100) || (c =? C_STAT) || (c =? 110) then xy_value y else 0.
(** the csect record that [size], [kind], [is_definition] and [flags] look at; an error counts as none *)
Definition xy_csect (t : xsymtab) (index : Z) (y : xsym) : out (option xcaux) :=
  if has_csect_aux y then match xt_aux_csect t index (xy_naux y) with Ok a => Ok (Some a) | Err => Ok None | Panic => Panic end else Ok None.
(** src/xcoff.rs 812-814 [typ] *)
Definition xc_typ (a : xcaux) : Z := Z.land (xc_smtyp a) 7.
(** 361-377 [size] *)
Definition xy_size (t : xsymtab) (index : Z) (y : xsym) : out Z :=
  a <- xy_csect t index y ;;
  Ok match a with Some a => if (xc_typ a =? 1) || (xc_typ a =? 3) then xc_scnlen a else 0 | None => 0 end.
(** 379-416 [kind] *)
Definition xc_class_kind (c : Z) : symkind :=
  match c with 0 | 6 => YText | 1 | 5 | 16 | 9 => YData | 20 | 21 => YTls | 10 | 15 | 3 => YData | _ => YUnknown end.
Definition xy_kind (t : xsymtab) (index : Z) (y : xsym) : out symkind :=
  a <- xy_csect t index y ;;
  let other := if xy_class y =? C_FILE then YFile else YUnknown in
  Ok match a with
     | Some a => if (xc_typ a =? 1) || (xc_typ a =? 3) then xc_class_kind (xc_smclas a) else if xc_typ a =? 2 then YText else if xc_typ a =? 0 then YUnknown else other
     | None => other
     end.
(** 418-431 [section] *)
Definition xy_section (y : xsym) : rsec :=
  let n := xy_scnum y in
  if n =? -1 then RAbsolute else if n =? 0 then RUndefined else if n =? -2 then RNone else if 0 <? n then RSection n else RUnknown.
(** 594-600 [is_undefined], 439-458 [is_definition], 461-468 [is_common], [is_weak], 470-486 [scope], 488-500 [is_global], [is_local] *)
Definition xy_undefined (y : xsym) : bool := ((xy_class y =? C_EXT) || (xy_class y =? C_WEAKEXT)) && (xy_scnum y =? 0).
Definition xy_definition (t : xsymtab) (index : Z) (y : xsym) : out bool :=
  if xy_scnum y <=? 0 then Ok false else
  a <- xy_csect t index y ;;
  Ok match a with Some a => (xc_typ a =? 1) || (xc_typ a =? 2) || (xc_typ a =? 3) | None => false end.
Definition xy_common (y : xsym) : bool := (xy_class y =? C_EXT) && (xy_scnum y =? 0).
Definition xy_weak (y : xsym) : bool := xy_class y =? C_WEAKEXT.
Definition xy_scope (y : xsym) : scope :=
  if xy_scnum y =? 0 then ScUnknown
  else if (xy_class y =? C_EXT) || (xy_class y =? C_WEAKEXT) then if Z.land (xy_type y) 61440 =? 8192 then ScLinkage else ScDynamic
  else ScCompilation.
Definition xy_global (y : xsym) : bool := (xy_class y =? C_EXT) || (xy_class y =? C_WEAKEXT).
(** 503-529 [flags]: [n_type], [n_sclass], [x_smtyp], [x_smclas], [containing_csect] *)
Record xyflags := { yx_type : Z; yx_class : Z; yx_smtyp : Z; yx_smclas : Z; yx_csect : option Z }.
Definition xy_flags (t : xsymtab) (index : Z) (y : xsym) : out xyflags :=
  a <- xy_csect t index y ;;
  Ok match a with
     | Some a => {| yx_type := xy_type y; yx_class := xy_class y; yx_smtyp := xc_smtyp a; yx_smclas := xc_smclas a; yx_csect := if xc_typ a =? 2 then Some (xc_scnlen a) else None |}
     | None => {| yx_type := xy_type y; yx_class := xy_class y; yx_smtyp := 0; yx_smclas := 0; yx_csect := None |}
     end.

(** * Writer: src/write/xcoff.rs.  [SFOther v] is [SectionFlags::Xcoff] with [s_flags] v.  [YFOther v] stands for any flags of a symbol that are neither
    ELF, Mach-O nor COFF: [xy v] is what they are if they are [SymbolFlags::Xcoff].  [fflags]: [f_flags] of [FileFlags::Xcoff], 0 for other flags. *)
(** 71-94 [xcoff_section_flags] *)
Definition xcoff_section_flags (k : skind) : option Z :=
  match k with
  | SKText | SKReadOnlyData | SKReadOnlyString | SKReadOnlyDataWithRel => Some 32
  | SKData => Some 64
  | SKUninitializedData => Some 128
  | SKTls => Some 1024
  | SKUninitializedTls => Some 2048
  | SKOtherString => Some 512
  | SKDebug | SKDebugString => Some 8192
  | SKOther | SKMetadata => Some 0
  | SKNote | SKLinker | SKUnknown | SKTlsVariables => None
  end.
(** src/write/mod.rs 362-368 [section_flags] *)
Definition xw_section_flags (s : osec) : out Z :=
  match se_flags s with SFOther v => Ok v | SFNone => of_opt (xcoff_section_flags (se_kind s)) | _ => Err end.
(** 96-162 [xcoff_symbol_flags] *)
Definition is_csect_class (c : Z) : bool := (c =? C_EXT) || (c =? C_WEAKEXT) || (c =? C_HIDEXT).
Definition xcoff_symbol_flags (o : obj) (y : osym) : out (option xyflags) :=
  match (match sy_kind y with
         | YFile => Some C_FILE
         | YText | YData | YTls =>
           Some (if match sy_scope y with ScCompilation => true | _ => false end then C_STAT else if sy_weak y then C_WEAKEXT else C_EXT)
         | _ => None
         end) with
  | None => Ok None
  | Some class =>
    let typ := if match sy_scope y with ScLinkage => true | _ => false end && is_csect_class class then 8192 else 0 in
    if is_csect_class class then
      kind <- match sy_section y with YSec id => s <- unwrap (zget (o_sections o) id) ;; Ok (se_kind s) | _ => Ok SKUnknown end ;;
      Ok match (match sy_kind y with
                | YText => Some (1, 0)
                | YData => Some (if skind_beq kind SKUninitializedData then (3, 9) else if skind_beq kind SKReadOnlyData then (1, 1) else (1, 5))
                | YTls => Some (if skind_beq kind SKUninitializedTls then (3, 21) else (1, 20))
                | _ => None
                end) with
         | Some (t, c) => Some {| yx_type := typ; yx_class := class; yx_smtyp := t; yx_smclas := c; yx_csect := None |}
         | None => None
         end
    else Ok (Some {| yx_type := typ; yx_class := class; yx_smtyp := 0; yx_smclas := 0; yx_csect := None |})
  end.
(** src/write/mod.rs 494-500 [symbol_flags] *)
Definition xw_symbol_flags (xy : Z -> option xyflags) (o : obj) (y : osym) : out xyflags :=
  match sy_flags y with
  | Some (YFOther v) => of_opt (xy v)
  | Some _ => Err
  | None => ' r <- xcoff_symbol_flags o y ;; of_opt r
  end.
(** 261-285: the address and the data offset of a section; the state is (offset, address) *)
Definition has_address (k : skind) : bool := match k with SKData | SKText | SKUninitializedData => true | _ => false end.
Definition xw_place (s : osec) (st : Z * Z) : out ((Z * Z) * (Z * Z)) :=
  let '(offset, address) := st in
  let len := zlen (se_data s) in
  ' (a, address) <- (if has_address (se_kind s) then n <- padd 64 address len ;; n <- align 64 n 4 ;; Ok (address, n) else Ok (0, address)) ;;
  ' (d, offset) <- (if negb (len =? 0) then o <- align 64 offset 4 ;; e <- padd 64 o len ;; Ok (o, e) else Ok (0, offset)) ;;
  Ok ((a, d), (offset, address)).
(** 287-296: the offset of the relocations of a section *)
Definition xw_place_relocs (is64 : bool) (s : osec) (offset : Z) : out (Z * Z) :=
  let count := zlen (se_relocs s) in
  if negb (count =? 0) then n <- pmul 64 count (xrel_size is64) ;; e <- padd 64 offset n ;; Ok (offset, e) else Ok (0, offset).
(** 16-25 [SymbolOffsets] *)
Record xsoff := { xo_index : Z; xo_str : option Z; xo_aux : Z; xo_flags : xyflags }.
(** 302-351: one symbol; the state is (count, string table, id of [.file]) *)
Definition xw_add (t : strtab) (s : bytes) : out (Z * strtab) := match st_add t s with (Ok id, t) => Ok (id, t) | (Err, _) => Err | (Panic, _) => Panic end.
Definition xw_symbol (xy : Z -> option xyflags) (o : obj) (is64 : bool) (y : osym) (st : Z * strtab * option Z) : out (xsoff * (Z * strtab * option Z)) :=
  let '(count, t, file) := st in
  n <- padd 64 count 1 ;;
  fl <- xw_symbol_flags xy o y ;;
  ' (str, t, file) <-
    (if yx_class fl =? C_FILE then
       ' (t, file) <- (if is64 && match file with None => true | _ => false end then ' (id, t) <- xw_add t (str ".file") ;; Ok (t, Some id) else Ok (t, file)) ;;
       if 8 <? zlen (sy_name y) then ' (id, t) <- xw_add t (sy_name y) ;; Ok (Some id, t, file) else Ok (None, t, file)
     else if is64 || (8 <? zlen (sy_name y)) then ' (id, t) <- xw_add t (sy_name y) ;; Ok (Some id, t, file)
     else Ok (None, t, file)) ;;
  if (yx_class fl =? C_FILE) || is_csect_class (yx_class fl) then
    m <- padd 64 n 1 ;; Ok ({| xo_index := count; xo_str := str; xo_aux := 1; xo_flags := fl |}, (m, t, file))
  else Ok ({| xo_index := count; xo_str := str; xo_aux := 0; xo_flags := fl |}, (n, t, file)).
(** 374-400: the file header *)
Definition xw_header (is64 : bool) (nsec symptr nsyms flags : Z) : bytes :=
  if is64 then write_u Big 2 503 ++ write_u Big 2 (wrap_u 16 nsec) ++ write_u Big 4 0 ++ write_u Big 8 symptr ++ write_u Big 2 0 ++ write_u Big 2 flags ++ write_u Big 4 (wrap_u 32 nsyms)
  else write_u Big 2 479 ++ write_u Big 2 (wrap_u 16 nsec) ++ write_u Big 4 0 ++ write_u Big 4 (wrap_u 32 symptr) ++ write_u Big 4 (wrap_u 32 nsyms) ++ write_u Big 2 0 ++ write_u Big 2 flags.
(** 402-459: a section header; the buffer is the state *)
Definition xw_section_header (is64 : bool) (x : osec * ((Z * Z) * Z)) (w : bytes) : out bytes :=
  let '(s, ((addr, doff), roff)) := x in
  if 8 <? zlen (se_name s) then Err else
  let name := se_name s ++ zeros (8 - zlen (se_name s)) in
  fl <- xw_section_flags s ;;
  let size := zlen (se_data s) in let nrel := zlen (se_relocs s) in
  Ok (w ++ if is64 then name ++ write_u Big 8 addr ++ write_u Big 8 addr ++ write_u Big 8 size ++ write_u Big 8 doff ++ write_u Big 8 roff ++ write_u Big 8 0 ++
             write_u Big 4 (wrap_u 32 nrel) ++ write_u Big 4 0 ++ write_u Big 4 fl ++ write_u Big 4 0
           else name ++ write_u Big 4 (wrap_u 32 addr) ++ write_u Big 4 (wrap_u 32 addr) ++ write_u Big 4 (wrap_u 32 size) ++ write_u Big 4 (wrap_u 32 doff) ++
             write_u Big 4 (wrap_u 32 roff) ++ write_u Big 4 0 ++ write_u Big 2 (wrap_u 16 nrel) ++ write_u Big 2 0 ++ write_u Big 4 fl).
(** 461-469: the data of a section *)
Definition xw_data (x : osec * Z) (w : bytes) : out bytes :=
  let '(s, doff) := x in
  if negb (zlen (se_data s) =? 0) then
    n <- align 64 (zlen w) 4 ;;
    if negb (doff =? n) then Panic else Ok (w ++ zeros (n - zlen w) ++ se_data s)
  else Ok w.
(** 471-502: the relocations of a section *)
Definition xw_reloc (is64 : bool) (ys : list xsoff) (r : orel) (w : bytes) : out bytes :=
  match ol_flags r with
  | RFxcoff rtype rsize =>
    y <- unwrap (zget ys (ol_symbol r)) ;;
    Ok (w ++ (if is64 then write_u Big 8 (ol_offset r) else write_u Big 4 (wrap_u 32 (ol_offset r))) ++ write_u Big 4 (wrap_u 32 (xo_index y)) ++ [rsize] ++ [rtype])
  | _ => Err
  end.
Definition xw_relocs (is64 : bool) (ys : list xsoff) (x : osec * Z) (w : bytes) : out bytes :=
  let '(s, roff) := x in
  match se_relocs s with [] => Ok w | _ => if negb (roff =? zlen w) then Panic else fold_m (xw_reloc is64 ys) (se_relocs s) w end.
(** 504-607: a symbol *)
Definition xw_name_field (t : strtab) (name : bytes) (id : option Z) : out bytes :=
  if zlen name <=? 8 then Ok (name ++ zeros (8 - zlen name)) else id <- unwrap id ;; o <- st_get_offset t id ;; Ok (zeros 4 ++ write_u Big 4 o).
Definition xw_write_symbol (is64 : bool) (t : strtab) (file : option Z) (addrs : list Z) (ys : list xsoff) (x : osym * xsoff) (w : bytes) : out bytes :=
  let '(y, off) := x in
  value <- match sy_section y with YSec id => a <- unwrap (zget addrs id) ;; padd 64 a (sy_value y) | _ => Ok (sy_value y) end ;;
  scnum <- match sy_section y with
           | YNone => match sy_kind y with YFile => Ok (-2) | _ => Panic end
           | YUndefined | YCommon => Ok 0
           | YAbsolute => Ok (-1)
           | YSec id => let n := wrap_s 16 id + 1 in if n <? 2 ^ 15 then Ok n else Panic
           end ;;
  let fl := xo_flags off in
  let is_file := yx_class fl =? C_FILE in
  name <- (if is64 then
             id <- unwrap (if is_file then file else xo_str off) ;; o <- st_get_offset t id ;; Ok (write_u Big 4 o)
           else if is_file then Ok (str ".file" ++ zeros 3)
           else xw_name_field t (sy_name y) (xo_str off)) ;;
  let w := w ++ (if is64 then write_u Big 8 value ++ name else name ++ write_u Big 4 (wrap_u 32 value)) ++
           write_i Big 2 scnum ++ write_u Big 2 (yx_type fl) ++ [yx_class fl] ++ [xo_aux off] in
  if is_file then
    if negb (xo_aux off =? 1) then Panic else
    fname <- xw_name_field t (sy_name y) (xo_str off) ;;
    Ok (w ++ fname ++ zeros 6 ++ [0] ++ (if is64 then zeros 2 ++ [AUX_FILE] else zeros 3))
  else if is_csect_class (yx_class fl) then
    if negb (xo_aux off =? 1) then Panic else
    len <- match yx_csect fl with Some c => z <- unwrap (zget ys c) ;; Ok (xo_index z) | None => Ok (sy_size y) end ;;
    Ok (w ++ write_u Big 4 (wrap_u 32 len) ++ write_u Big 4 0 ++ write_u Big 2 0 ++ [yx_smtyp fl] ++ [yx_smclas fl] ++
        (if is64 then write_u Big 4 (wrap_u 32 (Z.shiftr len 32)) ++ [0] ++ [AUX_CSECT] else write_u Big 4 0 ++ write_u Big 2 0))
  else Ok w.
(** 216-613 [xcoff_write] *)
Definition xcoff_write (xy : Z -> option xyflags) (o : obj) (fflags : Z) : out bytes :=
  a <- unwrap (address_size (o_arch o)) ;;
  let is64 := a =? 8 in
  n <- pmul 64 (zlen (o_sections o)) (xsec_size is64) ;;
  offset <- padd 64 (xhdr_size is64) n ;;
  ' (places, (offset, _)) <- map_m xw_place (o_sections o) (offset, 0) ;;
  ' (roffs, offset) <- map_m (xw_place_relocs is64) (o_sections o) offset ;;
  ' (ys, (count, t, file)) <- map_m (xw_symbol xy o is64) (o_symbols o) (0, st_new, None) ;;
  let symtab_offset := offset in
  n <- pmul 64 count 18 ;;
  offset <- padd 64 offset n ;;
  let strtab_offset := offset in
  match st_write t 4 with
  | (Ok len, d, t) =>
    offset <- padd 64 offset len ;;
    let w := xw_header is64 (zlen (o_sections o)) symtab_offset count fflags in
    w <- fold_m (xw_section_header is64) (combine (o_sections o) (combine places roffs)) w ;;
    w <- fold_m xw_data (combine (o_sections o) (map snd places)) w ;;
    w <- fold_m (xw_relocs is64 ys) (combine (o_sections o) roffs) w ;;
    if negb (symtab_offset =? zlen w) then Panic else
    w <- fold_m (xw_write_symbol is64 t file (map fst places) ys) (combine (o_symbols o) ys) w ;;
    if negb (strtab_offset =? zlen w) then Panic else
    let w := w ++ write_u Big 4 len ++ d in
    if negb (offset =? zlen w) then Panic else Ok w
  | (Err, _, _) => Err
  | (Panic, _, _) => Panic
  end.
