(** Model of the Mach-O reader: src/read/macho/{file,load_command,segment,section,symbol,function_starts}.rs.  Definitions only.
    A file is a slice of bytes, so the data of every segment and section is the whole file (dyld caches are not modelled here). *)
From Verif Require Export Iter_model Hash_model Enum_model Kind_model Obj_model Coff_model.

(** * File header: src/macho.rs 1043-1058, 1071-1088; src/read/macho/file.rs 736-764 *)
Definition mach_header_size (is64 : bool) : Z := if is64 then 32 else 28.
Definition mh_magic (h : bytes) : Z := fld Big 0 4 h.
Definition mh_cputype (e : endian) (h : bytes) : Z := fld e 4 4 h.
Definition mh_cpusubtype (e : endian) (h : bytes) : Z := fld e 8 4 h.
Definition mh_filetype (e : endian) (h : bytes) : Z := fld e 12 4 h.
Definition mh_ncmds (e : endian) (h : bytes) : Z := fld e 16 4 h.
Definition mh_sizeofcmds (e : endian) (h : bytes) : Z := fld e 20 4 h.
Definition mh_flags (e : endian) (h : bytes) : Z := fld e 24 4 h.
(** src/macho.rs 1062-1064, 1092-1094 [MH_MAGIC] ...; file.rs 802-808, 852-858 [is_big_endian], [is_little_endian] *)
Definition mh_is_big (is64 : bool) (h : bytes) : bool := mh_magic h =? (if is64 then 4277009103 else 4277009102).
Definition mh_is_little (is64 : bool) (h : bytes) : bool := mh_magic h =? (if is64 then 3489328638 else 3472551422).
(** file.rs 736-752 [parse] and [endian]: the endian parameter accepts both orders (src/endian.rs [Endianness]) *)
Definition mach_header_parse (is64 : bool) (data : bytes) (offset : Z) : out (bytes * endian) :=
  h <- rr_read_at data offset (mach_header_size is64) ;;
  if mh_is_little is64 h || mh_is_big is64 h then Ok (h, if mh_is_big is64 h then Big else Little) else Err.

(** * Load commands: src/read/macho/load_command.rs *)
(** 12-17 [LoadCommandIterator], 79-85 [LoadCommandData] *)
Record lcit := { li_data : bytes; li_ncmds : Z; li_offset : Z }.
Record lcmd := { lc_cmd : Z; lc_offset : Z; lc_data : bytes }.
(** 44-65 [parse] *)
Definition lc_parse (e : endian) (s : lcit) : out lcmd * lcit :=
  match b_read_at (li_data s) 0 8 with
  | Ok h =>
    let cmd := fld e 0 4 h in
    let size := fld e 4 4 h in
    if size <? 8 then (Err, s) else
    match b_read_bytes (li_data s) size with
    | (Ok b, tl) =>
      match padd 64 (li_offset s) size with
      | Ok o => (Ok {| lc_cmd := cmd; lc_offset := li_offset s; lc_data := b |}, {| li_data := tl; li_ncmds := li_ncmds s; li_offset := o |})
      | _ => (Panic, s)
      end
    | (Err, tl) => (Err, {| li_data := tl; li_ncmds := li_ncmds s; li_offset := li_offset s |})
    | (Panic, _) => (Panic, s)
    end
  | Err => (Err, s)
  | Panic => (Panic, s)
  end.
(** 30-42 [next] *)
Definition lc_set_ncmds (s : lcit) (n : Z) : lcit := {| li_data := li_data s; li_ncmds := n; li_offset := li_offset s |}.
Definition lc_next (e : endian) (s : lcit) : out (option lcmd) * lcit :=
  if li_ncmds s =? 0 then (Ok None, s) else
  match lc_parse e s with
  | (Ok c, s) => (Ok (Some c), lc_set_ncmds s (li_ncmds s - 1))
  | (Err, s) => (Err, lc_set_ncmds s 0)
  | (Panic, s) => (Panic, s)
  end.
(** file.rs 754-770 [load_commands] *)
Definition mach_load_commands (is64 : bool) (e : endian) (h data : bytes) (header_offset : Z) : out lcit :=
  o <- padd 64 header_offset (mach_header_size is64) ;;
  d <- rr_read_bytes_at data o (mh_sizeofcmds e h) ;;
  Ok {| li_data := d; li_ncmds := mh_ncmds e h; li_offset := mach_header_size is64 |}.
(** 107-111 [data], for a type of [size] bytes *)
Definition lc_struct (c : lcmd) (size : Z) : out bytes := b_read_at (lc_data c) 0 size.
(** 122-126 [string], with the offset that the [LcStr] field holds *)
Definition lc_string (c : lcmd) (offset : Z) : out bytes := b_read_string_at (lc_data c) offset.

(** * Segments: src/macho.rs 1416-1447, 1449-1480 *)
Definition LC_SEGMENT := 1.
Definition LC_SYMTAB := 2.
Definition LC_SEGMENT_64 := 25.
Definition seg_size (is64 : bool) : Z := if is64 then 72 else 56.
Record mseg := { g_name : bytes; g_vmaddr : Z; g_vmsize : Z; g_fileoff : Z; g_filesize : Z; g_maxprot : Z; g_initprot : Z; g_nsects : Z;
  g_flags : Z }.
Definition mseg_of (is64 : bool) (e : endian) (b : bytes) : mseg :=
  if is64 then
    {| g_name := zslice 8 16 b; g_vmaddr := fld e 24 8 b; g_vmsize := fld e 32 8 b; g_fileoff := fld e 40 8 b; g_filesize := fld e 48 8 b;
       g_maxprot := fld e 56 4 b; g_initprot := fld e 60 4 b; g_nsects := fld e 64 4 b; g_flags := fld e 68 4 b |}
  else
    {| g_name := zslice 8 16 b; g_vmaddr := fld e 24 4 b; g_vmsize := fld e 28 4 b; g_fileoff := fld e 32 4 b; g_filesize := fld e 36 4 b;
       g_maxprot := fld e 40 4 b; g_initprot := fld e 44 4 b; g_nsects := fld e 48 4 b; g_flags := fld e 52 4 b |}.
(** load_command.rs 203-211, 284-292 [segment_32], [segment_64]; segment.rs [from_command] *)
Definition seg_from_command (is64 : bool) (e : endian) (c : lcmd) : out (option (mseg * bytes)) :=
  if lc_cmd c =? (if is64 then LC_SEGMENT_64 else LC_SEGMENT) then
    match b_read (lc_data c) (seg_size is64) with
    | (Ok b, tl) => Ok (Some (mseg_of is64 e b, tl))
    | (Err, _) => Err
    | (Panic, _) => Panic
    end
  else Ok None.
(** segment.rs 245-251 [name] *)
Definition seg_name (g : mseg) : bytes := until_null (g_name g).
(** 254-268 [file_range], [data] *)
Definition seg_data (data : bytes) (g : mseg) : out bytes := rr_read_bytes_at data (g_fileoff g) (g_filesize g).

(** * Sections: src/macho.rs 1522-1546, 1550-1576 *)
Definition mach_sec_size (is64 : bool) : Z := if is64 then 80 else 68.
Record msec := { x_sectname : bytes; x_segname : bytes; x_addr : Z; x_size : Z; x_offset : Z; x_align : Z; x_reloff : Z; x_nreloc : Z;
  x_flags : Z; x_reserved1 : Z; x_reserved2 : Z; x_reserved3 : Z }.
Definition msec_of (is64 : bool) (e : endian) (b : bytes) : msec :=
  if is64 then
    {| x_sectname := zslice 0 16 b; x_segname := zslice 16 16 b; x_addr := fld e 32 8 b; x_size := fld e 40 8 b; x_offset := fld e 48 4 b;
       x_align := fld e 52 4 b; x_reloff := fld e 56 4 b; x_nreloc := fld e 60 4 b; x_flags := fld e 64 4 b; x_reserved1 := fld e 68 4 b;
       x_reserved2 := fld e 72 4 b; x_reserved3 := fld e 76 4 b |}
  else
    {| x_sectname := zslice 0 16 b; x_segname := zslice 16 16 b; x_addr := fld e 32 4 b; x_size := fld e 36 4 b; x_offset := fld e 40 4 b;
       x_align := fld e 44 4 b; x_reloff := fld e 48 4 b; x_nreloc := fld e 52 4 b; x_flags := fld e 56 4 b; x_reserved1 := fld e 60 4 b;
       x_reserved2 := fld e 64 4 b; x_reserved3 := 0 |}.
(** section.rs 352-367 [name], [segment_name] *)
Definition ms_name (s : msec) : bytes := until_null (x_sectname s).
Definition ms_segment (s : msec) : bytes := until_null (x_segname s).
(** src/macho.rs 1595-1597 [typ] *)
Definition ms_type (s : msec) : Z := Z.land (x_flags s) 255.
(** section.rs 377-382 [file_size] *)
Definition zmem (x : Z) (l : list Z) : bool := existsb (Z.eqb x) l.
Definition ms_file_size (s : msec) : option Z := if zmem (ms_type s) [1; 12; 18] then None else Some (x_size s).
(** 390-393 [file_range]; 402-413 [data] *)
Definition ms_file_range (s : msec) (offset : Z) : option (Z * Z) := option_map (fun n => (offset, n)) (ms_file_size s).
Definition ms_data (data : bytes) (s : msec) (offset : Z) : out bytes :=
  match ms_file_size s with Some n => rr_read_bytes_at data offset n | None => Ok [] end.
(** 419-426 [relocations]: each entry is two words *)
Definition ms_relocs (e : endian) (data : bytes) (s : msec) : out (list (Z * Z)) :=
  l <- rr_read_slice_at data (x_reloff s) 8 (x_nreloc s) ;; Ok (map (fun b => (fld e 0 4 b, fld e 4 4 b)) l).
(** 149-152 [align] *)
Definition ms_align (s : msec) : Z := if x_align s <? 64 then Z.shiftl 1 (x_align s) else 0.
(** 271-322 [parse_kind] *)
Definition DWARF : bytes := [95; 95; 68; 87; 65; 82; 70].
Definition TEXT : bytes := [95; 95; 84; 69; 88; 84].
Definition ms_kind (readonly : option bool) (s : msec) : skind :=
  let segment_name := ms_segment s in
  if bytes_eqb segment_name DWARF then SKDebug else
  if fl_has (x_flags s) 33554432 then SKUnknown else
  let t := ms_type s in
  if zmem t [1; 12] then SKUninitializedData
  else if t =? 2 then SKReadOnlyString
  else if zmem t [3; 4; 14; 5] then SKReadOnlyData
  else if t =? 8 then SKText
  else if t =? 17 then SKTls
  else if t =? 18 then SKUninitializedTls
  else if t =? 19 then SKTlsVariables
  else if zmem t [0; 11; 6; 7; 9; 10; 13; 16; 20; 21; 22] then
    if fl_any (x_flags s) 2147484672 then SKText
    else if match readonly with Some r => r | None => bytes_eqb segment_name TEXT end then SKReadOnlyData
    else SKData
  else SKUnknown.
(** 241-257 [MachOSectionInternal]: kind, header and file offset; the index is the position plus 1 *)
Record msint := { xi_kind : skind; xi_sec : msec; xi_offset : Z }.

(** * Section offsets: segment.rs 184-224 [SectionOffsetIterator::next] and 292-306 [section_offsets], run to the end: the first error
    ends the iteration *)
Fixpoint sec_offsets (overflow : bool) (fin prev : Z) (l : list msec) : out (list (msec * Z)) :=
  match l with
  | [] => Ok []
  | s :: l =>
    let offset := x_offset s in
    match (if overflow then ms_file_size s else None) with
    | Some size =>
      let offset := Z.lor offset (Z.land prev 18446744069414584320) in
      let offset := if offset <? prev then wrap_u 64 (offset + 4294967296) else offset in
      let section_end := wrap_u 64 (offset + size) in
      if fin <? section_end then Err else
      r <- sec_offsets overflow fin section_end l ;; Ok ((s, offset) :: r)
    | None => r <- sec_offsets overflow fin prev l ;; Ok ((s, offset) :: r)
    end
  end.
Definition seg_section_offsets (g : mseg) (l : list msec) : out (list (msec * Z)) :=
  let fin := wrap_u 64 (g_fileoff g + g_filesize g) in
  sec_offsets (4294967295 <? fin) fin (g_fileoff g) l.
(** 273-281 [sections] *)
Definition seg_sections (is64 : bool) (e : endian) (g : mseg) (section_data : bytes) : out (list msec) :=
  l <- rr_read_slice_at section_data 0 (mach_sec_size is64) (g_nsects g) ;; Ok (map (msec_of is64 e) l).
(** file.rs 171-198 [parse_sections]: the sections that it appends *)
Definition mach_parse_sections (is64 : bool) (e : endian) (h : bytes) (g : mseg) (section_data : bytes) : out (list msint) :=
  let readonly := if mh_filetype e h =? 1 then None else Some (negb (fl_has (g_initprot g) 2) || fl_has (g_flags g) 16) in
  l <- seg_sections is64 e g section_data ;;
  l <- seg_section_offsets g l ;;
  Ok (map (fun '(s, o) => {| xi_kind := ms_kind readonly s; xi_sec := s; xi_offset := o |}) l).

(** * Symbols: src/macho.rs 3297-3312, 3315-3330; symbol.rs *)
Definition nlist_size (is64 : bool) : Z := if is64 then 16 else 12.
Record nlist := { n_strx : Z; n_type : Z; n_sect : Z; n_desc : Z; n_value : Z }.
Definition nlist_of (is64 : bool) (e : endian) (b : bytes) : nlist :=
  {| n_strx := fld e 0 4 b; n_type := fld e 4 1 b; n_sect := fld e 5 1 b; n_desc := fld e 6 2 b; n_value := fld e 8 (if is64 then 8 else 4) b |}.
(** 24-39 [SymbolTable] and its default *)
Record msymtab := { mt_symbols : list nlist; mt_strings : strings }.
Definition msymtab_empty : msymtab := {| mt_symbols := []; mt_strings := (None, 0, 0) |}.
(** load_command.rs 214-220 [symtab] (src/macho.rs 2148-2162), 456-473 [symbols] *)
Definition lc_symtab (c : lcmd) : out (option bytes) :=
  if lc_cmd c =? LC_SYMTAB then b <- lc_struct c 24 ;; Ok (Some b) else Ok None.
Definition symtab_symbols (is64 : bool) (e : endian) (b data : bytes) : out msymtab :=
  l <- rr_read_slice_at data (fld e 8 4 b) (nlist_size is64) (fld e 12 4 b) ;;
  let start := fld e 16 4 b in
  fin <- of_opt (cadd 64 start (fld e 20 4 b)) ;;
  Ok {| mt_symbols := map (nlist_of is64 e) l; mt_strings := (Some data, start, fin) |}.

(** * Files: file.rs 45-59 [MachOFile] *)
Record mfile := { mf_64 : bool; mf_endian : endian; mf_header : bytes; mf_segments : list mseg; mf_sections : list msint; mf_symbols : msymtab;
  mf_data : bytes }.
(** 77-94: the loop over the load commands; [fuel] at least the number of commands.  An error of the iterator ends the loop; an error in a
    command is returned. *)
Fixpoint mach_commands (fuel : nat) (is64 : bool) (e : endian) (h data : bytes) (it : lcit) (segs : list mseg) (secs : list msint) (syms : msymtab)
  : out (list mseg * list msint * msymtab) :=
  match fuel with
  | O => Panic
  | S fuel =>
    match lc_next e it with
    | (Ok (Some c), it) =>
      o <- seg_from_command is64 e c ;;
      match o with
      | Some (g, sd) =>
        l <- mach_parse_sections is64 e h g sd ;;
        mach_commands fuel is64 e h data it (segs ++ [g]) (secs ++ l) syms
      | None =>
        y <- lc_symtab c ;;
        match y with
        | Some b => t <- symtab_symbols is64 e b data ;; mach_commands fuel is64 e h data it segs secs t
        | None => mach_commands fuel is64 e h data it segs secs syms
        end
      end
    | (Panic, _) => Panic
    | _ => Ok (segs, secs, syms)
    end
  end.
(** 68-107 [MachOFile::parse] *)
Definition mach_parse (is64 : bool) (data : bytes) : out mfile :=
  ' (h, e) <- mach_header_parse is64 data 0 ;;
  ' (segs, secs, syms) <-
    match mach_load_commands is64 e h data 0 with
    | Ok it => mach_commands (S (Z.to_nat (li_ncmds it))) is64 e h data it [] [] msymtab_empty
    | Err => Ok ([], [], msymtab_empty)
    | Panic => Panic
    end ;;
  Ok {| mf_64 := is64; mf_endian := e; mf_header := h; mf_segments := segs; mf_sections := secs; mf_symbols := syms; mf_data := data |}.
(** 202-211 [section_internal], 441-447 [section_by_index] *)
Definition mach_section (f : mfile) (index : Z) : out msint := i <- of_opt (csub index 1) ;; of_opt (zget (mf_sections f) i).
(** 374-380 [sub_architecture]: whether it is Arm64E; src/macho.rs 148-152 [id] *)
Definition mach_arm64e (f : mfile) : bool :=
  (mh_cputype (mf_endian f) (mf_header f) =? 16777228) && (Z.land (mh_cpusubtype (mf_endian f) (mf_header f)) 16777215 =? 2).
(** 409-437 [section_by_name_bytes]: the matcher that [make_prefix_matcher] returns.  [strip_prefix] is on byte slices. *)
Fixpoint strip_prefix (p b : bytes) : option bytes :=
  match p, b with
  | [], _ => Some b
  | x :: p, y :: b => if x =? y then strip_prefix p b else None
  | _, [] => None
  end.
Definition prefix_matcher (section_name query_prefix name_prefix name : bytes) : bool :=
  match strip_prefix query_prefix section_name with
  | None => false
  | Some suffix =>
    match strip_prefix name_prefix name with
    | Some n => bytes_eqb n (ztake (Z.min (zlen suffix) (16 - zlen name_prefix)) suffix)
    | None => false
    end
  end.
Definition DOT_DEBUG : bytes := [46; 100; 101; 98; 117; 103; 95].
Definition UU_ZDEBUG : bytes := [95; 95; 122; 100; 101; 98; 117; 103; 95].
Definition name_matches (section_name name : bytes) : bool :=
  bytes_eqb name section_name || prefix_matcher section_name [46] [95; 95] name || prefix_matcher section_name DOT_DEBUG UU_ZDEBUG name.
Definition mach_section_by_name (f : mfile) (section_name : bytes) : option msint :=
  find (fun x => name_matches section_name (ms_name (xi_sec x))) (mf_sections f).

(** symbol.rs 89-93 [symbol]; 232-235 and file.rs 460-463 [symbol_by_index] *)
Definition is_stab (n : nlist) : bool := negb (Z.land (n_type n) 224 =? 0).
Definition n_typ (n : nlist) : Z := Z.land (n_type n) 14.
Definition mach_symbol (f : mfile) (index : Z) : out nlist := of_opt (zget (mt_symbols (mf_symbols f)) index).
Definition mach_symbol_by_index (f : mfile) (index : Z) : out nlist := n <- mach_symbol f index ;; if is_stab n then Err else Ok n.
(** 292-302 [MachOSymbolIterator::next]: the state is the index; [fuel] at least the number of symbols left *)
Fixpoint sym_next (fuel : nat) (f : mfile) (index : Z) : out (option (Z * nlist)) * Z :=
  match fuel with
  | O => (Panic, index)
  | S fuel =>
    match zget (mt_symbols (mf_symbols f)) index with
    | None => (Ok None, index)
    | Some n =>
      match padd 64 index 1 with
      | Ok i => if is_stab n then sym_next fuel f i else (Ok (Some (index, n)), i)
      | _ => (Panic, index)
      end
    end
  end.
Definition mach_sym_next (f : mfile) (index : Z) : out (option (Z * nlist)) * Z := sym_next (S (length (mt_symbols (mf_symbols f)))) f index.
(** 518-525 [name]; 369-371 [name_bytes] *)
Definition nlist_name (t : msymtab) (n : nlist) : out bytes := strings_get (mt_strings t) (n_strx n).
Definition my_name (f : mfile) (n : nlist) : out bytes := nlist_name (mf_symbols f) n.
(** 543-565 [is_undefined], [is_common], [is_definition] *)
Definition my_is_undefined (n : nlist) : bool := negb (is_stab n) && (n_typ n =? 0) && (n_value n =? 0).
Definition my_is_common (n : nlist) : bool := negb (is_stab n) && (n_typ n =? 0) && negb (n_value n =? 0).
Definition my_is_definition (n : nlist) : bool := negb (is_stab n) && (n_typ n =? 14).
(** 381-395 [address], [size] *)
Definition my_address (n : nlist) : Z := if my_is_common n then 0 else n_value n.
Definition my_size (n : nlist) : Z := if my_is_common n then n_value n else 0.
(** 432-453 [section] *)
Definition my_section (n : nlist) : rsec :=
  if n_typ n =? 0 then if my_is_common n then RCommon else RUndefined
  else if n_typ n =? 2 then RAbsolute
  else if n_typ n =? 14 then if n_sect n =? 0 then RUnknown else RSection (n_sect n)
  else RUnknown.
(** 470-496 [is_weak], [scope], [is_global], [is_local]; src/macho.rs 3379-3390 *)
Definition my_is_weak (n : nlist) : bool := fl_any (n_desc n) 192.
Definition my_scope (n : nlist) : scope :=
  if my_is_undefined n then ScUnknown
  else if negb (fl_has (n_type n) 1) then ScCompilation
  else if fl_has (n_type n) 17 then ScLinkage
  else ScDynamic.
Definition my_is_local (n : nlist) : bool := match my_scope n with ScCompilation => true | _ => false end.
Definition my_is_global (n : nlist) : bool := negb (my_is_local n).
(** 397-430 [kind] *)
Definition LTMP : bytes := [108; 116; 109; 112].
Definition is_ltmp (name : bytes) : bool :=
  (4 <? zlen name) && bytes_eqb (ztake 4 name) LTMP && forallb (fun b => (48 <=? b) && (b <=? 57)) (zdrop 4 name).
Definition my_kind (f : mfile) (n : nlist) : symkind :=
  match (match my_section n with RSection i => match mach_section f i with Ok s => Some s | _ => None end | _ => None end) with
  | Some s =>
    if my_is_local n && match my_name f n with Ok name => is_ltmp name | _ => false end && (my_address n =? x_addr (xi_sec s)) then YSection else
    match xi_kind s with
    | SKText => YText
    | SKData | SKReadOnlyData | SKReadOnlyString | SKUninitializedData => YData
    | SKTls | SKUninitializedTls | SKTlsVariables => YTls
    | _ => YUnknown
    end
  | None => if my_is_common n then YData else YUnknown
  end.

(** * Object map: symbol.rs 120-187 [object_map].  src/read/mod.rs [ObjectMapFile], [ObjectMapEntry] *)
Record omfile := { of_path : bytes; of_member : option bytes }.
Record omentry := { oe_address : Z; oe_size : Z; oe_name : bytes; oe_object : Z }.
(** 148-158: [split_last], [position], [split_at] *)
Definition oso_split (name : bytes) : omfile :=
  match rev name with
  | 41 :: rhead =>
    let head := rev rhead in
    match memchr 40 head with
    | Some i => {| of_path := ztake i head; of_member := Some (zdrop 1 (zdrop i head)) |}
    | None => {| of_path := name; of_member := None |}
    end
  | _ => {| of_path := name; of_member := None |}
  end.
Record omst := { om_symbols : list omentry; om_objects : list omfile; om_object : option Z; om_fun : option (bytes * Z) }.
Definition om_step (t : msymtab) (st : omst) (n : nlist) : omst :=
  if negb (is_stab n) then st else
  let name := nlist_name t n in
  if n_type n =? 100 then (* N_SO *)
    {| om_symbols := om_symbols st; om_objects := om_objects st; om_object := None; om_fun := om_fun st |}
  else if n_type n =? 102 then (* N_OSO *)
    match name with
    | Ok (c :: name') =>
      {| om_symbols := om_symbols st; om_objects := om_objects st ++ [oso_split (c :: name')]; om_object := Some (zlen (om_objects st)); om_fun := om_fun st |}
    | _ => {| om_symbols := om_symbols st; om_objects := om_objects st; om_object := None; om_fun := om_fun st |}
    end
  else if n_type n =? 36 then (* N_FUN *)
    match name with
    | Ok (c :: name') => {| om_symbols := om_symbols st; om_objects := om_objects st; om_object := om_object st; om_fun := Some (c :: name', n_value n) |}
    | Ok [] =>
      {| om_symbols := om_symbols st ++
           match om_fun st, om_object st with
           | Some (nm, a), Some o => [{| oe_address := a; oe_size := n_value n; oe_name := nm; oe_object := o |}]
           | _, _ => []
           end;
         om_objects := om_objects st; om_object := om_object st; om_fun := None |}
    | _ => st
    end
  else if n_type n =? 38 then (* N_STSYM *)
    match name, om_object st with
    | Ok nm, Some o =>
      {| om_symbols := om_symbols st ++ [{| oe_address := n_value n; oe_size := 0; oe_name := nm; oe_object := o |}];
         om_objects := om_objects st; om_object := om_object st; om_fun := om_fun st |}
    | _, _ => st
    end
  else st.
(** the entries before they are put into the sorted map (see Map_model.v), and the objects *)
Definition mach_object_map (t : msymtab) : list omentry * list omfile :=
  let st := fold_left (om_step t) (mt_symbols t) {| om_symbols := []; om_objects := []; om_object := None; om_fun := None |} in
  (om_symbols st, om_objects st).

(** * Function starts: function_starts.rs 21-50 *)
Definition fs_parse (st : bytes * Z) : out (option Z) * (bytes * Z) :=
  match read_uleb128 (fst st) with
  | (Ok delta, d) =>
    if delta =? 0 then (Ok None, ([], snd st)) else
    match cadd 64 (snd st) delta with
    | Some a => (Ok (Some a), (d, a))
    | None => (Err, (d, snd st))
    end
  | (Err, d) => (Err, (d, snd st))
  | (Panic, d) => (Panic, (d, snd st))
  end.
Definition fs_next (st : bytes * Z) : out (option Z) * (bytes * Z) :=
  match fst st with
  | [] => (Ok None, st)
  | _ => match fs_parse st with (Err, st) => (Err, ([], snd st)) | r => r end
  end.

(** * Indirect symbols: load_command.rs 483-493, section.rs 442-470 *)
Definition dysymtab_indirect (e : endian) (b data : bytes) : out (list Z) :=
  l <- rr_read_slice_at data (fld e 56 4 b) 4 (fld e 60 4 b) ;; Ok (map (read_u e) l).
Definition ms_indirect (is64 : bool) (s : msec) (l : list Z) : out (list Z) :=
  let go entry_size :=
    tl <- of_opt (get_from l (x_reserved1 s)) ;; of_opt (get_to tl (x_size s / entry_size)) in
  if zmem (ms_type s) [6; 7; 16; 20] then go (if is64 then 8 else 4)
  else if ms_type s =? 8 then if x_reserved2 s =? 0 then Err else go (x_reserved2 s)
  else Ok [].

(** * Entry point and UUID: file.rs 517-560, 773-787; src/macho.rs LC_MAIN 0x80000028, LC_UNIXTHREAD 5, LC_UUID 0x1b *)
Definition thread_pc (e : endian) (cputype : Z) (d : bytes) : option Z :=
  let '(off, size) :=
    if cputype =? 16777223 then (8 + 16 * 8, 8) else if cputype =? 16777228 then (8 + 32 * 8, 8)
    else if cputype =? 7 then (8 + 10 * 4, 4) else if cputype =? 12 then (8 + 15 * 4, 4) else (0, 0) in
  if size =? 0 then None else option_map (read_u e) (get_range d off (off + size)).
Fixpoint entry_loop (fuel : nat) (e : endian) (h : bytes) (it : lcit) : out Z :=
  match fuel with
  | O => Panic
  | S fuel =>
    match lc_next e it with
    | (Ok (Some c), it) =>
      match (if lc_cmd c =? 2147483688 then match lc_struct c 24 with Ok b => Some (fld e 8 8 b) | _ => None end else None) with
      | Some x => Ok x
      | None =>
        match (if lc_cmd c =? 5 then match b_read (lc_data c) 8 with (Ok _, tl) => thread_pc e (mh_cputype e h) tl | _ => None end else None) with
        | Some x => Ok x
        | None => entry_loop fuel e h it
        end
      end
    | (Panic, _) => Panic
    | _ => Ok 0
    end
  end.
Definition mach_entry (f : mfile) : out Z :=
  match mach_load_commands (mf_64 f) (mf_endian f) (mf_header f) (mf_data f) 0 with
  | Ok it => entry_loop (S (Z.to_nat (li_ncmds it))) (mf_endian f) (mf_header f) it
  | Err => Ok 0
  | Panic => Panic
  end.
Fixpoint uuid_loop (fuel : nat) (e : endian) (it : lcit) : out (option bytes) :=
  match fuel with
  | O => Panic
  | S fuel =>
    match lc_next e it with
    | (Ok (Some c), it) =>
      match (if lc_cmd c =? 27 then match lc_struct c 24 with Ok b => Some (zslice 8 16 b) | _ => None end else None) with
      | Some u => Ok (Some u)
      | None => uuid_loop fuel e it
      end
    | (Ok None, _) => Ok None
    | (Err, _) => Err
    | (Panic, _) => Panic
    end
  end.
Definition mach_uuid (f : mfile) : out (option bytes) :=
  it <- mach_load_commands (mf_64 f) (mf_endian f) (mf_header f) (mf_data f) 0 ;;
  uuid_loop (S (Z.to_nat (li_ncmds it))) (mf_endian f) it.
