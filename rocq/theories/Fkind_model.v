(** Model of FileKind (src/read/mod.rs 271-351), of Mach-O universal binaries (src/read/macho/fat.rs) and of COFF short import files
    (src/read/coff/import.rs).  Definitions only. *)
From Verif Require Export Hash_model Pe_model Enum_model.

(** * FileKind *)
(** src/read/mod.rs 182-265 [FileKind], all features enabled (without [wasm] the last but three falls to the error) *)
Inductive fkind := FkArchive | FkCoff | FkCoffBig | FkCoffImport | FkDyldCache | FkElf32 | FkElf64 | FkMach32 | FkMach64 | FkFat32 | FkFat64
  | FkPe32 | FkPe64 | FkWasm | FkXcoff32 | FkXcoff64.
(** src/read/coff/file.rs 304-309 [anon_object_class_id] (src/pe.rs 720-733: 32 bytes) *)
Definition anon_object_class_id (data : bytes) : out bytes := h <- rr_read_at data 0 32 ;; Ok (zslice 12 16 h).
(** 274-350 [parse_at]; a slice pattern with [..] is a comparison with a prefix *)
Definition fkind_parse_at (data : bytes) (offset : Z) : out fkind :=
  magic <- rr_read_bytes_at data offset 16 ;;
  if zlen magic <? 16 then Err else
  let pfx p := bytes_eqb (ztake (zlen p) magic) p in
  if pfx [33; 60; 97; 114; 99; 104; 62; 10] || pfx [33; 60; 116; 104; 105; 110; 62; 10] then Ok FkArchive
  else if pfx [100; 121; 108; 100; 95; 118; 49; 32] then Ok FkDyldCache
  else if pfx [127; 69; 76; 70; 1] then Ok FkElf32
  else if pfx [127; 69; 76; 70; 2] then Ok FkElf64
  else if pfx [254; 237; 250; 206] || pfx [206; 250; 237; 254] then Ok FkMach32
  else if pfx [254; 237; 250; 207] || pfx [207; 250; 237; 254] then Ok FkMach64
  else if pfx [202; 254; 186; 190] then Ok FkFat32
  else if pfx [202; 254; 186; 191] then Ok FkFat64
  else if pfx [0; 97; 115; 109] && bytes_eqb (zslice 6 2 magic) [0; 0] then Ok FkWasm
  else if pfx [77; 90] && (offset =? 0) then
    match optional_header_magic data with
    | Ok m => if m =? 267 then Ok FkPe32 else if m =? 523 then Ok FkPe64 else Err
    | Err => Err
    | Panic => Panic
    end
  else if pfx [196; 1] || pfx [100; 170] || pfx [65; 166] || pfx [240; 1] || pfx [241; 1] || pfx [242; 1] || pfx [76; 1] || pfx [100; 134] then Ok FkCoff
  else if pfx [0; 0; 255; 255; 0; 0] then Ok FkCoffImport
  else if pfx [0; 0; 255; 255; 2; 0] && (offset =? 0) then
    match anon_object_class_id data with
    | Ok c => if bytes_eqb c BIGOBJ_CLASS then Ok FkCoffBig else Err
    | Err => Err
    | Panic => Panic
    end
  else if pfx [1; 223] then Ok FkXcoff32
  else if pfx [1; 247] then Ok FkXcoff64
  else Err.
(** 269-271 [parse] *)
Definition fkind_parse (data : bytes) : out fkind := fkind_parse_at data 0.

(** * Universal binaries *)
(** src/macho.rs 995-1006, 1021-1034: the fields of an entry *)
Record fatarch := { ft_cputype : Z; ft_cpusubtype : Z; ft_offset : Z; ft_size : Z; ft_align : Z; ft_reserved : Z }.
Definition fat_size (is64 : bool) : Z := if is64 then 32 else 20.
(** fat.rs 97-117, 124-144 (accessors); [reserved] has none *)
Definition fat_of (is64 : bool) (b : bytes) : fatarch :=
  if is64 then {| ft_cputype := fld Big 0 4 b; ft_cpusubtype := fld Big 4 4 b; ft_offset := fld Big 8 8 b; ft_size := fld Big 16 8 b; ft_align := fld Big 24 4 b; ft_reserved := fld Big 28 4 b |}
  else {| ft_cputype := fld Big 0 4 b; ft_cpusubtype := fld Big 4 4 b; ft_offset := fld Big 8 4 b; ft_size := fld Big 12 4 b; ft_align := fld Big 16 4 b; ft_reserved := 0 |}.
(** fat.rs 32-45 [parse], 53-55 [arches] *)
Definition fat_parse (is64 : bool) (data : bytes) : out (list fatarch) :=
  match rr_read data 0 8 with
  | (Ok h, o) =>
    if negb (fld Big 0 4 h =? (if is64 then 3405691583 else 3405691582)) then Err
    else match rr_read_slice data o (fat_size is64) (fld Big 4 4 h) with
         | (Ok l, _) => Ok (map (fat_of is64) l)
         | (Err, _) => Err
         | (Panic, _) => Panic
         end
  | (Err, _) => Err
  | (Panic, _) => Panic
  end.
(** 70-81 [architecture] (src/macho.rs: CPU_TYPE constants) *)
Definition fat_arch (a : fatarch) : arch :=
  let c := ft_cputype a in
  if c =? 12 then AArm else if c =? 16777228 then AAarch64 else if c =? 7 then AI386 else if c =? 16777223 then AX86_64
  else if c =? 8 then AMips else if c =? 18 then APowerPc else if c =? 16777234 then APowerPc64 else AUnknown.
(** 83-85 [file_range], 87-90 [data] *)
Definition fat_range (a : fatarch) : Z * Z := (ft_offset a, ft_size a).
Definition fat_data (a : fatarch) (file : bytes) : out bytes := rr_read_bytes_at file (ft_offset a) (ft_size a).

(** * Short imports *)
Inductive itype := ItCode | ItData | ItConst.
Record importfile := { im_machine : Z; im_ordinal : Z; im_kind : itype; im_dll : bytes; im_symbol : bytes; im_import : option bytes }.
(** import.rs 36-41 [strip_prefix] *)
Definition im_strip (s : bytes) : bytes := match s with b :: rest => if (b =? 63) || (b =? 64) || (b =? 95) then rest else s | [] => s end.
(** [split(|&b| b == b'@').next()]: what precedes the first [@] *)
Fixpoint im_until_at (s : bytes) : bytes := match s with [] => [] | b :: r => if b =? 64 then [] else b :: im_until_at r end.
(** src/pe.rs 3666-3673 *)
Definition im_itype (w : Z) : Z := Z.land w 3.
Definition im_ntype (w : Z) : Z := Z.land (Z.shiftr w 2) 7.
(** import.rs 134-148 [ImportObjectHeader::parse]: 20 bytes (src/pe.rs 3626-3645) *)
Definition im_header (data : bytes) : out (bytes * Z) :=
  match rr_read data 0 20 with
  | (Ok h, o) => if negb (fld Little 0 2 h =? 0) || negb (fld Little 2 2 h =? 65535) then Err else if negb (fld Little 4 2 h =? 0) then Err else Ok (h, o)
  | (Err, _) => Err
  | (Panic, _) => Panic
  end.
(** 151-183 [parse_data]: symbol, dll, export *)
Definition im_data (data h : bytes) (offset : Z) : out (bytes * bytes * option bytes) :=
  match rr_read_bytes data offset (fld Little 12 4 h) with
  | (Ok d, _) =>
    fst (do symbol, d <- b_read_string d ;;
         do dll, d <- b_read_string d ;;
         if im_ntype (fld Little 18 2 h) =? 4 then do x, d <- b_read_string d ;; (Ok (symbol, dll, Some x), d) else (Ok (symbol, dll, None), d))
  | (Err, _) => Err
  | (Panic, _) => Panic
  end.
(** 29-67 [ImportFile::parse] *)
Definition import_parse (data : bytes) : out importfile :=
  ' r <- im_header data ;;
  let '(h, o) := r in
  ' d <- im_data data h o ;;
  let '(symbol, dll, export) := d in
  let w := fld Little 18 2 h in
  kind <- (if im_itype w =? 0 then Ok ItCode else if im_itype w =? 1 then Ok ItData else if im_itype w =? 2 then Ok ItConst else Err) ;;
  import <- (let n := im_ntype w in
             if n =? 0 then Ok None else if n =? 1 then Ok (Some symbol) else if n =? 2 then Ok (Some (im_strip symbol))
             else if n =? 3 then Ok (Some (im_until_at (im_strip symbol))) else if n =? 4 then Ok export else Err) ;;
  Ok {| im_machine := fld Little 6 2 h; im_ordinal := fld Little 16 2 h; im_kind := kind; im_dll := dll; im_symbol := symbol; im_import := import |}.
(** 107-112 [ImportName], 96-102 [import] *)
Inductive iname := InOrdinal (o : Z) | InName (n : bytes).
Definition im_name (f : importfile) : iname := match im_import f with Some n => InName n | None => InOrdinal (im_ordinal f) end.
(** 70-78 [architecture], 81-86 [sub_architecture] *)
Definition im_arch (f : importfile) : arch :=
  let m := im_machine f in
  if m =? 452 then AArm else if (m =? 43620) || (m =? 42561) then AAarch64 else if m =? 332 then AI386 else if m =? 34404 then AX86_64 else AUnknown.
Definition im_subarch (f : importfile) : bool := im_machine f =? 42561.
