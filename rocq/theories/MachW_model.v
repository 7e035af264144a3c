(** Model of the Mach-O object writer: [macho_write] of src/write/macho/object.rs and the parts of src/write/macho/encoder.rs that it uses.
    Definitions only.  The buffer is a [Vec<u8>] that never runs out of memory; it is empty at the start (the counting buffer starts at 0). *)
From Verif Require Map_model.
From Verif Require Export Str_model Obj_model Mach_model CoffW_model.

(** src/write/mod.rs 69-96: the fields of [Object] that [obj] does not have: [sub_architecture], [macho_cpu_subtype], the flags of
    [FileFlags::MachO], and [macho_build_version] (platform, minos, sdk) *)
Record mopts := { mo_sub : option subarch; mo_cpusub : option Z; mo_flags : option Z; mo_build : option (Z * Z * Z) }.

(** * Encoder *)
(** encoder.rs 329-331 [address_size] *)
Definition mw_word (is64 : bool) : Z := if is64 then 8 else 4.
Definition mw_u (is64 : bool) (e : endian) (v : Z) : bytes := if is64 then write_u e 8 v else write_u e 4 v.
(** 345-385 [mach_header] *)
Definition mw_header (is64 : bool) (e : endian) (cputype cpusubtype filetype ncmds sizeofcmds flags : Z) : bytes :=
  write_u Big 4 (if is64 then match e with Big => 4277009103 | Little => 3489328638 end else match e with Big => 4277009102 | Little => 3472551422 end) ++
  write_u e 4 cputype ++ write_u e 4 cpusubtype ++ write_u e 4 filetype ++ write_u e 4 ncmds ++ write_u e 4 sizeofcmds ++ write_u e 4 flags ++
  (if is64 then write_u e 4 0 else []).
(** 412-418 [segment_command_size], 465-471 [section_header_size] *)
Definition mw_segment_size (is64 : bool) (nsects : Z) : Z := seg_size is64 + nsects * mach_sec_size is64.
(** 424-462 [segment_command] *)
Definition mw_segment (is64 : bool) (e : endian) (g : mseg) : bytes :=
  write_u e 4 (if is64 then LC_SEGMENT_64 else LC_SEGMENT) ++ write_u e 4 (mw_segment_size is64 (g_nsects g)) ++ g_name g ++
  mw_u is64 e (g_vmaddr g) ++ mw_u is64 e (g_vmsize g) ++ mw_u is64 e (g_fileoff g) ++
  mw_u is64 e (g_filesize g) ++ write_u e 4 (g_maxprot g) ++ write_u e 4 (g_initprot g) ++ write_u e 4 (g_nsects g) ++ write_u e 4 (g_flags g).
(** 477-515 [section_header] *)
Definition mw_section (is64 : bool) (e : endian) (s : msec) : bytes :=
  x_sectname s ++ x_segname s ++ mw_u is64 e (x_addr s) ++ mw_u is64 e (x_size s) ++ write_u e 4 (x_offset s) ++
  write_u e 4 (x_align s) ++ write_u e 4 (x_reloff s) ++ write_u e 4 (x_nreloc s) ++ write_u e 4 (x_flags s) ++ write_u e 4 (x_reserved1 s) ++
  write_u e 4 (x_reserved2 s) ++ (if is64 then write_u e 4 (x_reserved3 s) else []).
(** 525-531 [relocation] *)
Definition mw_relocation (e : endian) (i : minfo) : bytes := let w := minfo_pack e i in write_u e 4 (fst w) ++ write_u e 4 (snd w).
(** 539-554 [symtab_command] *)
Definition mw_symtab (e : endian) (symoff nsyms stroff strsize : Z) : bytes :=
  write_u e 4 LC_SYMTAB ++ write_u e 4 24 ++ write_u e 4 symoff ++ write_u e 4 nsyms ++ write_u e 4 stroff ++ write_u e 4 strsize.
(** 568-589 [nlist] *)
Definition mw_nlist (is64 : bool) (e : endian) (n : nlist) : bytes :=
  write_u e 4 (n_strx n) ++ [n_type n] ++ [n_sect n] ++ write_u e 2 (n_desc n) ++ mw_u is64 e (n_value n).
(** 596-606 [strtab]: length, bytes and the table with its offsets *)
Definition mw_strtab (is64 : bool) (t : strtab) : out (Z * bytes * strtab) :=
  match st_write t 1 with
  | (Ok len, d, t) => n <- align 64 len (mw_word is64) ;; if n <? 2 ^ 32 then Ok (n, [0] ++ d ++ zeros (n - len), t) else Err
  | (Err, _, _) => Err
  | (Panic, _, _) => Panic
  end.
(** 614-643 [dysymtab_command]; all fields after the sixth are 0 *)
Definition mw_dysymtab (e : endian) (nlocal nextdef nundef : Z) : bytes :=
  write_u e 4 11 ++ write_u e 4 80 ++ write_u e 4 0 ++ write_u e 4 nlocal ++ write_u e 4 nlocal ++ write_u e 4 nextdef ++ write_u e 4 (nlocal + nextdef) ++
  write_u e 4 nundef ++ zeros 48.
(** 703-722 [build_version_command] *)
Definition mw_build (e : endian) (b : Z * Z * Z) : bytes :=
  let '(platform, minos, sdk) := b in
  write_u e 4 50 ++ write_u e 4 24 ++ write_u e 4 platform ++ write_u e 4 minos ++ write_u e 4 sdk ++ write_u e 4 0.

(** * src/write/macho/object.rs *)
(** 141-168 [macho_section_flags]; src/write/mod.rs 362-368 [section_flags]: flags and reserved2 *)
Definition macho_section_flags (k : skind) : option Z :=
  match k with
  | SKText => Some 2147484672
  | SKData | SKReadOnlyData | SKReadOnlyDataWithRel | SKOther | SKLinker | SKMetadata => Some 0
  | SKReadOnlyString | SKOtherString => Some 2
  | SKUninitializedData => Some 1
  | SKTls => Some 17
  | SKUninitializedTls => Some 18
  | SKTlsVariables => Some 19
  | SKDebug | SKDebugString => Some 33554432
  | SKNote | SKUnknown => None
  end.
Definition mw_section_flags (s : osec) : out (Z * Z) :=
  match se_flags s with
  | SFMachO f r => Ok (f, r)
  | SFNone => of_opt (option_map (fun f => (f, 0)) (macho_section_flags (se_kind s)))
  | _ => Err
  end.
(** [u64::trailing_zeros] *)
Fixpoint tz (fuel : nat) (x : Z) : Z :=
  match fuel with O => 0 | S fuel => if Z.odd x then 0 else 1 + tz fuel (x / 2) end.
Definition trailing_zeros (x : Z) : Z := tz 64 x.
(** 170-203 [macho_symbol_flags]; src/macho.rs 3536-3539 [with_common_alignment]; src/write/mod.rs 494-500 [symbol_flags] *)
Definition macho_symbol_flags (y : osym) : option (Z * Z) :=
  let t := match sy_section y with YUndefined | YCommon => Some 1 | YAbsolute => Some 2 | YSec _ => Some 14 | YNone => None end in
  let s := match sy_scope y with ScUnknown | ScCompilation => 0 | ScLinkage => 17 | ScDynamic => 1 end in
  let d := if sy_weak y then match sy_section y with YUndefined => 64 | _ => 128 end else 0 in
  let d := match sy_section y with
           | YCommon => Z.lor (Z.land d 61695) (Z.shiftl (if 1 <? sy_value y then Z.min (trailing_zeros (sy_value y)) 15 else 0) 8)
           | _ => d
           end in
  option_map (fun t => (Z.lor t s, d)) t.
Definition mw_symbol_flags (y : osym) : out (Z * Z) :=
  match sy_flags y with
  | Some (YFMachO t d) => Ok (t, d)
  | None => of_opt (macho_symbol_flags y)
  | _ => Err
  end.
(** 441-449 [Offset::reserve] *)
Definition mw_reserve (off size al : Z) : out (Z * Z) := o <- align 64 off al ;; n <- padd 64 o size ;; Ok (o, n).
(** 493-516: address and file offset of each section; first those with data, from [base] in the file, then the others *)
Definition lay_data (base : Z) (s : osec) (address : Z) : out (option (Z * Z) * Z) :=
  if is_bss (se_kind s) then Ok (None, address) else
  a <- align 64 address (se_align s) ;; o <- padd 64 base a ;; n <- padd 64 a (se_size s) ;; Ok (Some (a, o), n).
Definition lay_bss (x : osec * option (Z * Z)) (address : Z) : out ((Z * Z) * Z) :=
  match snd x with
  | Some p => Ok (p, address)
  | None =>
    if negb (zlen (se_data (fst x)) =? 0) then Panic else
    a <- align 64 address (se_align (fst x)) ;; n <- padd 64 a (se_size (fst x)) ;; Ok ((a, 0), n)
  end.
(** 527-565: what becomes of a symbol, and its name in the string table *)
Inductive mpart := PLocal | PExternal | PUndefined.
Definition mw_symbol (a : arch) (y : osym) (t : strtab) : out (option (mpart * option Z) * strtab) :=
  emit <- match sy_kind y with
          | YText | YData | YTls | YUnknown => Ok true
          | YSection => Ok (match a with AAarch64 | AAarch64_Ilp32 => true | _ => false end)
          | YFile => Ok false
          | YLabel => Err
          end ;;
  if negb (emit : bool) then Ok (None, t) else
  ' (id, t) <- match sy_name y with
               | [] => Ok (None, t)
               | _ => match st_add t (sy_name y) with (Ok id, t) => Ok (Some id, t) | (Err, _) => Err | (Panic, _) => Panic end
               end ;;
  Ok (Some (match sy_section y with
            | YUndefined | YCommon => PUndefined
            | _ => match sy_scope y with ScCompilation => PLocal | _ => PExternal end
            end, id), t).
(** the positions of the symbols of a part *)
Definition part_is (p q : mpart) : bool := match p, q with PLocal, PLocal | PExternal, PExternal | PUndefined, PUndefined => true | _, _ => false end.
Definition mw_part (l : list (option (mpart * option Z))) (p : mpart) : list Z :=
  map fst (filter (fun x => match snd x with Some (q, _) => part_is p q | None => false end) (combine (seqZ (length l)) l)).
(** 567-568 [sort_by_key] on names: a stable sort *)
Definition mw_name (o : obj) (i : Z) : bytes := match zget (o_symbols o) i with Some y => sy_name y | None => [] end.
Definition mw_sort (o : obj) (l : list Z) : list Z := Map_model.sort_by (fun i j => Map_model.bytes_leb (mw_name o i) (mw_name o j)) l.
(** 570-583: [symbol_offsets[i].index], 0 for a symbol that is not written; out of bounds panics *)
Fixpoint position (i : Z) (l : list Z) : option Z :=
  match l with [] => None | j :: l => if i =? j then Some 0 else option_map (Z.add 1) (position i l) end.
Definition mw_index (o : obj) (order : list Z) (i : Z) : out Z :=
  if (0 <=? i) && (i <? zlen (o_symbols o)) then Ok (match position i order with Some k => k | None => 0 end) else Panic.
(** 586-600: file offset and number of the relocation entries of a section *)
Definition mw_entries (r : orel) : Z := 1 + Z.b2z (negb (ol_addend r =? 0)) + match ol_sub r with Some _ => 1 | None => 0 end.
Definition lay_relocs (is64 : bool) (s : osec) (off : Z) : out ((Z * Z) * Z) :=
  count <- fold_m (fun r n => padd 32 n (mw_entries r)) (se_relocs s) 0 ;;
  if count =? 0 then Ok ((0, 0), off) else ' (o, n) <- mw_reserve off (count * 8) (mw_word is64) ;; Ok ((o, count), n).
(** 619-641: CPU type and subtype *)
Definition mw_cpu (a : arch) (sub : option subarch) : out (Z * Z) :=
  match a, sub with
  | AArm, None => Ok (12, 0)
  | AAarch64, None => Ok (16777228, 0)
  | AAarch64, Some SubArm64E => Ok (16777228, 2)
  | AAarch64_Ilp32, None => Ok (33554444, 1)
  | AI386, None => Ok (7, 3)
  | AX86_64, None => Ok (16777223, 3)
  | APowerPc, None => Ok (18, 0)
  | APowerPc64, None => Ok (16777234, 0)
  | _, _ => Err
  end.
(** 684-702: a name field *)
Definition mw_field (name : bytes) : out bytes := if 16 <? zlen name then Err else Ok (name ++ zeros (16 - zlen name)).
(** 683-726: a section header *)
Definition mw_section_header (is64 : bool) (e : endian) (x : osec * ((Z * Z) * (Z * Z))) (buf : bytes) : out bytes :=
  let '(s, ((address, offset), (reloff, nreloc))) := x in
  sectname <- mw_field (se_name s) ;;
  segname <- mw_field (se_segment s) ;;
  ' (flags, reserved2) <- mw_section_flags s ;;
  Ok (buf ++ mw_section is64 e {| x_sectname := sectname; x_segname := segname; x_addr := address; x_size := se_size s; x_offset := offset;
    x_align := trailing_zeros (se_align s); x_reloff := reloff; x_nreloc := nreloc; x_flags := flags; x_reserved1 := 0; x_reserved2 := reserved2;
    x_reserved3 := 0 |}).
(** src/write/util.rs 144-147 [CountingBuffer::resize] *)
Definition mw_resize (b : bytes) (n : Z) : out bytes := if n <? zlen b then Panic else Ok (b ++ zeros (n - zlen b)).
Definition mw_assert (b : bytes) (n : Z) : out unit := if n =? zlen b then Ok tt else Panic.
(** 762-767: the data of a section *)
Definition mw_data (x : osec * ((Z * Z) * (Z * Z))) (buf : bytes) : out bytes :=
  if is_bss (se_kind (fst x)) then Ok buf else b <- mw_resize buf (snd (fst (snd x))) ;; Ok (b ++ se_data (fst x)).
(** 776-850 [write_reloc]: see [macho_entries] in Kind_model.v *)
Definition mw_target (o : obj) (order : list Z) (i : Z) : out (Z * bool) :=
  y <- unwrap (zget (o_symbols o) i) ;;
  match sy_kind y with
  | YSection =>
    match sy_section y with YSec id => _ <- unwrap (zget (o_sections o) id) ;; Ok (id + 1, false) | _ => Panic end
  | _ => k <- mw_index o order i ;; Ok (k, true)
  end.
Definition mw_reloc (o : obj) (order : list Z) (r : orel) (buf : bytes) : out bytes :=
  match ol_flags r with
  | RFmacho t pcrel len =>
    sub <- match ol_sub r with None => Ok None | Some i => k <- mw_index o order i ;; Ok (Some k) end ;;
    target <- mw_target o order (ol_symbol r) ;;
    l <- macho_entries (o_arch o) t pcrel len (ol_offset r) target sub (ol_addend r) ;;
    Ok (buf ++ concat (map (mw_relocation (o_endian o)) l))
  | _ => Err
  end.
(** 771-874: the relocations of a section *)
Definition mw_relocs (o : obj) (order : list Z) (x : osec * ((Z * Z) * (Z * Z))) (buf : bytes) : out bytes :=
  match se_relocs (fst x) with
  | [] => Ok buf
  | l => b <- mw_resize buf (fst (snd (snd x))) ;; fold_m (mw_reloc o order) (reloc_order ol_offset l) b
  end.
(** 878-914: a symbol *)
Definition mw_nlist_of (o : obj) (lay : list (Z * Z)) (ids : list (option (mpart * option Z))) (t : strtab) (i : Z) : out nlist :=
  y <- unwrap (zget (o_symbols o) i) ;;
  ' (n_type, n_desc) <- mw_symbol_flags y ;;
  let n_sect := match sy_section y with YSec id => wrap_u 8 (id + 1) | _ => 0 end in
  n_value <- match sy_section y with
             | YCommon => Ok (sy_size y)
             | YSec id => x <- unwrap (zget lay id) ;; padd 64 (fst x) (sy_value y)
             | _ => Ok (sy_value y)
             end ;;
  n_strx <- match zget ids i with Some (Some (_, Some id)) => st_get_offset t id | _ => Ok 0 end ;;
  Ok {| n_strx := n_strx; n_type := n_type; n_sect := n_sect; n_desc := n_desc; n_value := n_value |}.
Definition mw_sym (is64 : bool) (o : obj) (lay : list (Z * Z)) (ids : list (option (mpart * option Z))) (t : strtab) (i : Z) (buf : bytes) : out bytes :=
  n <- mw_nlist_of o lay ids t i ;; Ok (buf ++ mw_nlist is64 (o_endian o) n).

(** 440-923 [macho_write].  The count of symbols is a [u32]. *)
Definition mach_write (o : obj) (p : mopts) : out bytes :=
  w <- unwrap (address_size (o_arch o)) ;;
  let is64 := w =? 8 in
  let e := o_endian o in
  let secs := o_sections o in
  let nsects := wrap_u 32 (zlen secs) in
  if 255 <? nsects then Err else
  let header_size := mach_header_size is64 in
  let build_size := match mo_build p with Some _ => 24 | None => 0 end in
  let ncmds := match mo_build p with Some _ => 4 | None => 3 end in
  let build_off := header_size + mw_segment_size is64 nsects in
  let symcmd_off := build_off + build_size in
  let base := symcmd_off + 24 + 80 in
  let sizeofcmds := base - header_size in
  ' (l1, filesize) <- map_m (lay_data base) secs 0 ;;
  ' (_, off) <- mw_reserve base filesize 1 ;;
  ' (lay, vmsize) <- map_m lay_bss (combine secs l1) filesize ;;
  if negb is64 && (4294967295 <? vmsize) then Err else
  ' (ids, t) <- map_m (mw_symbol (o_arch o)) (o_symbols o) st_new ;;
  let locals := mw_part ids PLocal in
  let externals := mw_sort o (mw_part ids PExternal) in
  let undefineds := mw_sort o (mw_part ids PUndefined) in
  let order := locals ++ externals ++ undefineds in
  let nsyms := zlen order in
  if 4294967295 <? nsyms then Panic else
  if 16777216 <? nsyms then Err else
  ' (rels, off) <- map_m (lay_relocs is64) secs off ;;
  ' (symoff, off) <- mw_reserve off (nsyms * nlist_size is64) (mw_word is64) ;;
  ' (strsize, strdata, t) <- mw_strtab is64 t ;;
  ' (stroff, len) <- mw_reserve off strsize 1 ;;
  if 4294967295 <? len then Err else
  ' (cputype, subtype) <- mw_cpu (o_arch o) (mo_sub p) ;;
  let subtype := match mo_cpusub p with Some s => s | None => subtype end in
  let flags := match mo_flags p with Some f => f | None => 0 end in
  let flags := if o_subsections o then Z.lor flags 8192 else flags in
  let buf := mw_header is64 e cputype subtype 1 ncmds sizeofcmds flags in
  _ <- mw_assert buf header_size ;;
  let buf := buf ++ mw_segment is64 e {| g_name := zeros 16; g_vmaddr := 0; g_vmsize := vmsize; g_fileoff := base; g_filesize := filesize;
    g_maxprot := 7; g_initprot := 7; g_nsects := nsects; g_flags := 0 |} in
  let all := combine secs (combine lay rels) in
  buf <- fold_m (mw_section_header is64 e) all buf ;;
  buf <- match mo_build p with Some b => _ <- mw_assert buf build_off ;; Ok (buf ++ mw_build e b) | None => Ok buf end ;;
  _ <- mw_assert buf symcmd_off ;;
  let buf := buf ++ mw_symtab e symoff nsyms stroff strsize in
  _ <- mw_assert buf (symcmd_off + 24) ;;
  let buf := buf ++ mw_dysymtab e (zlen locals) (zlen externals) (zlen undefineds) in
  _ <- mw_assert buf base ;;
  buf <- fold_m mw_data all buf ;;
  _ <- mw_assert buf (base + filesize) ;;
  buf <- fold_m (mw_relocs o order) all buf ;;
  buf <- mw_resize buf symoff ;;
  buf <- fold_m (mw_sym is64 o lay ids t) order buf ;;
  _ <- mw_assert buf stroff ;;
  let buf := buf ++ strdata in
  _ <- mw_assert buf len ;;
  Ok buf.
