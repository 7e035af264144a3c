(** Model of [elf_write]: src/write/elf/object.rs 142-217, 605-937, which writes a write::Object with the two-phase ELF writer (ElfW_model).
    Definitions only.  [vec![SymbolOffsets::default(); n]] with its assignments is modelled by a list of pairs of the position of a symbol and
    its index; every position is assigned exactly once. *)
From Verif Require Export CoffW_model ElfW_model.
Notation strtab := Str_model.strtab (only parsing).

(** the fields of [Object] that [obj] lacks: the sub-architecture, and [FileFlags::Elf] (os_abi, abi_version, e_flags) if given *)
Record eopts := { eo_sub : option subarch; eo_flags : option (Z * Z * Z) }.

(** src/write/mod.rs 1084-1098 *)
Definition oy_undefined (y : osym) : bool := match sy_section y with YUndefined => true | _ => false end.
Definition oy_common (y : osym) : bool := match sy_section y with YCommon => true | _ => false end.
Definition oy_local (y : osym) : bool := match sy_scope y with ScCompilation => true | _ => false end.
(** 142-166 [elf_section_flags] *)
Definition elf_section_flags (k : skind) : option (Z * Z) :=
  match k with
  | SKUnknown | SKTlsVariables => None
  | _ =>
    let ty := match k with SKUninitializedData | SKUninitializedTls => 8 | SKNote => 7 | _ => 1 end in
    let fl := match k with
              | SKText => 6 | SKData | SKReadOnlyDataWithRel => 3 | SKTls => 1027 | SKUninitializedData => 3 | SKUninitializedTls => 1027
              | SKReadOnlyData => 2 | SKReadOnlyString => 50 | SKOtherString | SKDebugString => 48 | _ => 0
              end in
    Some (ty, fl)
  end.
(** src/write/mod.rs 362-368 [section_flags], and the [let else] of 891-897 *)
Definition eo_section_flags (s : osec) : out (Z * Z) :=
  match se_flags s with
  | SFElf t f => Ok (t, f)
  | SFNone => of_opt (elf_section_flags (se_kind s))
  | _ => Err
  end.
(** 168-217 [elf_symbol_flags]; src/elf.rs 1463-1465 [SymbolInfo::new] *)
Definition elf_symbol_flags (y : osym) : option (Z * Z) :=
  let ty := match sy_kind y with
            | YText => Some (if oy_undefined y then 0 else 2)
            | YData => Some (if oy_undefined y then 0 else if oy_common y then 5 else 1)
            | YSection => Some 3 | YFile => Some 4 | YTls => Some 6 | YLabel => Some 0
            | YUnknown => if oy_undefined y then Some 0 else None
            end in
  let bind := if sy_weak y then 2 else if oy_undefined y then 1 else if oy_local y then 0 else 1 in
  match ty with Some ty => Some (bind * 16 + Z.land ty 15, match sy_scope y with ScLinkage => 2 | _ => 0 end) | None => None end.
(** src/write/mod.rs 494-500 [symbol_flags], and the [let else] of 807-813 *)
Definition eo_symbol_flags (y : osym) : out (Z * Z) :=
  match sy_flags y with
  | Some (YFElf i o) => Ok (i, o)
  | None => of_opt (elf_symbol_flags y)
  | _ => Err
  end.
(** 614-632 [reloc_names] *)
Definition reloc_name (is_rela : bool) (s : osec) : bytes := (if is_rela then str ".rela" else str ".rel") ++ se_name s.
Definition has_relocs (s : osec) : bool := match se_relocs s with [] => false | _ => true end.

(** * Phase 1 *)
(** 10-14 [ComdatOffsets]: offset and name; 16-23 [SectionOffsets] without [reloc_offset] *)
Record esec := { es_index : Z; es_offset : Z; es_str : Z; es_reloc_str : option Z }.
(** 640-653 *)
Definition ew_comdat (o : obj) (c : ocomdat) (r : rst) : out ((Z * Z) * rst) :=
  if negb (oc_kind c =? 1) then _ <- unwrap (zget (o_symbols o) (oc_symbol c)) ;; Err else
  ' (_, r) <- r_section r ;;
  ' (off, r) <- r_comdat r (zlen (oc_sections c)) ;;
  ' (id, r) <- r_add r SShstrtab (str ".group") ;;
  Ok ((off, id), r).
(** 655-672 *)
Definition ew_section (is_rela : bool) (s : osec) (r : rst) : out (esec * rst) :=
  ' (i, r) <- r_section r ;;
  ' (off, r) <- r_reserve r (zlen (se_data s)) (se_align s) ;;
  ' (id, r) <- r_add r SShstrtab (se_name s) ;;
  if has_relocs s then
    ' (_, r) <- r_section r ;;
    ' (rid, r) <- r_add r SShstrtab (reloc_name is_rela s) ;;
    Ok ({| es_index := i; es_offset := off; es_str := id; es_reloc_str := Some rid |}, r)
  else Ok ({| es_index := i; es_offset := off; es_str := id; es_reloc_str := None |}, r).
(** 679-682, 686-689: [k] is the position of the symbol *)
Definition ew_symbol (secs : list esec) (p : Z * osym) (r : rst) : out ((Z * Z) * rst) :=
  n <- match sy_section (snd p) with YSec id => s <- unwrap (zget secs id) ;; Ok (Some (es_index s)) | _ => Ok None end ;;
  ' (i, r) <- r_symbol r n ;; Ok ((fst p, i), r).
(** 691-695 *)
Definition ew_name (y : osym) (r : rst) : out (option Z * rst) :=
  match sy_kind y, sy_name y with
  | YSection, _ | _, [] => Ok (None, r)
  | _, name => ' (id, r) <- r_add r SStrtab name ;; Ok (Some id, r)
  end.
(** 708-713: the offset, 0 if there are no relocations *)
Definition ew_reserve_relocs (is_rela : bool) (s : osec) (r : rst) : out (Z * rst) :=
  if has_relocs s then r_relocations r (zlen (se_relocs s)) is_rela else Ok (0, r).
(** the symbols of the first and the second loop *)
Definition locals (o : obj) : list (Z * osym) := filter (fun p => oy_local (snd p)) (enumerate (o_symbols o)).
Definition globals (o : obj) : list (Z * osym) := filter (fun p => negb (oy_local (snd p))) (enumerate (o_symbols o)).
(** what the first phase computes *)
Record eplan := { pl_comdats : list (Z * Z); pl_secs : list esec; pl_syms : list (Z * Z); pl_local : Z; pl_names : list (option Z); pl_relocs : list Z }.
(** 634-718 *)
Definition ew_reserve (o : obj) (is_rela is64 : bool) : out (eplan * rst) :=
  ' (_, r) <- r_file_header (r_new is64 (o_endian o)) ;;
  ' (comdats, r) <- map_m (ew_comdat o) (o_comdats o) r ;;
  ' (secs, r) <- map_m (ew_section is_rela) (o_sections o) r ;;
  ' (_, r) <- r_null_symbol r SSymtab ;;
  ' (ls, r) <- map_m (ew_symbol secs) (locals o) r ;;
  let num := r_num r SSymtab in
  ' (gs, r) <- map_m (ew_symbol secs) (globals o) r ;;
  ' (names, r) <- map_m ew_name (o_symbols o) r ;;
  ' (_, r) <- r_tab_index r SSymtab ;;
  ' (_, r) <- r_symtab r SSymtab ;;
  ' (_, r) <- (if r_need r SShndx then r_tab_index r SShndx else Ok (0, r)) ;;
  ' (_, r) <- r_shndx r ;;
  ' (_, r) <- r_tab_index r SStrtab ;;
  ' (_, r) <- r_strings r SStrtab ;;
  ' (relocs, r) <- map_m (ew_reserve_relocs is_rela) (o_sections o) r ;;
  ' (_, r) <- r_tab_index r SShstrtab ;;
  ' (_, r) <- r_strings r SShstrtab ;;
  ' (_, r) <- r_section_headers r ;;
  Ok ({| pl_comdats := comdats; pl_secs := secs; pl_syms := ls ++ gs; pl_local := num; pl_names := names; pl_relocs := relocs |}, r).

(** * Phase 2 *)
(** [section_offsets[i].index], [symbol_offsets[i].index] *)
Definition pl_section (p : eplan) (i : Z) : out Z := s <- unwrap (zget (pl_secs p) i) ;; Ok (es_index s).
Definition pl_symbol (p : eplan) (i : Z) : out Z :=
  match find (fun q => fst q =? i) (pl_syms p) with Some (_, n) => Ok n | None => Panic end.
(** 792-797 *)
Definition ew_comdat_data (R : rst) (p : eplan) (c : ocomdat) (w : wst) : out wst :=
  w <- w_comdat_header R w ;;
  fold_m (fun i w => n <- pl_section p i ;; Ok (w_comdat_entry R w n)) (oc_sections c) w.
(** 798-802 *)
Definition ew_section_data (x : osec * esec) (w : wst) : out wst :=
  w <- w_align w (se_align (fst x)) ;; _ <- guard (es_offset (snd x) =? zlen (w_out w)) ;; Ok (w_put w (se_data (fst x))).
(** 806-835 [write_symbol] *)
Definition symbol_entry (R : rst) (p : eplan) (q : Z * osym) : out wsym :=
  let y := snd q in
  ' (info, other) <- eo_symbol_flags y ;;
  ' (shndx, sec) <- match sy_section y with
                    | YNone => _ <- guard (match sy_kind y with YFile => true | _ => false end) ;; Ok (65521, None)
                    | YUndefined => Ok (0, None)
                    | YAbsolute => Ok (65521, None)
                    | YCommon => Ok (65522, None)
                    | YSec id => n <- pl_section p id ;; Ok (0, Some n)
                    end ;;
  id <- unwrap (zget (pl_names p) (fst q)) ;;
  name <- name_offset R SStrtab id ;;
  Ok {| ws_section := sec; ws_name := name; ws_info := info; ws_other := other; ws_shndx := shndx; ws_value := sy_value y; ws_size := sy_size y |}.
Definition ew_symbol_data (R : rst) (p : eplan) (q : Z * osym) (w : wst) : out wst := s <- symbol_entry R p q ;; w_symbol R w SSymtab s.
(** 851-873 *)
Definition reloc_entry (p : eplan) (l : orel) : out crel :=
  t <- match ol_flags l with RFelf t => Ok t | _ => Err end ;;
  n <- pl_symbol p (ol_symbol l) ;;
  Ok {| cr_offset := ol_offset l; cr_sym := n; cr_type := t; cr_addend := ol_addend l |}.
Definition ew_reloc_data (R : rst) (p : eplan) (is_rela : bool) (x : osec * Z) (w : wst) : out wst :=
  if has_relocs (fst x) then
    w <- w_align_relocation R w ;;
    _ <- guard (snd x =? zlen (w_out w)) ;;
    fold_m (fun l w => c <- reloc_entry p l ;; Ok (w_relocation R w is_rela c)) (se_relocs (fst x)) w
  else Ok w.
(** 881-889 *)
Definition ew_comdat_header (R : rst) (p : eplan) (x : ocomdat * (Z * Z)) (w : wst) : out wst :=
  sym <- pl_symbol p (oc_symbol (fst x)) ;;
  ' (_, w) <- w_comdat_section_header R w (snd (snd x)) (r_index R SSymtab) sym (fst (snd x)) (zlen (oc_sections (fst x))) ;; Ok w.
(** 890-926 *)
Definition ew_entsize (k : skind) : Z := match k with SKReadOnlyString | SKOtherString => 1 | _ => 0 end.
Definition ew_section_header (R : rst) (is_rela : bool) (x : osec * esec * Z) (w : wst) : out wst :=
  let '(s, q, roff) := x in
  ' (ty, fl) <- eo_section_flags s ;;
  name <- name_offset R SShstrtab (Some (es_str q)) ;;
  ' (_, w) <- w_section_header R w {| sh_name := name; sh_type := ty; sh_flags := fl; sh_addr := 0; sh_offset := es_offset q; sh_size := se_size s;
                                      sh_link := 0; sh_info := 0; sh_addralign := se_align s; sh_entsize := ew_entsize (se_kind s) |} ;;
  if has_relocs s then
    id <- unwrap (es_reloc_str q) ;;
    ' (_, w) <- w_relocation_header R w id (es_index q) (r_index R SSymtab) roff (zlen (se_relocs s)) is_rela ;; Ok w
  else Ok w.
(** 782-934 *)
Definition ew_write (o : obj) (R : rst) (p : eplan) (is_rela : bool) (h : fhdr) : out bytes :=
  w <- w_file_header R (w_start R) h ;;
  w <- fold_m (ew_comdat_data R p) (o_comdats o) w ;;
  w <- fold_m ew_section_data (combine (o_sections o) (pl_secs p)) w ;;
  w <- w_null_symbol R w SSymtab ;;
  w <- fold_m (ew_symbol_data R p) (locals o) w ;;
  w <- fold_m (ew_symbol_data R p) (globals o) w ;;
  w <- w_symtab_shndx R w ;;
  w <- w_strings R w SStrtab ;;
  w <- fold_m (ew_reloc_data R p is_rela) (combine (o_sections o) (pl_relocs p)) w ;;
  w <- w_strings R w SShstrtab ;;
  w <- w_null_section_header R w ;;
  w <- fold_m (ew_comdat_header R p) (combine (o_comdats o) (pl_comdats p)) w ;;
  w <- fold_m (ew_section_header R is_rela) (combine (combine (o_sections o) (pl_secs p)) (pl_relocs p)) w ;;
  w <- w_slot_header R w SSymtab 0 (pl_local p) ;;
  w <- w_slot_header R w SShndx 0 0 ;;
  w <- w_slot_header R w SStrtab 0 0 ;;
  w <- w_slot_header R w SShstrtab 0 0 ;;
  _ <- guard (r_len R =? zlen (w_out w)) ;;
  Ok (w_out w).
(** 611-937 [elf_write]: the file *)
Definition elf_write (o : obj) (t : eopts) : out bytes :=
  is_rela <- elf_has_addend (o_arch o) ;;
  is64 <- elf_is_64 (o_arch o) ;;
  ' (p, R) <- ew_reserve o is_rela is64 ;;
  m <- match eo_sub t with None => elf_machine (o_arch o) | Some _ => Err end ;;
  let '(abi, ver, fl) := match eo_flags t with Some f => f | None => (0, 0, 0) end in
  ew_write o R p is_rela {| fh_os_abi := abi; fh_abi_version := ver; fh_type := 1; fh_machine := m; fh_entry := 0; fh_flags := elf_e_flags (o_arch o) fl |}.
