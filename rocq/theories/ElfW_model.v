(** Model of src/write/elf/writer.rs: [Writer] in two-phase mode (148-1112, 1390-2143).  Definitions only.
    Phase 1 (the [reserve_*] and [add_*] calls) works on [rst]; phase 2 (the [write_*] calls) only reads those fields and works on
    [wst].  Debug assertions and debug overflows are [Panic].  The buffer is a [Vec] (Buf_model).  Fields that exist once for each
    table are functions of a [slot].  The single-phase mode is not modelled. *)
From Verif Require Export Str_model Obj_model Elf_model ElfR_model Hash_model Ver_model Kind_model.
Notation strtab := Str_model.strtab (only parsing).

Inductive slot := SShstrtab | SStrtab | SSymtab | SShndx | SDynstr | SDynsym | SDynamic | SHash | SGnuHash | SVersym | SVerdef | SVerneed
  | SAttributes.
Scheme Equality for slot.
Definition upd {A} (f : slot -> A) (s : slot) (v : A) : slot -> A := fun t => if slot_beq s t then v else f t.
Definition guard (b : bool) : out unit := if b then Ok tt else Panic.

(** 63-146 [Writer], 1396-1401 [TwoPhase]: the fields set in phase 1.  [r_num] is the number of entries (symtab, dynsym, dynamic,
    versym, verdef, verneed) or the size (string and hash tables, attributes), [r_aux] the number of auxiliary entries, [r_index] the
    section index (symtab, dynsym and string tables), [r_tab] and [r_data] the string table and its contents. *)
Record rst := { r_is64 : bool; r_end : endian; r_len : Z; r_phoff : Z; r_segs : Z; r_shoff : Z; r_secs : Z;
  r_id : slot -> option Z; r_index : slot -> Z; r_off : slot -> Z; r_num : slot -> Z; r_aux : slot -> Z; r_need : slot -> bool;
  r_tab : slot -> strtab; r_data : slot -> bytes }.
(** 150-241 [new_with_mode], 1454-1462 [new] *)
Definition r_new (is64 : bool) (e : endian) : rst :=
  {| r_is64 := is64; r_end := e; r_len := 0; r_phoff := 0; r_segs := 0; r_shoff := 0; r_secs := 0; r_id := fun _ => None;
     r_index := fun _ => 0; r_off := fun _ => 0; r_num := fun _ => 0; r_aux := fun _ => 0; r_need := fun _ => false;
     r_tab := fun _ => st_new; r_data := fun _ => [] |}.
(** record updates *)
Definition with_len (r : rst) v := {| r_is64 := r_is64 r; r_end := r_end r; r_len := v; r_phoff := r_phoff r; r_segs := r_segs r;
  r_shoff := r_shoff r; r_secs := r_secs r; r_id := r_id r; r_index := r_index r; r_off := r_off r; r_num := r_num r; r_aux := r_aux r;
  r_need := r_need r; r_tab := r_tab r; r_data := r_data r |}.
Definition with_ph (r : rst) o n := {| r_is64 := r_is64 r; r_end := r_end r; r_len := r_len r; r_phoff := o; r_segs := n;
  r_shoff := r_shoff r; r_secs := r_secs r; r_id := r_id r; r_index := r_index r; r_off := r_off r; r_num := r_num r; r_aux := r_aux r;
  r_need := r_need r; r_tab := r_tab r; r_data := r_data r |}.
Definition with_sh (r : rst) o n := {| r_is64 := r_is64 r; r_end := r_end r; r_len := r_len r; r_phoff := r_phoff r; r_segs := r_segs r;
  r_shoff := o; r_secs := n; r_id := r_id r; r_index := r_index r; r_off := r_off r; r_num := r_num r; r_aux := r_aux r;
  r_need := r_need r; r_tab := r_tab r; r_data := r_data r |}.
Definition with_id (r : rst) s i := {| r_is64 := r_is64 r; r_end := r_end r; r_len := r_len r; r_phoff := r_phoff r; r_segs := r_segs r;
  r_shoff := r_shoff r; r_secs := r_secs r; r_id := upd (r_id r) s i; r_index := r_index r; r_off := r_off r; r_num := r_num r;
  r_aux := r_aux r; r_need := r_need r; r_tab := r_tab r; r_data := r_data r |}.
Definition with_index (r : rst) s i := {| r_is64 := r_is64 r; r_end := r_end r; r_len := r_len r; r_phoff := r_phoff r; r_segs := r_segs r;
  r_shoff := r_shoff r; r_secs := r_secs r; r_id := r_id r; r_index := upd (r_index r) s i; r_off := r_off r; r_num := r_num r;
  r_aux := r_aux r; r_need := r_need r; r_tab := r_tab r; r_data := r_data r |}.
Definition with_off (r : rst) s i := {| r_is64 := r_is64 r; r_end := r_end r; r_len := r_len r; r_phoff := r_phoff r; r_segs := r_segs r;
  r_shoff := r_shoff r; r_secs := r_secs r; r_id := r_id r; r_index := r_index r; r_off := upd (r_off r) s i; r_num := r_num r;
  r_aux := r_aux r; r_need := r_need r; r_tab := r_tab r; r_data := r_data r |}.
Definition with_num (r : rst) s i := {| r_is64 := r_is64 r; r_end := r_end r; r_len := r_len r; r_phoff := r_phoff r; r_segs := r_segs r;
  r_shoff := r_shoff r; r_secs := r_secs r; r_id := r_id r; r_index := r_index r; r_off := r_off r; r_num := upd (r_num r) s i;
  r_aux := r_aux r; r_need := r_need r; r_tab := r_tab r; r_data := r_data r |}.
Definition with_aux (r : rst) s i := {| r_is64 := r_is64 r; r_end := r_end r; r_len := r_len r; r_phoff := r_phoff r; r_segs := r_segs r;
  r_shoff := r_shoff r; r_secs := r_secs r; r_id := r_id r; r_index := r_index r; r_off := r_off r; r_num := r_num r;
  r_aux := upd (r_aux r) s i; r_need := r_need r; r_tab := r_tab r; r_data := r_data r |}.
Definition with_need (r : rst) s := {| r_is64 := r_is64 r; r_end := r_end r; r_len := r_len r; r_phoff := r_phoff r; r_segs := r_segs r;
  r_shoff := r_shoff r; r_secs := r_secs r; r_id := r_id r; r_index := r_index r; r_off := r_off r; r_num := r_num r; r_aux := r_aux r;
  r_need := upd (r_need r) s true; r_tab := r_tab r; r_data := r_data r |}.
Definition with_tab (r : rst) s t := {| r_is64 := r_is64 r; r_end := r_end r; r_len := r_len r; r_phoff := r_phoff r; r_segs := r_segs r;
  r_shoff := r_shoff r; r_secs := r_secs r; r_id := r_id r; r_index := r_index r; r_off := r_off r; r_num := r_num r; r_aux := r_aux r;
  r_need := r_need r; r_tab := upd (r_tab r) s t; r_data := r_data r |}.
Definition with_data (r : rst) s d := {| r_is64 := r_is64 r; r_end := r_end r; r_len := r_len r; r_phoff := r_phoff r; r_segs := r_segs r;
  r_shoff := r_shoff r; r_secs := r_secs r; r_id := r_id r; r_index := r_index r; r_off := r_off r; r_num := r_num r; r_aux := r_aux r;
  r_need := r_need r; r_tab := r_tab r; r_data := upd (r_data r) s d |}.

(** * Phase 1.  Each call gives the value returned and the new state.  For the calls that return nothing the value is the offset of the
    range reserved (0 if none). *)
(** 1474-1481 [reserve] *)
Definition r_reserve (r : rst) (len al : Z) : out (Z * rst) :=
  o <- (if 1 <? al then align 64 (r_len r) al else Ok (r_len r)) ;; n <- padd 64 o len ;; Ok (o, with_len r n).
(** the common part of the functions that reserve the range of a table: the offset is kept *)
Definition r_place (r : rst) (s : slot) (len al : Z) : out (Z * rst) :=
  ' (o, r) <- r_reserve r len al ;; Ok (o, with_off r s o).
(** 1484-1487 [reserve_until] *)
Definition r_until (r : rst) (offset : Z) : out (Z * rst) := _ <- guard (r_len r <=? offset) ;; Ok (offset, with_len r offset).
(** 1492-1495 [reserve_file_header] *)
Definition r_file_header (r : rst) : out (Z * rst) := _ <- guard (r_len r =? 0) ;; r_reserve r (ehdr_size (r_is64 r)) 1.
(** 1503-1513 [reserve_program_headers] *)
Definition r_program_headers (r : rst) (num : Z) : out (Z * rst) :=
  _ <- guard (r_phoff r =? 0) ;;
  if num =? 0 then Ok (0, r) else
  ' (o, r) <- r_reserve r (num * phdr_size (r_is64 r)) (addr_size (r_is64 r)) ;; Ok (o, with_ph r o num).
(** 1522-1528 [reserve_null_section_index] *)
Definition r_null_section (r : rst) : out (Z * rst) := _ <- guard (r_secs r =? 0) ;; Ok (0, with_sh r (r_shoff r) 1).
(** 1535-1543 [reserve_section_index] *)
Definition r_section (r : rst) : out (Z * rst) :=
  _ <- guard (r_shoff r =? 0) ;;
  let i := if r_secs r =? 0 then 1 else r_secs r in
  n <- padd 32 i 1 ;; Ok (i, with_sh r (r_shoff r) n).
(** 1550-1559 [reserve_section_headers] *)
Definition r_section_headers (r : rst) : out (Z * rst) :=
  _ <- guard (r_shoff r =? 0) ;;
  if r_secs r =? 0 then Ok (0, r) else
  ' (o, r) <- r_reserve r (r_secs r * shdr_size (r_is64 r)) (addr_size (r_is64 r)) ;; Ok (o, with_sh r o (r_secs r)).
(** 351-354 [add_section_name], 389-392 [add_string], 536-539 [add_dynamic_string]: [s] is the string table *)
Definition r_add (r : rst) (s : slot) (name : bytes) : out (Z * rst) :=
  _ <- guard (r_off r s =? 0) ;;
  match st_add (r_tab r s) name with (Ok id, t) => Ok (id, with_tab r s t) | (Err, _) => Err | (Panic, _) => Panic end.
(** the names of the tables' sections: 1599, 1654, 1735, 1780, 1848, 1929, 1961, 1981, 2008, 2032, 2065, 2098, 2107 *)
Definition slot_name (s : slot) : bytes :=
  match s with
  | SShstrtab => str ".shstrtab" | SStrtab => str ".strtab" | SSymtab => str ".symtab" | SShndx => str ".symtab_shndx"
  | SDynstr => str ".dynstr" | SDynsym => str ".dynsym" | SDynamic => str ".dynamic" | SHash => str ".hash"
  | SGnuHash => str ".gnu.hash" | SVersym => str ".gnu.version" | SVerdef => str ".gnu.version_d" | SVerneed => str ".gnu.version_r"
  | SAttributes => str ".gnu.attributes"
  end.
(** the tables whose section index is kept *)
Definition slot_indexed (s : slot) : bool := match s with SShstrtab | SStrtab | SSymtab | SDynstr | SDynsym => true | _ => false end.
(** 1597-1602 [reserve_shstrtab_section_index] and 1652, 1733, 1778, 1846, 1927, 1959, 1979, 2006, 2030, 2063, 2096, 2105 *)
Definition r_tab_index (r : rst) (s : slot) : out (Z * rst) :=
  _ <- guard (if slot_indexed s then r_index r s =? 0 else match r_id r s with None => true | Some _ => false end) ;;
  ' (id, r) <- r_add r SShstrtab (slot_name s) ;;
  let r := with_id r s (Some id) in
  ' (i, r) <- r_section r ;;
  Ok (i, if slot_indexed s then with_index r s i else r).
(** encoder.rs 890-897 [strtab]: length, contents, and the table with its offsets *)
Definition enc_strtab (t : strtab) : out (Z * bytes * strtab) :=
  match st_write t 1 with (Ok n, d, t) => Ok (n, 0 :: d, t) | (Err, _, _) => Err | (Panic, _, _) => Panic end.
(** 1605-1607 [strtab_needed], 1785-1787 [dynstr_needed]; 1570-1572: .shstrtab if there are sections *)
Definition strings_needed (r : rst) (s : slot) : bool :=
  match s with
  | SShstrtab => negb (r_secs r =? 0)
  | _ => r_need r s || match st_strings (r_tab r s) with [] => false | _ => true end
  end.
(** 1570-1580 [reserve_shstrtab], 1623-1633 [reserve_strtab], 1805-1815 [reserve_dynstr] *)
Definition r_strings (r : rst) (s : slot) : out (Z * rst) :=
  _ <- guard (r_off r s =? 0) ;;
  if negb (strings_needed r s) then Ok (0, r) else
  ' (n, d, t) <- enc_strtab (r_tab r s) ;;
  r_place (with_num (with_data (with_tab r s t) s d) s n) s n 1.
(** 1610-1612 [require_strtab], 1752-1754 [require_symtab_shndx], 1790-1792 [require_dynstr] *)
Definition r_require (r : rst) (s : slot) : out (Z * rst) := Ok (0, with_need r s).
(** the string table of a symbol table *)
Definition strings_of (s : slot) : slot := match s with SDynsym => SDynstr | _ => SStrtab end.
(** 1668-1675 [reserve_null_symbol_index], 1867-1874 [reserve_null_dynamic_symbol_index] *)
Definition r_null_symbol (r : rst) (s : slot) : out (Z * rst) :=
  _ <- guard (r_off r s =? 0) ;; _ <- guard (r_num r s =? 0) ;;
  Ok (0, with_need (with_num r s 1) (strings_of s)).
(** 1689-1705 [reserve_symbol_index], 1885-1895 [reserve_dynamic_symbol_index] *)
Definition r_next_symbol (r : rst) (s : slot) : out (Z * rst) :=
  let r := if r_num r s =? 0 then with_need (with_num r s 1) (strings_of s) else r in
  n <- padd 32 (r_num r s) 1 ;; Ok (r_num r s, with_num r s n).
Definition r_symbol (r : rst) (section : option Z) : out (Z * rst) :=
  _ <- guard (r_off r SSymtab =? 0) ;; _ <- guard (r_off r SShndx =? 0) ;;
  ' (i, r) <- r_next_symbol r SSymtab ;;
  Ok (i, match section with Some n => if SHN_LORESERVE <=? n then with_need r SShndx else r | None => r end).
Definition r_dynamic_symbol (r : rst) : out (Z * rst) := _ <- guard (r_off r SDynsym =? 0) ;; r_next_symbol r SDynsym.
(** 1719-1728 [reserve_symtab], 1912-1922 [reserve_dynsym] *)
Definition r_symtab (r : rst) (s : slot) : out (Z * rst) :=
  _ <- guard (r_off r s =? 0) ;;
  if r_num r s =? 0 then Ok (0, r) else r_place r s (r_num r s * sym_size (r_is64 r)) (addr_size (r_is64 r)).
(** 1763-1770 [reserve_symtab_shndx] *)
Definition r_shndx (r : rst) : out (Z * rst) :=
  _ <- guard (r_off r SShndx =? 0) ;;
  if negb (r_need r SShndx) then Ok (0, r) else r_place r SShndx (r_num r SSymtab * 4) 4.
(** 1943-1954 [reserve_dynamic] *)
Definition r_dynamic (r : rst) (num : Z) : out (Z * rst) :=
  _ <- guard (r_off r SDynamic =? 0) ;;
  if num =? 0 then Ok (0, r) else
  size <- pmul 64 num (dyn_size (r_is64 r)) ;; r_place (with_num r SDynamic num) SDynamic size (addr_size (r_is64 r)).
(** 1969-1974 [reserve_hash], 1989-2001 [reserve_gnu_hash]: the only ones not guarded against a second call *)
Definition r_hash (r : rst) (buckets symbols : Z) : out (Z * rst) :=
  r_place (with_num r SHash (hash_size buckets symbols)) SHash (hash_size buckets symbols) 4.
Definition r_gnu_hash (r : rst) (bloom buckets symbols : Z) : out (Z * rst) :=
  let size := gnu_hash_size (r_is64 r) bloom buckets symbols in
  r_place (with_num r SGnuHash size) SGnuHash size (addr_size (r_is64 r)).
(** 2016-2025 [reserve_gnu_versym] *)
Definition r_versym (r : rst) : out (Z * rst) :=
  _ <- guard (r_off r SVersym =? 0) ;;
  if r_num r SDynsym =? 0 then Ok (0, r) else
  r_place (with_num r SVersym (r_num r SDynsym)) SVersym (r_num r SDynsym * 2) 2.
(** 2040-2051 [reserve_gnu_verdef], 2073-2084 [reserve_gnu_verneed] *)
Definition r_verdef (r : rst) (count aux : Z) : out (Z * rst) :=
  _ <- guard (r_off r SVerdef =? 0) ;;
  if count =? 0 then Ok (0, r) else
  r_place (with_aux (with_num r SVerdef count) SVerdef aux) SVerdef (gnu_verdef_size count aux) 4.
Definition r_verneed (r : rst) (count aux : Z) : out (Z * rst) :=
  _ <- guard (r_off r SVerneed =? 0) ;;
  if count =? 0 then Ok (0, r) else
  r_place (with_aux (with_num r SVerneed count) SVerneed aux) SVerneed (gnu_verneed_size count aux) 4.
(** 2115-2123 [reserve_gnu_attributes] *)
Definition r_attributes (r : rst) (size : Z) : out (Z * rst) :=
  _ <- guard (r_off r SAttributes =? 0) ;;
  if size =? 0 then Ok (0, r) else r_place (with_num r SAttributes size) SAttributes size 1.
(** 2128-2133 [reserve_relocations], 2140-2142 [reserve_comdat]; the products cannot overflow for counts below 2^58 and this is
    simplified to unbounded arithmetic followed by the checked addition *)
Definition r_relocations (r : rst) (count : Z) (is_rela : bool) : out (Z * rst) :=
  r_reserve r (count * rel_size (r_is64 r) is_rela) (addr_size (r_is64 r)).
Definition r_comdat (r : rst) (count : Z) : out (Z * rst) := r_reserve r ((count + 1) * 4) 4.

(** * Phase 2 *)
(** the fields changed by the write calls: the buffer and the version counters ([vwriter] of Ver_model), whether the machine set by
    the file header makes 64-bit little endian MIPS relocations, and the numbers of entries written *)
Record wst := { w_v : vwriter; w_mips : bool; w_segs : Z; w_secs : Z; w_num : slot -> Z; w_aux : slot -> Z; w_shndx : bytes; w_xneed : bool }.
Definition w_out (w : wst) : bytes := w_buf (w_v w).
(** the state when phase 2 begins *)
Definition w_start (r : rst) : wst :=
  {| w_v := {| w_buf := []; w_def_rem := r_num r SVerdef; w_daux_rem := 0; w_need_rem := r_num r SVerneed; w_naux_rem := 0 |};
     w_mips := false; w_segs := 0; w_secs := 0; w_num := fun _ => 0; w_aux := fun _ => 0; w_shndx := []; w_xneed := r_need r SShndx |}.
Definition v_put (v : vwriter) (b : bytes) : vwriter :=
  {| w_buf := w_buf v ++ b; w_def_rem := w_def_rem v; w_daux_rem := w_daux_rem v; w_need_rem := w_need_rem v; w_naux_rem := w_naux_rem v |}.
Definition with_v (w : wst) v := {| w_v := v; w_mips := w_mips w; w_segs := w_segs w; w_secs := w_secs w; w_num := w_num w;
  w_aux := w_aux w; w_shndx := w_shndx w; w_xneed := w_xneed w |}.
Definition with_counts (w : wst) segs secs := {| w_v := w_v w; w_mips := w_mips w; w_segs := segs; w_secs := secs; w_num := w_num w;
  w_aux := w_aux w; w_shndx := w_shndx w; w_xneed := w_xneed w |}.
Definition with_wnum (w : wst) s n := {| w_v := w_v w; w_mips := w_mips w; w_segs := w_segs w; w_secs := w_secs w; w_num := upd (w_num w) s n;
  w_aux := w_aux w; w_shndx := w_shndx w; w_xneed := w_xneed w |}.
Definition with_waux (w : wst) s n := {| w_v := w_v w; w_mips := w_mips w; w_segs := w_segs w; w_secs := w_secs w; w_num := w_num w;
  w_aux := upd (w_aux w) s n; w_shndx := w_shndx w; w_xneed := w_xneed w |}.
Definition with_shndx (w : wst) d x := {| w_v := w_v w; w_mips := w_mips w; w_segs := w_segs w; w_secs := w_secs w; w_num := w_num w;
  w_aux := w_aux w; w_shndx := d; w_xneed := x |}.
Definition with_mips (w : wst) m := {| w_v := w_v w; w_mips := m; w_segs := w_segs w; w_secs := w_secs w; w_num := w_num w;
  w_aux := w_aux w; w_shndx := w_shndx w; w_xneed := w_xneed w |}.
(** 266-268 [write] *)
Definition w_put (w : wst) (b : bytes) : wst := with_v w (v_put (w_v w) b).
(** util.rs 144-147 [resize] of the buffer; 256-261 [write_align] *)
Definition w_resize (w : wst) (n : Z) : out wst := _ <- guard (zlen (w_out w) <=? n) ;; Ok (w_put w (zeros (n - zlen (w_out w)))).
Definition w_align (w : wst) (al : Z) : out wst :=
  if 1 <? al then n <- align 64 (zlen (w_out w)) al ;; w_resize w n else Ok w.
(** 271-274 [pad_until] *)
Definition w_until (w : wst) (offset : Z) : out wst := _ <- guard (zlen (w_out w) <=? offset) ;; w_resize w offset.
Section Write.
Context (r : rst).
Notation is64 := (r_is64 r). Notation e := (r_end r).
(** the layout given to the file header: 27-58 [FileHeaderLayout] fields of [Writer] *)
Definition w_layout : layout :=
  {| ly_phoff := r_phoff r; ly_segment_num := r_segs r; ly_shoff := r_shoff r; ly_section_num := r_secs r; ly_shstrtab_index := r_index r SShstrtab |}.
(** 283-291 [write_file_header] with 1410-1418 [TwoPhase::reserve] (a [Vec] can be reserved) and encoder.rs [set_machine] *)
Definition w_file_header (w : wst) (h : fhdr) : out wst :=
  _ <- guard (zlen (w_out w) =? 0) ;;
  if negb is64 && (4294967295 <? r_len r) then Err else
  b <- enc_file_header is64 e h w_layout ;;
  Ok (with_mips (w_put w b) (is64 && (match e with Little => true | Big => false end) && (fh_machine h =? 8))).
(** 1424-1426 [set_offset] after [write_align] *)
Definition w_at (w : wst) (offset al : Z) : out wst :=
  w <- w_align w al ;; _ <- guard (offset =? zlen (w_out w)) ;; Ok w.
(** 1436-1442 [set_section_name] *)
Definition w_named (s : slot) : out unit :=
  id <- st_get_id (r_tab r SShstrtab) (slot_name s) ;; guard (match r_id r s with Some i => i =? id | None => false end).
(** 297-304 [write_align_program_headers], 309-313 [write_program_header]; 1444-1446 [set_count] *)
Definition w_align_program_headers (w : wst) : out wst := if r_phoff r =? 0 then Ok w else w_at w (r_phoff r) (addr_size is64).
Definition w_program_header (w : wst) (p : phdr) : out wst :=
  let w := w_put w (enc_phdr is64 e p) in
  n <- padd 32 (w_segs w) 1 ;; _ <- guard (n <=? r_segs r) ;; Ok (with_counts w n (w_secs w)).
(** 321-332 [write_null_section_header], 337-343 [write_section_header] *)
Definition w_null_section_header (w : wst) : out wst :=
  if r_shoff r =? 0 then Ok w else
  w <- w_at w (r_shoff r) (addr_size is64) ;;
  let w := w_put w (enc_null_shdr is64 e w_layout) in
  _ <- guard (1 <=? r_secs r) ;; Ok (with_counts w (w_segs w) 1).
Definition w_section_header (w : wst) (s : shdr) : out (Z * wst) :=
  let w := w_put w (enc_shdr is64 e s) in
  n <- padd 32 (w_secs w) 1 ;; _ <- guard (n <=? r_secs r) ;; Ok (w_secs w, with_counts w (w_segs w) n).
(** 361-363 [section_name_offset], 399-401 [string_offset], 553-555 [dynamic_string_offset] *)
Definition name_offset (s : slot) (id : option Z) : out Z := st_maybe_get_offset (r_tab r s) id.
(** the header of the section of a table; [addr] and [num_local] are the arguments: 369-381 [write_shstrtab_section_header],
    407-418 strtab, 471-484 symtab, 511-528 symtab_shndx, 561-573 dynstr, 616-630 dynsym, 667-678 dynamic, 706-717 hash, 766-777
    gnu_hash, 813-824 versym, 894-909 verdef, 961-976 verneed, 983-994 attributes; encoder.rs 681-845 for the other fields *)
Definition slot_header (s : slot) (name addr num_local : Z) : shdr :=
  let o := r_off r s in let n := r_num r s in
  let h ty fl a size link info al ent := {| sh_name := name; sh_type := ty; sh_flags := fl; sh_addr := a; sh_offset := o; sh_size := size;
                                             sh_link := link; sh_info := info; sh_addralign := al; sh_entsize := ent |} in
  match s with
  | SShstrtab | SStrtab => h 3 0 0 n 0 0 1 0
  | SDynstr => h 3 2 addr n 0 0 1 0
  | SSymtab => h 2 0 0 (n * sym_size is64) (r_index r SStrtab) num_local (addr_size is64) (sym_size is64)
  | SShndx => h 18 0 0 (if o =? 0 then 0 else wrap_u 32 (r_num r SSymtab * 4)) (r_index r SSymtab) 0 4 4
  | SDynsym => h 11 2 addr (n * sym_size is64) (r_index r SDynstr) num_local (addr_size is64) (sym_size is64)
  | SDynamic => h 6 3 addr (n * dyn_size is64) (r_index r SDynstr) 0 (addr_size is64) (dyn_size is64)
  | SHash => h 5 2 addr n (r_index r SDynsym) 0 4 4
  | SGnuHash => h 1879048182 2 addr n (r_index r SDynsym) 0 (addr_size is64) (if is64 then 0 else 4)
  | SVersym => h 1879048191 2 addr (n * 2) (r_index r SDynsym) 0 2 2
  | SVerdef => h 1879048189 2 addr (gnu_verdef_size n (r_aux r s)) (r_index r SDynstr) n 4 0
  | SVerneed => h 1879048190 2 addr (gnu_verneed_size n (r_aux r s)) (r_index r SDynstr) n 4 0
  | SAttributes => h 1879048181 0 0 n (r_index r SDynstr) 0 1 0
  end.
Definition w_slot_header (w : wst) (s : slot) (addr num_local : Z) : out wst :=
  match r_id r s with
  | None => Ok w
  | Some id =>
    _ <- guard (match s with SShstrtab => negb (r_off r s =? 0) | _ => true end) ;;
    (* 519: [self.symtab_num * 4] is u32 arithmetic *)
    _ <- match s with SShndx => if r_off r s =? 0 then Ok 0 else pmul 32 (r_num r SSymtab) 4 | _ => Ok 0 end ;;
    name <- name_offset SShstrtab (Some id) ;;
    ' (i, w) <- w_section_header w (slot_header s name addr num_local) ;;
    _ <- guard (if slot_indexed s then r_index r s =? i else true) ;; Ok w
  end.
(** 1585-1591 [write_shstrtab], 1638-1644 [write_strtab], 1832-1838 [write_dynstr] *)
Definition w_strings (w : wst) (s : slot) : out wst :=
  if r_off r s =? 0 then Ok w else
  _ <- guard (r_off r s =? zlen (w_out w)) ;; Ok (w_put w (r_data r s)).
(** 426-444 [write_null_symbol], 581-596 [write_null_dynamic_symbol] *)
Definition w_null_symbol (w : wst) (s : slot) : out wst :=
  if r_off r s =? 0 then Ok w else
  w <- w_at w (r_off r s) (addr_size is64) ;; _ <- w_named s ;;
  let w := w_put w (enc_null_sym is64) in
  let w := match s with SSymtab => if r_off r SShndx =? 0 then w else with_shndx w (w_shndx w ++ write_u e 4 0) (w_xneed w) | _ => w end in
  _ <- guard (1 <=? r_num r s) ;; Ok (with_wnum w s 1).
(** 449-466 [write_symbol], 601-611 [write_dynamic_symbol] *)
Definition w_symbol (w : wst) (s : slot) (y : wsym) : out wst :=
  let '(b, x) := enc_sym is64 e y in
  let w := w_put w b in
  let w := match s with
           | SSymtab => if r_off r SShndx =? 0 then w else
                        match x with
                        | Some n => with_shndx w (w_shndx w ++ write_u e 4 n) true
                        | None => with_shndx w (w_shndx w ++ write_u e 4 0) (w_xneed w)
                        end
           | _ => w
           end in
  n <- padd 32 (w_num w s) 1 ;; _ <- guard (n <=? r_num r s) ;; Ok (with_wnum w s n).
(** 490-506 [write_symtab_shndx] *)
Definition w_symtab_shndx (w : wst) : out wst :=
  if negb (w_xneed w) then Ok (with_shndx w [] (w_xneed w)) else
  w <- w_at w (r_off r SShndx) 4 ;; _ <- w_named SShndx ;;
  Ok (with_shndx (w_put w (w_shndx w)) [] (w_xneed w)).
(** 636-644 [write_align_dynamic], 656-661 [write_dynamic] ([write_dynamic_string] is the same with the offset of a string) *)
Definition w_align_dynamic (w : wst) : out wst :=
  if r_off r SDynamic =? 0 then Ok w else w <- w_at w (r_off r SDynamic) (addr_size is64) ;; _ <- w_named SDynamic ;; Ok w.
Definition w_dynamic (w : wst) (d : dynent) : out wst :=
  b <- enc_dyn is64 e d ;;
  let w := w_put w b in
  n <- padd 64 (w_num w SDynamic) 1 ;; _ <- guard (n <=? r_num r SDynamic) ;; Ok (with_wnum w SDynamic n).
(** 688-701 [write_hash], 729-761 [write_gnu_hash] *)
Definition w_table (w : wst) (s : slot) (al : Z) (table : out bytes) : out wst :=
  w <- w_at w (r_off r s) al ;; _ <- w_named s ;; b <- table ;;
  let w := w_put w b in
  size <- psub (zlen (w_out w)) (r_off r s) ;; _ <- guard (r_num r s =? size) ;; Ok w.
Definition w_hash (w : wst) (buckets symbols : Z) (hash : Z -> option Z) : out wst := w_table w SHash 4 (hash_table e buckets symbols hash).
Definition w_gnu_hash (w : wst) (d : gnu_desc) (hash : Z -> Z) : out wst := w_table w SGnuHash (addr_size is64) (gnu_hash_table is64 e d hash).
(** 785-798 [write_null_gnu_versym] (VER_NDX_LOCAL is 0), 803-807 [write_gnu_versym] *)
Definition w_versym (w : wst) (v : Z) : out wst :=
  let w := w_put w (write_u e 2 v) in
  n <- padd 32 (w_num w SVersym) 1 ;; _ <- guard (n <=? r_num r SVersym) ;; Ok (with_wnum w SVersym n).
Definition w_null_versym (w : wst) : out wst :=
  if r_off r SVersym =? 0 then Ok w else w <- w_at w (r_off r SVersym) 2 ;; _ <- w_named SVersym ;; w_versym w 0.
(** 830-842 [write_align_gnu_verdef_impl], 916-928 [write_align_gnu_verneed_impl] *)
Definition w_align_ver (w : wst) (s : slot) : out wst :=
  if r_off r s =? 0 then Ok w else w <- w_at w (r_off r s) 4 ;; _ <- w_named s ;; Ok w.
(** 847-859 [write_gnu_verdef], 866-876 shared, 880-888 [write_gnu_verdaux], 933-945 [write_gnu_verneed], 950-955 [write_gnu_vernaux] *)
Definition w_verdef (w : wst) (d : wverdef) : out wst :=
  v <- write_gnu_verdef e (w_v w) d ;;
  n <- padd 64 (w_aux w SVerdef) (wd_aux_count d) ;; _ <- guard (n <=? r_aux r SVerdef) ;; Ok (with_waux (with_v w v) SVerdef n).
Definition w_verdef_shared (w : wst) (d : wverdef) : out wst := v <- write_gnu_verdef_shared e (w_v w) d ;; Ok (with_v w v).
Definition w_verdaux (w : wst) (name : Z) : out wst := v <- write_gnu_verdaux e (w_v w) name ;; Ok (with_v w v).
Definition w_verneed (w : wst) (d : wverneed) : out wst :=
  v <- write_gnu_verneed e (w_v w) d ;;
  if wn_aux_count d =? 0 then Ok (with_v w v) else
  n <- padd 64 (w_aux w SVerneed) (wn_aux_count d) ;; _ <- guard (n <=? r_aux r SVerneed) ;; Ok (with_waux (with_v w v) SVerneed n).
Definition w_vernaux (w : wst) (a : wvernaux) : out wst := v <- write_gnu_vernaux e (w_v w) a ;; Ok (with_v w v).
(** 1000-1015 [write_gnu_attributes] *)
Definition w_attributes (w : wst) (d : bytes) : out wst :=
  if r_off r SAttributes =? 0 then Ok w else
  _ <- guard (r_off r SAttributes =? zlen (w_out w)) ;; _ <- w_named SAttributes ;;
  let w := w_put w d in
  size <- psub (zlen (w_out w)) (r_off r SAttributes) ;; _ <- guard (r_num r SAttributes =? size) ;; Ok w.
(** 1020-1031 [write_align_relocation], [write_relocation]; 1080-1088 [write_comdat_header], [write_comdat_entry] *)
Definition w_align_relocation (w : wst) : out wst := w_align w (addr_size is64).
Definition w_relocation (w : wst) (is_rela : bool) (c : crel) : wst := w_put w (enc_rel is64 is_rela e (w_mips w) c).
Definition w_comdat_header (w : wst) : out wst := w <- w_align w 4 ;; Ok (w_put w (write_u e 4 1)).
Definition w_comdat_entry (w : wst) (i : Z) : wst := w_put w (write_u e 4 i).
(** 1042-1059 [write_relocation_section_header], 1091-1107 [write_comdat_section_header] *)
Definition w_relocation_header (w : wst) (name section symtab offset count : Z) (is_rela : bool) : out (Z * wst) :=
  n <- name_offset SShstrtab (Some name) ;; w_section_header w (wr_reloc_header is64 is_rela n section symtab offset count).
Definition w_comdat_section_header (w : wst) (name symtab symbol offset count : Z) : out (Z * wst) :=
  n <- name_offset SShstrtab (Some name) ;; w_section_header w (wr_group_header n symtab symbol offset count).
End Write.

(** * Sequences of calls *)
Inductive rcmd :=
| RRange (len al : Z) | RUntil (off : Z) | RFileHeader | RProgramHeaders (n : Z) | RNullSection | RSection | RSectionHeaders
| RAdd (s : slot) (name : bytes) | RIndex (s : slot) | RRequire (s : slot) | RNullSymbol (s : slot) | RSymbol (section : option Z)
| RDynSymbol | RSymtab (s : slot) | RShndx | RStrings (s : slot) | RDynamic (n : Z) | RHash (buckets symbols : Z)
| RGnuHash (bloom buckets symbols : Z) | RVersym | RVerdef (n aux : Z) | RVerneed (n aux : Z) | RAttributes (n : Z)
| RRelocations (n : Z) (is_rela : bool) | RComdat (n : Z).
Definition r_exec (r : rst) (c : rcmd) : out (Z * rst) :=
  match c with
  | RRange len al => r_reserve r len al
  | RUntil off => r_until r off
  | RFileHeader => r_file_header r
  | RProgramHeaders n => r_program_headers r n
  | RNullSection => r_null_section r
  | RSection => r_section r
  | RSectionHeaders => r_section_headers r
  | RAdd s name => r_add r s name
  | RIndex s => r_tab_index r s
  | RRequire s => r_require r s
  | RNullSymbol s => r_null_symbol r s
  | RSymbol section => r_symbol r section
  | RDynSymbol => r_dynamic_symbol r
  | RSymtab s => r_symtab r s
  | RShndx => r_shndx r
  | RStrings s => r_strings r s
  | RDynamic n => r_dynamic r n
  | RHash b s => r_hash r b s
  | RGnuHash bl b s => r_gnu_hash r bl b s
  | RVersym => r_versym r
  | RVerdef n aux => r_verdef r n aux
  | RVerneed n aux => r_verneed r n aux
  | RAttributes n => r_attributes r n
  | RRelocations n is_rela => r_relocations r n is_rela
  | RComdat n => r_comdat r n
  end.
(** all calls in order: the values returned and the final state *)
Fixpoint r_run (r : rst) (l : list rcmd) : out (list Z * rst) :=
  match l with
  | [] => Ok ([], r)
  | c :: l => ' (v, r) <- r_exec r c ;; ' (vs, r) <- r_run r l ;; Ok (v :: vs, r)
  end.
Inductive wcmd :=
| WAlign (al : Z) | WData (d : bytes) | WUntil (off : Z) | WFileHeader (h : fhdr) | WAlignProgramHeaders | WProgramHeader (p : phdr)
| WNullSectionHeader | WSectionHeader (h : shdr) | WSlotHeader (s : slot) (addr num_local : Z) | WStrings (s : slot)
| WNullSymbol (s : slot) | WSymbol (s : slot) (y : wsym) | WSymtabShndx | WAlignDynamic | WDynamic (d : dynent)
| WHash (buckets symbols : Z) (hash : Z -> option Z) | WGnuHash (d : gnu_desc) (hash : Z -> Z) | WNullVersym | WVersym (v : Z)
| WAlignVer (s : slot) | WVerdef (d : wverdef) | WVerdefShared (d : wverdef) | WVerdaux (name : Z) | WVerneed (d : wverneed)
| WVernaux (a : wvernaux) | WAttributes (d : bytes) | WAlignRelocation | WRelocation (is_rela : bool) (c : crel) | WComdatHeader
| WComdatEntry (i : Z).
Definition w_exec (r : rst) (w : wst) (c : wcmd) : out wst :=
  match c with
  | WAlign al => w_align w al
  | WData d => Ok (w_put w d)
  | WUntil off => w_until w off
  | WFileHeader h => w_file_header r w h
  | WAlignProgramHeaders => w_align_program_headers r w
  | WProgramHeader p => w_program_header r w p
  | WNullSectionHeader => w_null_section_header r w
  | WSectionHeader h => ' (_, w) <- w_section_header r w h ;; Ok w
  | WSlotHeader s addr num_local => w_slot_header r w s addr num_local
  | WStrings s => w_strings r w s
  | WNullSymbol s => w_null_symbol r w s
  | WSymbol s y => w_symbol r w s y
  | WSymtabShndx => w_symtab_shndx r w
  | WAlignDynamic => w_align_dynamic r w
  | WDynamic d => w_dynamic r w d
  | WHash b s h => w_hash r w b s h
  | WGnuHash d h => w_gnu_hash r w d h
  | WNullVersym => w_null_versym r w
  | WVersym v => w_versym r w v
  | WAlignVer s => w_align_ver r w s
  | WVerdef d => w_verdef r w d
  | WVerdefShared d => w_verdef_shared r w d
  | WVerdaux n => w_verdaux r w n
  | WVerneed d => w_verneed r w d
  | WVernaux a => w_vernaux r w a
  | WAttributes d => w_attributes r w d
  | WAlignRelocation => w_align_relocation r w
  | WRelocation is_rela c => Ok (w_relocation r w is_rela c)
  | WComdatHeader => w_comdat_header r w
  | WComdatEntry i => Ok (w_comdat_entry r w i)
  end.
Fixpoint w_run (r : rst) (w : wst) (l : list wcmd) : out wst :=
  match l with [] => Ok w | c :: l => w <- w_exec r w c ;; w_run r w l end.
