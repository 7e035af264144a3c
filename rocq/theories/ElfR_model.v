(** Model of ELF relocation entries, relocation sections, dynamic entries and section groups: src/elf.rs 1636-1815,
    src/read/elf/relocation.rs, src/read/elf/dynamic.rs, src/read/elf/import.rs, src/write/elf/encoder.rs.
    Definitions only. *)
From Verif Require Export Str_model Rel_model Elf_model.

(** src/elf.rs 1059, 1063, 1069, 1081-1088 *)
Definition SHT_RELA := 4. Definition SHT_DYNAMIC := 6. Definition SHT_REL := 9. Definition SHT_GROUP := 17.
Definition SHT_RELR := 19. Definition SHT_CREL := 1073741844.

(** * src/elf.rs 1636-1815: relocation entries *)
(** 1649, 1685 [r_sym] of [Rel32], [Rela32] *)
Definition r32_sym (info : Z) : Z := Z.shiftr info 8.
(** 1655, 1691 [r_type] *)
Definition r32_type (info : Z) : Z := Z.land info 255.
(** 1661, 1697 [r_info]: the shift truncates to 32 bits ([Rela32] writes [r_type.0 as u8] instead of the mask) *)
Definition r32_info (sym ty : Z) : Z := Z.lor (wrap_u 32 (Z.shiftl sym 8)) (Z.land ty 255).
(** 1733, 1739 [Rel64] *)
Definition r64_sym (info : Z) : Z := wrap_u 32 (Z.shiftr info 32).
Definition r64_type (info : Z) : Z := wrap_u 32 (Z.land info 4294967295).
(** 1744 *)
Definition r64_info (sym ty : Z) : Z := Z.lor (wrap_u 64 (Z.shiftl sym 32)) ty.
(** 1775-1785 [Rela64::get_r_info] *)
Definition get_r_info (mips64el : bool) (t : Z) : Z :=
  if mips64el then
    Z.lor (Z.lor (Z.lor (Z.lor (wrap_u 64 (Z.shiftl t 32)) (Z.land (Z.shiftr t 8) 4278190080))
                        (Z.land (Z.shiftr t 24) 16711680))
                 (Z.land (Z.shiftr t 40) 65280))
          (Z.land (Z.shiftr t 56) 255)
  else t.
(** 1800-1810 [Rela64::r_info] *)
Definition rela64_info (mips64el : bool) (sym ty : Z) : Z :=
  let t := r64_info sym ty in
  if mips64el then
    Z.lor (Z.lor (Z.lor (Z.lor (Z.shiftr t 32) (wrap_u 64 (Z.shiftl (Z.land t 4278190080) 8)))
                        (wrap_u 64 (Z.shiftl (Z.land t 16711680) 24)))
                 (wrap_u 64 (Z.shiftl (Z.land t 65280) 40)))
          (wrap_u 64 (Z.shiftl (Z.land t 255) 56))
  else t.
(** sizes: the [repr(C)] structs; encoder.rs 978-993 [rel_size] *)
Definition rel_size (is64 is_rela : bool) : Z := if is64 then (if is_rela then 24 else 16) else (if is_rela then 12 else 8).
(** relocation.rs 866-886 [Crel::from_rel], [Crel::from_rela], applied to the bytes of an entry; also encoder.rs
    216-235 [Rel::from_rel], [Rel::from_rela], which build the same record *)
Definition rel_of (is64 is_rela : bool) (e : endian) (mips64el : bool) (b : bytes) : crel :=
  if is64 then
    let info := fld e 8 8 b in
    if is_rela then
      {| cr_offset := fld e 0 8 b; cr_sym := r64_sym (get_r_info mips64el info); cr_type := r64_type (get_r_info mips64el info);
         cr_addend := read_i e (zslice 16 8 b) |}
    else {| cr_offset := fld e 0 8 b; cr_sym := r64_sym info; cr_type := r64_type info; cr_addend := 0 |}
  else
    let info := fld e 4 4 b in
    {| cr_offset := fld e 0 4 b; cr_sym := r32_sym info; cr_type := r32_type info;
       cr_addend := if is_rela then read_i e (zslice 8 4 b) else 0 |}.
(** encoder.rs 1009-1042 [relocation]; [I32::new(.. as i32)] *)
Definition enc_rel (is64 is_rela : bool) (e : endian) (mips64el : bool) (r : crel) : bytes :=
  if is64 then
    if is_rela then write_u e 8 (cr_offset r) ++ write_u e 8 (rela64_info mips64el (cr_sym r) (cr_type r)) ++ write_i e 8 (cr_addend r)
    else write_u e 8 (cr_offset r) ++ write_u e 8 (r64_info (cr_sym r) (cr_type r))
  else write_u e 4 (wrap_u 32 (cr_offset r)) ++ write_u e 4 (r32_info (cr_sym r) (cr_type r)) ++
    (if is_rela then write_i e 4 (wrap_s 32 (cr_addend r)) else []).

(** * src/read/elf/relocation.rs 18-80 [RelocationSections] *)
Definition is_reloc_type (ty : Z) : bool := (ty =? SHT_REL) || (ty =? SHT_RELA) || (ty =? SHT_CREL).
(** 30-63: the body of the loop for one section; indexing the vector out of bounds panics *)
Definition relsec_step (t : sectab) (symsec : Z) (index : Z) (s : shdr) (r : list Z) : out (list Z) :=
  if negb (is_reloc_type (sh_type s)) then Ok r else
  if negb (sh_link s =? symsec) then Ok r else
  if sh_info s =? 0 then Ok r else
  if zlen r <=? sh_info s then Err else
  h <- stab_section t (sh_info s) ;;
  if is_reloc_type (sh_type h) then Err else
  next <- unwrap (zget r (sh_info s)) ;;
  if (index <? 0) || (zlen r <=? index) then Panic else
  Ok (zset (zset r (sh_info s) index) index next).
Fixpoint relsec_loop (t : sectab) (symsec : Z) (l : list (Z * shdr)) (r : list Z) : out (list Z) :=
  match l with
  | [] => Ok r
  | (index, s) :: l => r <- relsec_step t symsec index s r ;; relsec_loop t symsec l r
  end.
(** 24-66 [parse]: the sections in reverse *)
Definition relsec_parse (t : sectab) (symsec : Z) : out (list Z) :=
  relsec_loop t symsec (rev (enumerate (stab_sections t))) (zeros (zlen (stab_sections t))).
(** 72-79 [get] *)
Definition relsec_get (r : list Z) (index : Z) : option Z :=
  match zget r index with Some x => if x =? 0 then None else Some x | None => None end.

(** * 82-111 [ElfRelocationIterator] *)
Inductive reliter := RIfixed (is_rel : bool) (l : list crel) | RIcrel (it : crel_it).
Definition ri_is_rel (i : reliter) : bool := match i with RIfixed b _ => b | RIcrel it => negb (ci_is_rela it) end.
(** 102-110 [next]; an error of the CREL iterator is [None] *)
Definition reliter_next (i : reliter) : out (option crel) * reliter :=
  match i with
  | RIfixed b [] => (Ok None, i)
  | RIfixed b (c :: l) => (Ok (Some c), RIfixed b l)
  | RIcrel it => match crel_next it with
                 | (Ok o, it) => (Ok o, RIcrel it)
                 | (Err, it) => (Ok None, RIcrel it)
                 | (Panic, it) => (Panic, RIcrel it)
                 end
  end.
(** 161-183, 242-264: the [match section.sh_type(endian)]; [None] if the section is not decoded *)
Definition open_relocs (is64 : bool) (e : endian) (mips64el : bool) (data : bytes) (s : shdr) : out (option reliter) :=
  if sh_type s =? SHT_REL then
    match sh_data_as_array (rel_size is64 false) s data with
    | Ok a => Ok (Some (RIfixed true (map (rel_of is64 false e mips64el) a)))
    | Err => Ok None | Panic => Panic
    end
  else if sh_type s =? SHT_RELA then
    match sh_data_as_array (rel_size is64 true) s data with
    | Ok a => Ok (Some (RIfixed false (map (rel_of is64 true e mips64el) a)))
    | Err => Ok None | Panic => Panic
    end
  else if sh_type s =? SHT_CREL then
    match sh_data s data with
    | Ok d => match crel_new d with Ok it => Ok (Some (RIcrel it)) | Err => Ok None | Panic => Panic end
    | Err => Ok None | Panic => Panic
    end
  else Ok None.
(** 535-555 the end of [parse_relocation]: the symbol ([None] for an absolute target), addend, whether the addend is
    implicit, and the type.  The kind, encoding and size of the relocation, a table indexed by machine and type, are
    modelled in [Kind_model]. *)
Record reloc := { rl_sym : option Z; rl_addend : Z; rl_implicit : bool; rl_type : Z }.
Definition parse_reloc (c : crel) (implicit : bool) : reloc :=
  {| rl_sym := crel_symbol c; rl_addend := cr_addend c; rl_implicit := implicit; rl_type := cr_type c |}.

(** * 199-270 [ElfSectionRelocationIterator] *)
Record secrel_it := { sr_index : Z; sr_relocs : option reliter }.
(** section.rs 678-684 [relocations] *)
Definition secrel_new (index : Z) : secrel_it := {| sr_index := index; sr_relocs := None |}.
(** 140-186 and 228-267: the two [next] methods are the same [loop] except for the step to the next section, [advance]:
    [None] ends the iteration, [Some (j, o)] sets [section_index] to [j] and [relocations] to [o].  Each turn of the
    loop takes one fuel; the callers below give enough, and running out, which stands for an endless loop, is [Panic]. *)
Fixpoint rel_loop (fuel : nat) (advance : Z -> option (Z * out (option reliter))) (it : secrel_it) : out (option (Z * reloc)) * secrel_it :=
  let turn :=
    match fuel with
    | O => (Panic, it)
    | S fuel =>
      match advance (sr_index it) with
      | None => (Ok None, {| sr_index := sr_index it; sr_relocs := None |})
      | Some (j, Ok o) => rel_loop fuel advance {| sr_index := j; sr_relocs := o |}
      | Some (_, _) => (Panic, it)
      end
    end in
  match sr_relocs it with
  | Some i =>
    match reliter_next i with
    | (Ok (Some c), i') => (Ok (Some (cr_offset c, parse_reloc c (ri_is_rel i'))), {| sr_index := sr_index it; sr_relocs := Some i' |})
    | (Ok None, _) => turn
    | (_, _) => (Panic, it)
    end
  | None => turn
  end.
(** 239-264: follow the chain; [unwrap] of [section] *)
Definition sec_advance (is64 : bool) (e : endian) (mips64el : bool) (data : bytes) (t : sectab) (r : list Z) (index : Z)
  : option (Z * out (option reliter)) :=
  match relsec_get r index with
  | None => None
  | Some j => Some (j, match stab_section t j with Ok h => open_relocs is64 e mips64el data h | _ => Panic end)
  end.
Definition secrel_next is64 e mips64el data t r it :=
  rel_loop (S (length r)) (sec_advance is64 e mips64el data t r) it.

(** * 122-186 [ElfDynamicRelocationIterator]: 153-183, all sections in order *)
Definition dyn_advance (is64 : bool) (e : endian) (mips64el : bool) (data : bytes) (t : sectab) (dynsym : Z) (index : Z)
  : option (Z * out (option reliter)) :=
  match stab_section t index with
  | Ok h => Some (index + 1, if negb (sh_link h =? dynsym) then Ok None else open_relocs is64 e mips64el data h)
  | _ => None
  end.
Definition dynrel_next is64 e mips64el data t dynsym it :=
  rel_loop (S (length (stab_sections t))) (dyn_advance is64 e mips64el data t dynsym) it.
(** file.rs 413-421 [dynamic_relocations] *)
Definition dynrel_new : secrel_it := {| sr_index := 1; sr_relocs := None |}.

(** * Dynamic entries *)
(** encoder.rs 1045-1051 [dyn_size]; src/elf.rs [Dyn32], [Dyn64]: a signed tag and an unsigned value *)
Definition dyn_size (is64 : bool) : Z := if is64 then 16 else 8.
Record dynent := { d_tag : Z; d_val : Z }.
Definition dyn_of (is64 : bool) (e : endian) (b : bytes) : dynent :=
  if is64 then {| d_tag := read_i e (zslice 0 8 b); d_val := fld e 8 8 b |}
  else {| d_tag := read_i e (zslice 0 4 b); d_val := fld e 4 4 b |}.
(** encoder.rs 1058-1085 [dynamic]: the 32-bit form returns errors on overflow *)
Definition enc_dyn (is64 : bool) (e : endian) (d : dynent) : out bytes :=
  if is64 then Ok (write_i e 8 (d_tag d) ++ write_u e 8 (d_val d))
  else if (d_tag d <? - 2 ^ 31) || (2 ^ 31 <=? d_tag d) then Err
  else if 2 ^ 32 <=? d_val d then Err
  else Ok (write_i e 4 (d_tag d) ++ write_u e 4 (d_val d)).
(** dynamic.rs 17-25 [DynamicTable], 36-58 [parse] *)
Record dyntab := { dt_dynamics : list dynent; dt_strings : strtab }.
Definition dyntab_default := {| dt_dynamics := []; dt_strings := strtab_default |}.
Definition dyntab_parse (is64 : bool) (e : endian) (data : bytes) (t : sectab) (s : shdr) : out dyntab :=
  if negb (sh_type s =? SHT_DYNAMIC) then Panic else
  a <- sh_data_as_array (dyn_size is64) s data ;;
  strings <- stab_strings_at t data (sh_link s) ;;
  Ok {| dt_dynamics := map (dyn_of is64 e) a; dt_strings := strings |}.
(** section.rs 184-194 [dynamic_table] *)
Definition stab_dynamic (is64 : bool) (e : endian) (data : bytes) (t : sectab) : out dyntab :=
  match find (fun s => sh_type s =? SHT_DYNAMIC) (stab_sections t) with
  | None => Ok dyntab_default
  | Some s => dyntab_parse is64 e data t s
  end.
(** 139-150 [DynamicIterator::next] on the remaining entries *)
Definition dyn_next (l : list dynent) : out (option dynent) * list dynent :=
  match l with
  | [] => (Ok None, [])
  | d :: l => if d_tag d =? 0 then (Ok None, []) else (Ok (Some d), l)
  end.
(** 180-191 [Dynamic::string] *)
Definition dyn_string (t : strtab) (d : dynent) : out bytes :=
  if 2 ^ 32 <=? d_val d then Err else stb_get t (d_val d).
(** import.rs 48-66 [ElfImportLibraryIterator::next]: state is the dynamic iterator *)
Fixpoint implib_next (t : strtab) (l : list dynent) : out (option bytes) * list dynent :=
  match l with
  | [] => (Ok None, [])
  | d :: l' =>
    if d_tag d =? 0 then (Ok None, [])
    else if negb (d_tag d =? 1) then implib_next t l'
    else (x <- dyn_string t d ;; Ok (Some x), l')
  end.

(** * Reader accessors by section type: src/read/elf/section.rs *)
(** 838-850 [rel], 858-870 [rela] *)
Definition sh_rel (is64 : bool) (e : endian) (data : bytes) (s : shdr) : out (option (list crel * Z)) :=
  if negb (sh_type s =? SHT_REL) then Ok None else
  a <- sh_data_as_array (rel_size is64 false) s data ;; Ok (Some (map (rel_of is64 false e false) a, sh_link s)).
Definition sh_rela (is64 : bool) (e : endian) (mips64el : bool) (data : bytes) (s : shdr) : out (option (list crel * Z)) :=
  if negb (sh_type s =? SHT_RELA) then Ok None else
  a <- sh_data_as_array (rel_size is64 true) s data ;; Ok (Some (map (rel_of is64 true e mips64el) a, sh_link s)).
(** 876-889 [relr] *)
Definition sh_relr (is64 : bool) (e : endian) (data : bytes) (s : shdr) : out (option relr_it) :=
  if negb (sh_type s =? SHT_RELR) then Ok None else
  a <- sh_data_as_array (if is64 then 8 else 4) s data ;; Ok (Some (relr_new (map (read_u e) a))).
(** 970-984 [group] *)
Definition sh_group (e : endian) (data : bytes) (s : shdr) : out (option (Z * list Z)) :=
  if negb (sh_type s =? SHT_GROUP) then Ok None else
  d <- sh_data s data ;;
  p <- from_bytes d 4 ;;
  a <- slice_from_all_bytes (snd p) 4 ;;
  Ok (Some (read_u e (fst p), map (read_u e) a)).

(** * Writer: section headers by kind, encoder.rs 847-885 *)
(** 100-130 [SectionHeader::default]: all zero *)
Definition shdr_default : shdr :=
  {| sh_name := 0; sh_type := 0; sh_flags := 0; sh_addr := 0; sh_offset := 0; sh_size := 0; sh_link := 0; sh_info := 0;
     sh_addralign := 0; sh_entsize := 0 |}.
Definition addr_size (is64 : bool) : Z := if is64 then 8 else 4.
(** writer.rs 1042-1059 [write_relocation_section_header] with encoder.rs 853-861 *)
Definition wr_reloc_header (is64 is_rela : bool) (name section symtab offset count : Z) : shdr :=
  {| sh_name := name; sh_type := if is_rela then SHT_RELA else SHT_REL; sh_flags := 64; sh_addr := 0; sh_offset := offset;
     sh_size := count * rel_size is64 is_rela; sh_link := symtab; sh_info := section; sh_addralign := addr_size is64;
     sh_entsize := rel_size is64 is_rela |}.
(** writer.rs 1065-1077 [write_relative_relocation_section_header] with encoder.rs 866-873 *)
Definition wr_relr_header (is64 : bool) (name offset size : Z) : shdr :=
  {| sh_name := name; sh_type := SHT_RELA; sh_flags := 0; sh_addr := 0; sh_offset := offset; sh_size := size; sh_link := 0;
     sh_info := 0; sh_addralign := addr_size is64; sh_entsize := addr_size is64 |}.
(** writer.rs 1080-1107 [write_comdat_header], [write_comdat_entry], [write_comdat_section_header] with encoder.rs
    880-887; the alignment of the data before it is the caller's file position and not modelled here *)
Definition wr_group_data (e : endian) (members : list Z) : bytes := write_u e 4 1 ++ concat (map (write_u e 4) members).
Definition wr_group_header (name symtab symbol offset count : Z) : shdr :=
  {| sh_name := name; sh_type := SHT_GROUP; sh_flags := 0; sh_addr := 0; sh_offset := offset; sh_size := (count + 1) * 4;
     sh_link := symtab; sh_info := symbol; sh_addralign := 4; sh_entsize := 4 |}.
(** writer.rs 667-678 [write_dynamic_section_header] with encoder.rs 750-759 *)
Definition wr_dyn_header (is64 : bool) (name addr offset count dynstr : Z) : shdr :=
  {| sh_name := name; sh_type := SHT_DYNAMIC; sh_flags := 3; sh_addr := addr; sh_offset := offset; sh_size := count * dyn_size is64;
     sh_link := dynstr; sh_info := 0; sh_addralign := addr_size is64; sh_entsize := dyn_size is64 |}.
