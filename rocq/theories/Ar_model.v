(** Model of archive reading: src/read/archive.rs and src/archive.rs.  Definitions only.
    [usize] is 64 bits; the data source is a byte slice. *)
From Verif Require Export Iter_model Hash_model.

(** src/archive.rs 9, 12, 17, 20, 25, 30 *)
Definition AR_MAGIC : bytes := [33; 60; 97; 114; 99; 104; 62; 10].
Definition AR_AIX_BIG_MAGIC : bytes := [60; 98; 105; 103; 97; 102; 62; 10].
Definition AR_THIN_MAGIC : bytes := [33; 60; 116; 104; 105; 110; 62; 10].
Definition AR_TERMINATOR : bytes := [96; 10].
Definition AR_ZOS_MAGIC : bytes := [90; 76; 129; 153; 131; 136; 110; 21].
Definition AR_ZOS_TERMINATOR : bytes := [121; 21].

(** src/archive.rs 32-50 [Header]: 60 bytes; the fields read by the code *)
Definition ah_name (h : bytes) : bytes := zslice 0 16 h.
Definition ah_date (h : bytes) : bytes := zslice 16 12 h.
Definition ah_uid (h : bytes) : bytes := zslice 28 6 h.
Definition ah_gid (h : bytes) : bytes := zslice 34 6 h.
Definition ah_mode (h : bytes) : bytes := zslice 40 8 h.
Definition ah_size (h : bytes) : bytes := zslice 48 10 h.
Definition ah_terminator (h : bytes) : bytes := zslice 58 2 h.
(** 52-72 [AixHeader]: 112 bytes *)
Definition xh_size (h : bytes) : bytes := zslice 0 20 h.
Definition xh_date (h : bytes) : bytes := zslice 60 12 h.
Definition xh_uid (h : bytes) : bytes := zslice 72 12 h.
Definition xh_gid (h : bytes) : bytes := zslice 84 12 h.
Definition xh_mode (h : bytes) : bytes := zslice 96 12 h.
Definition xh_namlen (h : bytes) : bytes := zslice 108 4 h.
(** 74-92 [AixFileHeader]: 128 bytes *)
Definition xf_memoff (h : bytes) : bytes := zslice 8 20 h.
Definition xf_gstoff (h : bytes) : bytes := zslice 28 20 h.
Definition xf_gst64off (h : bytes) : bytes := zslice 48 20 h.

(** core char::to_digit for the radixes used here (8 and 10) *)
Definition to_digit (radix c : Z) : option Z :=
  if (48 <=? c) && (c - 48 <? radix) then Some (c - 48) else None.
Definition is_ascii_digit (c : Z) : bool := (48 <=? c) && (c <=? 57).
(** src/read/archive.rs 1004-1006 *)
Definition is_ebcdic_digit (c : Z) : bool := (240 <=? c) && (c <=? 249).
(** 1008-1014 *)
Definition ebcdic_to_digit (radix c : Z) : option Z :=
  if (radix =? 8) && ((240 <=? c) && (c <=? 247)) || (radix =? 10) && ((240 <=? c) && (c <=? 249)) then Some (c - 240) else None.
(** 969-979 and 988-998: the loops of the two functions below *)
Fixpoint digits_loop (digit : Z -> option Z) (space radix : Z) (digits : bytes) (result : Z) : option Z :=
  match digits with
  | [] => Some result
  | c :: tl =>
    if c =? space then Some result
    else match digit c with
         | None => None
         | Some x => match cmul 64 result radix with
                     | None => None
                     | Some r => match cadd 64 r x with
                                 | None => None
                                 | Some r => digits_loop digit space radix tl r
                                 end
                     end
         end
  end.
(** 965-981 [parse_u64_digits] *)
Definition parse_u64_digits (digits : bytes) (radix : Z) : option Z :=
  match digits with
  | 32 :: _ => None
  | _ => digits_loop (to_digit radix) 32 radix digits 0
  end.
(** 984-1000 [parse_u64_ebcdic_digits]; 1002 EBCDIC_SPACE *)
Definition parse_u64_ebcdic_digits (digits : bytes) (radix : Z) : option Z :=
  match digits with
  | 64 :: _ => None
  | _ => digits_loop (ebcdic_to_digit radix) 64 radix digits 0
  end.

(** crate memchr: memchr2 *)
Fixpoint memchr2 (a b : Z) (l : bytes) : option Z :=
  match l with
  | [] => None
  | x :: tl => if (x =? a) || (x =? b) then Some 0 else option_map (fun n => n + 1) (memchr2 a b tl)
  end.
(** 1018-1032 [parse_sysv_extended_name] *)
Definition sysv_name (digits names : bytes) : out bytes :=
  offset <- of_opt (parse_u64_digits digits 10) ;;
  name_data <- of_opt (get_from names offset) ;;
  len <- of_opt (memchr2 10 0 name_data) ;;
  c <- unwrap (zget name_data len) ;;
  if c =? 10 then
    if len <? 1 then Err
    else l1 <- psub len 1 ;;
         p <- unwrap (zget name_data l1) ;;
         if negb (p =? 47) then Err
         else (l1 <- psub len 1 ;; unwrap (get_to name_data l1))
  else unwrap (get_to name_data len).
(** 1037-1051 [parse_bsd_extended_name], 1056-1070 [zos_parse_bsd_extended_name]: the name and the updated
    [*offset] and [*size] *)
Definition bsd_name (len_opt : option Z) (data : bytes) (offset size : Z) : out (bytes * Z * Z) :=
  len <- of_opt len_opt ;;
  size <- of_opt (csub size len) ;;
  match rr_read_bytes data offset len with
  | (Ok name_data, offset) =>
    match memchr 0 name_data with
    | Some len => name <- unwrap (get_to name_data len) ;; Ok (name, offset, size)
    | None => Ok (name_data, offset, size)
    end
  | (Err, _) => Err
  | (Panic, _) => Panic
  end.

(** 432-440 [MemberHeader], 444-450 [ArchiveMember]; the header is its bytes *)
Inductive mheader := HCommon (h : bytes) | HAix (h : bytes) | HZos (h : bytes).
Record member := { mb_header : mheader; mb_name : bytes; mb_offset : Z; mb_size : Z }.

(** 477-500: the name, file_offset and file_size *)
Definition common_name (data h names : bytes) (offset size : Z) : out (bytes * Z * Z) :=
  let nf := ah_name h in
  n0 <- unwrap (zget nf 0) ;;
  n1 <- unwrap (zget nf 1) ;;
  n3 <- unwrap (zget nf 3) ;;
  if (n0 =? 47) && is_ascii_digit n1 then
    name <- sysv_name (zdrop 1 nf) names ;; Ok (name, offset, size)
  else if bytes_eqb (ztake 3 nf) [35; 49; 47] && is_ascii_digit n3 then
    bsd_name (parse_u64_digits (zdrop 3 nf) 10) data offset size
  else if n0 =? 47 then
    let name_len := match memchr 32 nf with Some n => n | None => zlen nf end in
    name <- unwrap (get_to nf name_len) ;; Ok (name, offset, size)
  else
    let name_len := match memchr 47 nf with
                    | Some n => n
                    | None => match memchr 32 nf with Some n => n | None => zlen nf end
                    end in
    name <- unwrap (get_to nf name_len) ;; Ok (name, offset, size).
(** 511-518 and 550-557: skip the file data *)
Definition skip_data (offset size : Z) : out Z :=
  offset <- of_opt (cadd 64 offset size) ;;
  Ok (if negb (Z.land size 1 =? 0) then sadd 64 offset 1 else offset).
(** 456-520 [ArchiveMember::parse]; on error the caller never uses the updated offset *)
Definition member_parse (data : bytes) (offset : Z) (names : bytes) (thin : bool) : out (member * Z) :=
  match rr_read data offset 60 with
  | (Ok header, offset) =>
    if negb (bytes_eqb (ah_terminator header) AR_TERMINATOR) then Err
    else
      header_file_size <- of_opt (parse_u64_digits (ah_size header) 10) ;;
      ' r <- common_name data header names offset header_file_size ;;
      let '(name, file_offset, file_size) := r in
      if thin && negb (bytes_eqb name [47]) && negb (bytes_eqb name [47; 47]) && negb (bytes_eqb name [47; 83; 89; 77; 54; 52; 47])
      then Ok ({| mb_header := HCommon header; mb_name := name; mb_offset := 0; mb_size := file_size |}, offset)
      else
        offset <- skip_data offset header_file_size ;;
        Ok ({| mb_header := HCommon header; mb_name := name; mb_offset := file_offset; mb_size := file_size |}, offset)
  | (Err, _) => Err
  | (Panic, _) => Panic
  end.
(** 525-564 [ArchiveMember::parse_zos] *)
Definition member_parse_zos (data : bytes) (offset : Z) : out (member * Z) :=
  match rr_read data offset 60 with
  | (Ok header, offset) =>
    if negb (bytes_eqb (ah_terminator header) AR_ZOS_TERMINATOR) then Err
    else
      header_file_size <- of_opt (parse_u64_ebcdic_digits (ah_size header) 10) ;;
      let nf := ah_name header in
      n3 <- unwrap (zget nf 3) ;;
      ' r <- (if bytes_eqb (ztake 3 nf) [123; 241; 97] && is_ebcdic_digit n3
              then bsd_name (parse_u64_ebcdic_digits (zdrop 3 nf) 10) data offset header_file_size
              else
                let name_len := match memchr 64 nf with Some n => n | None => zlen nf end in
                name <- unwrap (get_to nf name_len) ;; Ok (name, offset, header_file_size)) ;;
      let '(name, file_offset, file_size) := r in
      offset <- skip_data offset header_file_size ;;
      Ok ({| mb_header := HZos header; mb_name := name; mb_offset := file_offset; mb_size := file_size |}, offset)
  | (Err, _) => Err
  | (Panic, _) => Panic
  end.
(** 578-617 [ArchiveMember::parse_aixbig] *)
Definition member_parse_aix (data : bytes) (offset : Z) : out member :=
  match rr_read data offset 112 with
  | (Ok header, offset) =>
    name_length <- of_opt (parse_u64_digits (xh_namlen header) 10) ;;
    match rr_read_bytes data offset name_length with
    | (Ok name, offset) =>
      let offset := if negb (Z.land offset 1 =? 0) then sadd 64 offset 1 else offset in
      match rr_read_bytes data offset 2 with
      | (Ok terminator, offset) =>
        if negb (bytes_eqb terminator AR_TERMINATOR) then Err
        else
          size <- of_opt (parse_u64_digits (xh_size header) 10) ;;
          Ok {| mb_header := HAix header; mb_name := name; mb_offset := offset; mb_size := size |}
      | (Err, _) => Err
      | (Panic, _) => Panic
      end
    | (Err, _) => Err
    | (Panic, _) => Panic
    end
  | (Err, _) => Err
  | (Panic, _) => Panic
  end.
(** 568-575 [ArchiveMember::parse_aixbig_index] *)
Definition member_parse_aix_index (data index : bytes) : out member :=
  offset <- of_opt (parse_u64_digits index 10) ;;
  member_parse_aix data offset.

(** 646-652 [date], 656-662 [uid], 666-672 [gid], 676-682 [mode] *)
Definition mb_date (m : member) : option Z :=
  match mb_header m with
  | HCommon h => parse_u64_digits (ah_date h) 10
  | HAix h => parse_u64_digits (xh_date h) 10
  | HZos h => parse_u64_ebcdic_digits (ah_date h) 10
  end.
Definition mb_uid (m : member) : option Z :=
  match mb_header m with
  | HCommon h => parse_u64_digits (ah_uid h) 10
  | HAix h => parse_u64_digits (xh_uid h) 10
  | HZos h => parse_u64_ebcdic_digits (ah_uid h) 10
  end.
Definition mb_gid (m : member) : option Z :=
  match mb_header m with
  | HCommon h => parse_u64_digits (ah_gid h) 10
  | HAix h => parse_u64_digits (xh_gid h) 10
  | HZos h => parse_u64_ebcdic_digits (ah_gid h) 10
  end.
Definition mb_mode (m : member) : option Z :=
  match mb_header m with
  | HCommon h => parse_u64_digits (ah_mode h) 8
  | HAix h => parse_u64_digits (xh_mode h) 8
  | HZos h => parse_u64_ebcdic_digits (ah_mode h) 8
  end.
(** 690-692 [file_range] *)
Definition mb_range (m : member) : Z * Z := (mb_offset m, mb_size m).
(** 697-699 [is_thin], 705-711 [data] *)
Definition mb_is_thin (m : member) : bool := mb_offset m =? 0.
Definition mb_data (data : bytes) (m : member) : out bytes :=
  if mb_is_thin m then Ok [] else rr_read_bytes_at data (mb_offset m) (mb_size m).

(** 33-52 [ArchiveKind], 56-68 [Members], 72-79 [ArchiveFile] *)
Inductive akind := AKUnknown | AKGnu | AKGnu64 | AKBsd | AKBsd64 | AKCoff | AKAixBig | AKZos.
Inductive members := MCommon (offset end_offset : Z) | MAix (index : list bytes) | MZos (offset end_offset : Z).
Record archive := { ar_data : bytes; ar_kind : akind; ar_members : members; ar_symbols : Z * Z; ar_names : bytes; ar_thin : bool }.

(** 118-124 [parse_member] *)
Definition ar_next (data names : bytes) (thin : bool) (tail : Z) : out (option (member * Z)) :=
  if tail <? zlen data then r <- member_parse data tail names thin ;; Ok (Some r) else Ok None.
Definition ar_mk (data : bytes) (thin : bool) (k : akind) (symbols : Z * Z) (names : bytes) (members_offset : Z) : archive :=
  {| ar_data := data; ar_kind := k; ar_members := MCommon members_offset (zlen data); ar_symbols := symbols; ar_names := names;
     ar_thin := thin |}.
(** 125-208: the special members of an archive with the common format.  The names compared with are
    "/" "//" "/<ECSYMBOLS>/" "/SYM64/" "__.SYMDEF" "__.SYMDEF SORTED" "__.SYMDEF_64" "__.SYMDEF_64 SORTED". *)
Definition N_slash : bytes := [47].
Definition N_names : bytes := [47; 47].
Definition N_ec : bytes := [47; 60; 69; 67; 83; 89; 77; 66; 79; 76; 83; 62; 47].
Definition N_sym64 : bytes := [47; 83; 89; 77; 54; 52; 47].
Definition N_symdef : bytes := [95; 95; 46; 83; 89; 77; 68; 69; 70].
Definition N_symdef_sorted : bytes := N_symdef ++ [32; 83; 79; 82; 84; 69; 68].
Definition N_symdef_64 : bytes := N_symdef ++ [95; 54; 52].
Definition N_symdef_64_sorted : bytes := N_symdef_64 ++ [32; 83; 79; 82; 84; 69; 68].
Definition ar_parse_common (data : bytes) (thin : bool) (tail : Z) : out archive :=
  let mk := ar_mk data thin in
  first <- ar_next data [] thin tail ;;
  match first with
  | None => Ok (mk AKUnknown (0, 0) [] tail)
  | Some (m1, t1) =>
    if bytes_eqb (mb_name m1) N_slash then
      second <- ar_next data [] thin t1 ;;
      match second with
      | None => Ok (mk AKGnu (mb_range m1) [] t1)
      | Some (m2, t2) =>
        if bytes_eqb (mb_name m2) N_names then
          names <- mb_data data m2 ;; Ok (mk AKGnu (mb_range m1) names t2)
        else if bytes_eqb (mb_name m2) N_slash then
          third <- ar_next data [] thin t2 ;;
          ' r <- match third with
                 | Some (m3, t3) =>
                   if bytes_eqb (mb_name m3) N_names then
                     names <- mb_data data m3 ;;
                     fourth <- ar_next data names thin t3 ;;
                     Ok (names, t3, fourth)
                   else Ok ([], t2, third)
                 | None => Ok ([], t2, None)
                 end ;;
          let '(names, members_offset, next_member) := r in
          let members_offset :=
            match next_member with
            | Some (m, t) => if bytes_eqb (mb_name m) N_ec then t else members_offset
            | None => members_offset
            end in
          Ok (mk AKCoff (mb_range m2) names members_offset)
        else Ok (mk AKGnu (mb_range m1) [] t1)
      end
    else if bytes_eqb (mb_name m1) N_sym64 then
      second <- ar_next data [] thin t1 ;;
      match second with
      | Some (m2, t2) =>
        if bytes_eqb (mb_name m2) N_names then
          names <- mb_data data m2 ;; Ok (mk AKGnu64 (mb_range m1) names t2)
        else Ok (mk AKGnu64 (mb_range m1) [] t1)
      | None => Ok (mk AKGnu64 (mb_range m1) [] t1)
      end
    else if bytes_eqb (mb_name m1) N_names then
      names <- mb_data data m1 ;; Ok (mk AKGnu (0, 0) names t1)
    else if bytes_eqb (mb_name m1) N_symdef || bytes_eqb (mb_name m1) N_symdef_sorted then
      Ok (mk AKBsd (mb_range m1) [] t1)
    else if bytes_eqb (mb_name m1) N_symdef_64 || bytes_eqb (mb_name m1) N_symdef_64_sorted then
      Ok (mk AKBsd64 (mb_range m1) [] t1)
    else Ok (mk AKUnknown (0, 0) [] tail)
  end.
(** 213-279 [parse_aixbig] *)
Definition ar_parse_aix (data : bytes) : out archive :=
  match rr_read data 0 128 with
  | (Ok fh, _) =>
    let mk symbols index :=
      {| ar_data := data; ar_kind := AKAixBig; ar_members := MAix index; ar_symbols := symbols; ar_names := []; ar_thin := false |} in
    if negb (bytes_eqb (zslice 0 8 fh) AR_AIX_BIG_MAGIC) then Panic else
    symtbl64 <- of_opt (parse_u64_digits (xf_gst64off fh) 10) ;;
    symbols <- (if 0 <? symtbl64 then m <- member_parse_aix data symtbl64 ;; Ok (mb_range m)
                else
                  symtbl <- of_opt (parse_u64_digits (xf_gstoff fh) 10) ;;
                  if 0 <? symtbl then m <- member_parse_aix data symtbl ;; Ok (mb_range m) else Ok (0, 0)) ;;
    member_table_offset <- of_opt (parse_u64_digits (xf_memoff fh) 10) ;;
    if member_table_offset =? 0 then Ok (mk symbols [])
    else
      m <- member_parse_aix data member_table_offset ;;
      member_data <- mb_data data m ;;
      match b_read_slice member_data 1 20 with
      | (Ok count_bytes, member_data) =>
        members_count <- of_opt (parse_u64_digits (concat count_bytes) 10) ;;
        match b_read_slice member_data 20 members_count with
        | (Ok index, _) => Ok (mk symbols index)
        | (Err, _) => Err
        | (Panic, _) => Panic
        end
      | (Err, _) => Err
      | (Panic, _) => Panic
      end
  | (Err, _) => Err
  | (Panic, _) => Panic
  end.
(** 282-319 [parse_zos] *)
Definition N_symdef_ebcdic : bytes := [109; 109; 75; 226; 232; 212; 196; 197; 198].
Definition ar_parse_zos (data : bytes) : out archive :=
  match rr_read_bytes data 0 8 with
  | (Ok magic, tail) =>
    if negb (bytes_eqb magic AR_ZOS_MAGIC) then Panic else
    let mk symbols members_offset :=
      {| ar_data := data; ar_kind := AKZos; ar_members := MZos members_offset (zlen data); ar_symbols := symbols; ar_names := [];
         ar_thin := false |} in
    if tail <? zlen data then
      ' r <- member_parse_zos data tail ;;
      let '(m, t) := r in
      if bytes_eqb (mb_name m) N_symdef_ebcdic then Ok (mk (mb_range m) t) else Ok (mk (0, 0) tail)
    else Ok (mk (0, 0) tail)
  | (Err, _) => Err
  | (Panic, _) => Panic
  end.
(** 83-211 [ArchiveFile::parse] *)
Definition ar_parse (data : bytes) : out archive :=
  match rr_read_bytes data 0 8 with
  | (Ok magic, tail) =>
    if bytes_eqb magic AR_AIX_BIG_MAGIC then ar_parse_aix data
    else if bytes_eqb magic AR_ZOS_MAGIC then ar_parse_zos data
    else if bytes_eqb magic AR_THIN_MAGIC then ar_parse_common data true tail
    else if bytes_eqb magic AR_MAGIC then ar_parse_common data false tail
    else Err
  | (Err, _) => Err
  | (Panic, _) => Panic
  end.

(** 383-388 [ArchiveMemberIterator]: its [members] field is the state, the rest does not change.
    393-427 [next]; an item that is an error is represented by [Err]. *)
Definition members_next (data names : bytes) (thin : bool) (s : members) : out (option member) * members :=
  match s with
  | MCommon offset end_offset =>
    if end_offset <=? offset then (Ok None, s)
    else match member_parse data offset names thin with
         | Ok (m, offset) => (Ok (Some m), MCommon offset end_offset)
         | Err => (Err, MCommon end_offset end_offset)
         | Panic => (Panic, s)
         end
  | MAix [] => (Ok None, s)
  | MAix (first :: rest) =>
    match member_parse_aix_index data first with
    | Ok m => (Ok (Some m), MAix rest)
    | Err => (Err, MAix [])
    | Panic => (Panic, s)
    end
  | MZos offset end_offset =>
    if end_offset <=? offset then (Ok None, s)
    else match member_parse_zos data offset with
         | Ok (m, offset) => (Ok (Some m), MZos offset end_offset)
         | Err => (Err, MZos end_offset end_offset)
         | Panic => (Panic, s)
         end
  end.
(** 336-343 [members]: the iterator's [next]; its initial state is [ar_members a] *)
Definition ar_members_next (a : archive) : members -> out (option member) * members :=
  members_next (ar_data a) (ar_names a) (ar_thin a).
(** 346-367 [member] *)
Definition ar_member (a : archive) (off : Z) : out member :=
  match ar_members a with
  | MCommon offset end_offset =>
    if (off <? offset) || (end_offset <=? off) then Err
    else r <- member_parse (ar_data a) off (ar_names a) (ar_thin a) ;; Ok (fst r)
  | MAix _ => member_parse_aix (ar_data a) off
  | MZos offset end_offset =>
    if (off <? offset) || (end_offset <=? off) then Err
    else r <- member_parse_zos (ar_data a) off ;; Ok (fst r)
  end.

(** * Symbol tables *)
(** 944-948 [ArchiveSymbol] *)
Record asym := { as_name : bytes; as_offset : Z }.
(** 723-783 [SymbolIteratorInternal]; a slice iterator is the list of remaining entries (as bytes) *)
Inductive symiter :=
| SNone
| SGnu (offsets : list bytes) (names : bytes)
| SGnu64 (offsets : list bytes) (names : bytes)
| SBsd (offsets : list bytes) (names : bytes)
| SBsd64 (offsets : list bytes) (names : bytes)
| SCoff (members : list bytes) (indices : list bytes) (names : bytes).
(** The failure of the reads in 786-846 is [Err]. *)
Definition rd {A B} (m : out A * bytes) (k : A -> bytes -> out B) : out B :=
  match m with (Ok a, s) => k a s | (Err, _) => Err | (Panic, _) => Panic end.
(** 786-846 [ArchiveSymbolIterator::new] *)
Definition symiter_new (kind : akind) (data : bytes) (offset size : Z) : out symiter :=
  data <- rr_read_bytes_at data offset size ;;
  match kind with
  | AKUnknown | AKAixBig | AKZos => Ok SNone
  | AKGnu => rd (b_read data 4) (fun count data =>
            rd (b_read_slice data 4 (read_u Big count)) (fun offsets data => Ok (SGnu offsets data)))
  | AKGnu64 => rd (b_read data 8) (fun count data =>
              rd (b_read_slice data 8 (read_u Big count)) (fun offsets data => Ok (SGnu64 offsets data)))
  | AKBsd => rd (b_read data 4) (fun size data =>
            rd (b_read_slice data 8 (read_u Little size / 8)) (fun offsets data =>
            rd (b_read data 4) (fun size data =>
            rd (b_read_bytes data (read_u Little size)) (fun names data => Ok (SBsd offsets names)))))
  | AKBsd64 => rd (b_read data 8) (fun size data =>
              rd (b_read_slice data 16 (read_u Little size / 16)) (fun offsets data =>
              rd (b_read data 8) (fun size data =>
              rd (b_read_bytes data (read_u Little size)) (fun names data => Ok (SBsd64 offsets names)))))
  | AKCoff => rd (b_read data 4) (fun count data =>
             rd (b_read_slice data 4 (read_u Little count)) (fun members data =>
             rd (b_read data 4) (fun count data =>
             rd (b_read_slice data 2 (read_u Little count)) (fun indices data => Ok (SCoff members indices data)))))
  end.
(** 370-378 [symbols] *)
Definition ar_symbols_iter (a : archive) : out (option symiter) :=
  let '(offset, size) := ar_symbols a in
  if (offset =? 0) && (size =? 0) then Ok None
  else it <- symiter_new (ar_kind a) (ar_data a) offset size ;; Ok (Some it).
(** 853-924 [next]; an item that is an error is represented by [Err] *)
Definition symiter_next (s : symiter) : out (option asym) * symiter :=
  match s with
  | SNone => (Ok None, s)
  | SGnu [] _ | SGnu64 [] _ | SBsd [] _ | SBsd64 [] _ | SCoff _ [] _ => (Ok None, s)
  | SGnu (o :: rest) names =>
    let '(r, names) := b_read_string names in
    (name <- r ;; Ok (Some {| as_name := name; as_offset := read_u Big o |}), SGnu rest names)
  | SGnu64 (o :: rest) names =>
    let '(r, names) := b_read_string names in
    (name <- r ;; Ok (Some {| as_name := name; as_offset := read_u Big o |}), SGnu64 rest names)
  | SBsd (e :: rest) names =>
    (name <- b_read_string_at names (fld Little 0 4 e) ;; Ok (Some {| as_name := name; as_offset := fld Little 4 4 e |}), SBsd rest names)
  | SBsd64 (e :: rest) names =>
    (name <- b_read_string_at names (fld Little 0 8 e) ;; Ok (Some {| as_name := name; as_offset := fld Little 8 8 e |}), SBsd64 rest names)
  | SCoff members (i :: rest) names =>
    let index := wrap_u 16 (read_u Little i - 1) in
    let '(r, names) := b_read_string names in
    (m <- of_opt (zget members index) ;; name <- r ;; Ok (Some {| as_name := name; as_offset := read_u Little m |}), SCoff members rest names)
  end.
(** 926-940 [size_hint]: the lower bound and the upper bound *)
Definition symiter_size_hint (s : symiter) : Z * option Z :=
  match s with
  | SNone => (0, None)
  | SGnu l _ | SGnu64 l _ | SBsd l _ | SBsd64 l _ | SCoff _ l _ => (zlen l, Some (zlen l))
  end.
