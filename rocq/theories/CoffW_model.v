(** Model of the COFF writer: src/write/coff/writer.rs and [coff_write] of src/write/coff/object.rs.  Definitions only.
    The buffer is a [Vec<u8>] that never runs out of memory (see Buf_model.v for buffers).  A method is a function from the writer to its
    result and the writer afterwards; after an error or a panic the writer is dropped. *)
From Verif Require Export Str_model Obj_model Coff_model.

(** src/write/coff/writer.rs 28-42 [Writer] *)
Record cw := { cw_buf : bytes; cw_len : Z; cw_nsec : Z; cw_symoff : Z; cw_nsym : Z; cw_strtab : strtab; cw_strlen : Z; cw_stroff : Z;
  cw_strdata : bytes }.
(** 48-63 [new] *)
Definition cw_new : cw :=
  {| cw_buf := []; cw_len := 0; cw_nsec := 0; cw_symoff := 0; cw_nsym := 0; cw_strtab := st_new; cw_strlen := 0; cw_stroff := 0;
     cw_strdata := [] |}.
(** record updates *)
Definition cw_set_buf (w : cw) (b : bytes) : cw :=
  {| cw_buf := b; cw_len := cw_len w; cw_nsec := cw_nsec w; cw_symoff := cw_symoff w; cw_nsym := cw_nsym w; cw_strtab := cw_strtab w;
     cw_strlen := cw_strlen w; cw_stroff := cw_stroff w; cw_strdata := cw_strdata w |}.
Definition cw_set_len (w : cw) (n : Z) : cw :=
  {| cw_buf := cw_buf w; cw_len := n; cw_nsec := cw_nsec w; cw_symoff := cw_symoff w; cw_nsym := cw_nsym w; cw_strtab := cw_strtab w;
     cw_strlen := cw_strlen w; cw_stroff := cw_stroff w; cw_strdata := cw_strdata w |}.
Definition cw_set_nsec (w : cw) (n : Z) : cw :=
  {| cw_buf := cw_buf w; cw_len := cw_len w; cw_nsec := n; cw_symoff := cw_symoff w; cw_nsym := cw_nsym w; cw_strtab := cw_strtab w;
     cw_strlen := cw_strlen w; cw_stroff := cw_stroff w; cw_strdata := cw_strdata w |}.
Definition cw_set_nsym (w : cw) (n : Z) : cw :=
  {| cw_buf := cw_buf w; cw_len := cw_len w; cw_nsec := cw_nsec w; cw_symoff := cw_symoff w; cw_nsym := n; cw_strtab := cw_strtab w;
     cw_strlen := cw_strlen w; cw_stroff := cw_stroff w; cw_strdata := cw_strdata w |}.
Definition cw_set_symoff (w : cw) (n : Z) : cw :=
  {| cw_buf := cw_buf w; cw_len := cw_len w; cw_nsec := cw_nsec w; cw_symoff := n; cw_nsym := cw_nsym w; cw_strtab := cw_strtab w;
     cw_strlen := cw_strlen w; cw_stroff := cw_stroff w; cw_strdata := cw_strdata w |}.
Definition cw_set_strtab (w : cw) (t : strtab) : cw :=
  {| cw_buf := cw_buf w; cw_len := cw_len w; cw_nsec := cw_nsec w; cw_symoff := cw_symoff w; cw_nsym := cw_nsym w; cw_strtab := t;
     cw_strlen := cw_strlen w; cw_stroff := cw_stroff w; cw_strdata := cw_strdata w |}.
Definition cw_set_str (w : cw) (len off : Z) (d : bytes) : cw :=
  {| cw_buf := cw_buf w; cw_len := cw_len w; cw_nsec := cw_nsec w; cw_symoff := cw_symoff w; cw_nsym := cw_nsym w; cw_strtab := cw_strtab w;
     cw_strlen := len; cw_stroff := off; cw_strdata := d |}.

(** 81-88 [reserve] *)
Definition cw_reserve (w : cw) (len align_start : Z) : out (Z * cw) :=
  l <- (if 1 <? align_start then align 64 (cw_len w) align_start else Ok (cw_len w)) ;;
  n <- padd 64 l len ;;
  Ok (wrap_u 32 l, cw_set_len w n).
(** src/write/util.rs 144-152 [resize], [write_align] of the counting buffer; 98-100 [write] *)
Definition cw_put (w : cw) (d : bytes) : cw := cw_set_buf w (cw_buf w ++ d).
Definition cw_resize (w : cw) (n : Z) : out cw :=
  if n <? zlen (cw_buf w) then Panic else Ok (cw_put w (zeros (n - zlen (cw_buf w)))).
Definition cw_align (w : cw) (size : Z) : out cw := n <- align 64 (zlen (cw_buf w)) size ;; cw_resize w n.
(** 91-95 [write_align] *)
Definition cw_write_align (w : cw) (align_start : Z) : out cw := if 1 <? align_start then cw_align w align_start else Ok w.
(** 103-106 [reserve_until] *)
Definition cw_reserve_until (w : cw) (offset : Z) : out cw := if offset <? cw_len w then Panic else Ok (cw_set_len w offset).
(** 109-112 [pad_until] *)
Definition cw_pad_until (w : cw) (offset : Z) : out cw := if offset <? zlen (cw_buf w) then Panic else cw_resize w offset.
(** 117-120 [reserve_file_header] *)
Definition cw_reserve_file_header (w : cw) : out cw :=
  if negb (cw_len w =? 0) then Panic else ' (_, w) <- cw_reserve w 20 1 ;; Ok w.
(** 129-150 [write_file_header] *)
Definition cw_write_file_header (w : cw) (machine time flags : Z) : out cw :=
  if negb (zlen (cw_buf w) =? 0) then Panic else
  Ok (cw_put w (write_u Little 2 machine ++ write_u Little 2 (cw_nsec w) ++ write_u Little 4 time ++ write_u Little 4 (cw_symoff w) ++
    write_u Little 4 (cw_nsym w) ++ write_u Little 2 0 ++ write_u Little 2 flags)).
(** 153-160 [reserve_section_headers] *)
Definition cw_reserve_section_headers (w : cw) (n : Z) : out cw :=
  if negb (cw_nsec w =? 0) then Panic else ' (_, w) <- cw_reserve (cw_set_nsec w n) (n * 40) 1 ;; Ok w.

(** 482-487 [Name] *)
Inductive cname := NShort (b : bytes) | NLong (id : Z).
(** 185-203: the decimal digits of a nonzero offset, most significant first *)
Fixpoint dec_digits (fuel : nat) (off : Z) (acc : bytes) : bytes :=
  match fuel with
  | O => acc
  | S f => if off =? 0 then acc else dec_digits f (off / 10) ((48 + off mod 10) :: acc)
  end.
(** 209-216: a base-64 digit *)
Definition enc64 (r : Z) : Z :=
  if r <=? 25 then 65 + r else if r <=? 51 then 97 + r - 26 else if r <=? 61 then 48 + r - 52 else if r =? 62 then 43 else 47.
(** 206-219: six base-64 digits, most significant first *)
Fixpoint b64_digits (n : nat) (off : Z) (acc : bytes) : bytes :=
  match n with O => acc | S n => b64_digits n (off / 64) (enc64 (off mod 64) :: acc) end.
(** 180-221: the name field of a section header *)
Definition sec_name_field (str_offset : Z) : bytes :=
  if str_offset <=? 9999999 then
    let d := if str_offset =? 0 then [48] else dec_digits 7 str_offset [] in
    47 :: d ++ zeros (7 - zlen d)
  else 47 :: 47 :: b64_digits 6 str_offset [].
(** 163-223 [write_section_header] *)
Definition cw_write_section_header (w : cw) (name : cname) (rawsize rawptr relptr lnptr nrel flags : Z) : out cw :=
  f <- match name with
       | NShort b => Ok b
       | NLong id => o <- st_get_offset (cw_strtab w) id ;; Ok (sec_name_field o)
       end ;;
  Ok (cw_put w (f ++ write_u Little 4 0 ++ write_u Little 4 0 ++ write_u Little 4 rawsize ++ write_u Little 4 rawptr ++
    write_u Little 4 relptr ++ write_u Little 4 lnptr ++ write_u Little 2 (if 65535 <? nrel then 65535 else nrel) ++
    write_u Little 2 0 ++ write_u Little 4 flags)).
(** 227-233 [reserve_section] *)
Definition cw_reserve_section (w : cw) (len : Z) : out (Z * cw) := if len =? 0 then Ok (0, w) else cw_reserve w len 4.
(** 247-253 [write_section] *)
Definition cw_write_section (w : cw) (data : bytes) : out cw :=
  match data with [] => Ok w | _ => w <- cw_align w 4 ;; Ok (cw_put w data) end.
(** 259-265 [write_section_zeroes] *)
Definition cw_write_section_zeroes (w : cw) (len : Z) : out cw :=
  if len =? 0 then Ok w else w <- cw_align w 4 ;; Ok (cw_put w (zeros len)).
(** 273-284 [reserve_relocations] *)
Definition cw_reserve_relocations (w : cw) (count : Z) : out (Z * cw) :=
  if count =? 0 then Ok (0, w) else
  n <- pmul 64 (if 65535 <? count then count + 1 else count) 10 ;; cw_reserve w n 1.
(** src/pe.rs 1270-1276 *)
Definition enc_rel (r : crel) : bytes := write_u Little 4 (cr_va r) ++ write_u Little 4 (cr_sym r) ++ write_u Little 2 (cr_typ r).
(** 289-298 [write_relocations_count] *)
Definition cw_write_relocations_count (w : cw) (count : Z) : out cw :=
  if 65535 <? count then n <- padd 32 (wrap_u 32 count) 1 ;; Ok (cw_put w (enc_rel {| cr_va := n; cr_sym := 0; cr_typ := 0 |})) else Ok w.
(** 301-308 [write_relocation] *)
Definition cw_write_relocation (w : cw) (r : crel) : cw := cw_put w (enc_rel r).
(** 313-318 [reserve_symbol_index] *)
Definition cw_reserve_symbol_index (w : cw) : out (Z * cw) :=
  if negb (cw_symoff w =? 0) then Panic else n <- padd 32 (cw_nsym w) 1 ;; Ok (cw_nsym w, cw_set_nsym w n).
(** 321-324 [reserve_symbol_indices] *)
Definition cw_reserve_symbol_indices (w : cw) (count : Z) : out cw :=
  if negb (cw_symoff w =? 0) then Panic else n <- padd 32 (cw_nsym w) count ;; Ok (cw_set_nsym w n).
(** 327-344 [write_symbol] *)
Definition cw_write_symbol (w : cw) (name : cname) (value secnum typ class naux : Z) : out cw :=
  f <- match name with
       | NShort b => Ok b
       | NLong id => o <- st_get_offset (cw_strtab w) id ;; Ok (zeros 4 ++ write_u Little 4 o)
       end ;;
  Ok (cw_put w (f ++ write_u Little 4 value ++ write_u Little 2 (wrap_u 16 secnum) ++ write_u Little 2 typ ++ [class] ++ [naux])).
(** 351-356 [reserve_aux_file_name] *)
Definition cw_reserve_aux_file_name (w : cw) (name : bytes) : out (Z * cw) :=
  if negb (cw_symoff w =? 0) then Panic else
  let count := (zlen name + 17) / 18 in
  n <- padd 32 (cw_nsym w) (wrap_u 32 count) ;; Ok (wrap_u 8 count, cw_set_nsym w n).
(** 359-365 [write_aux_file_name] *)
Definition cw_write_aux_file_name (w : cw) (name : bytes) (aux_count : Z) : out cw :=
  let aux_len := aux_count * 18 in
  if aux_len <? zlen name then Panic else
  let old := zlen (cw_buf w) in
  n <- padd 64 old aux_len ;; cw_resize (cw_put w name) n.
(** 372-376, 402-406 [reserve_aux_section], [reserve_aux_weak_external] *)
Definition cw_reserve_aux (w : cw) : out (Z * cw) :=
  if negb (cw_symoff w =? 0) then Panic else n <- padd 32 (cw_nsym w) 1 ;; Ok (1, cw_set_nsym w n).
(** 379-395 [write_aux_section] *)
Definition cw_write_aux_section (w : cw) (length nrel nln sum number sel : Z) : cw :=
  cw_put w (write_u Little 4 length ++ write_u Little 2 (if 65535 <? nrel then 65535 else nrel) ++ write_u Little 2 nln ++
    write_u Little 4 sum ++ write_u Little 2 (wrap_u 16 number) ++ [sel] ++ [0] ++ write_u Little 2 (wrap_u 16 (Z.shiftr number 16))).
(** 409-418 [write_aux_weak_external] *)
Definition cw_write_aux_weak (w : cw) (def search : Z) : cw := cw_put w (write_u Little 4 def ++ write_u Little 4 search ++ zeros 10).
(** 428-431 [add_string] *)
Definition cw_add_string (w : cw) (name : bytes) : out (Z * cw) :=
  if negb (cw_stroff w =? 0) then Panic else
  match st_add (cw_strtab w) name with
  | (Ok id, t) => Ok (id, cw_set_strtab w t)
  | (Err, _) => Err
  | (Panic, _) => Panic
  end.
(** 436-444 [add_name] *)
Definition cw_add_name (w : cw) (name : bytes) : out (cname * cw) :=
  if 8 <? zlen name then ' (id, w) <- cw_add_string w name ;; Ok (NLong id, w)
  else Ok (NShort (name ++ zeros (8 - zlen name)), w).
(** 452-462 [reserve_symtab_strtab] *)
Definition cw_reserve_symtab_strtab (w : cw) : out cw :=
  if negb (cw_symoff w =? 0) then Panic else
  ' (o, w) <- cw_reserve w (cw_nsym w * 18) 1 ;;
  let w := cw_set_symoff w o in
  if negb (cw_stroff w =? 0) then Panic else
  match st_write (cw_strtab w) 4 with
  | (Ok len, d, t) =>
    ' (o, w) <- cw_reserve (cw_set_strtab w t) len 1 ;;
    Ok (cw_set_str w len o (cw_strdata w ++ d))
  | (Err, _, _) => Err
  | (Panic, _, _) => Panic
  end.
(** 465-469 [write_strtab] *)
Definition cw_write_strtab (w : cw) : out cw :=
  if negb (cw_stroff w =? zlen (cw_buf w)) then Panic else Ok (cw_put w (write_u Little 4 (cw_strlen w) ++ cw_strdata w)).

(** * src/write/coff/object.rs *)
(** a loop with a state *)
Fixpoint fold_m {X S} (f : X -> S -> out S) (l : list X) (s : S) : out S :=
  match l with [] => Ok s | x :: l => s <- f x s ;; fold_m f l s end.
(** a loop with a state that collects results *)
Fixpoint map_m {X Y S} (f : X -> S -> out (Y * S)) (l : list X) (s : S) : out (list Y * S) :=
  match l with [] => Ok ([], s) | x :: l => ' (y, s) <- f x s ;; ' (ys, s) <- map_m f l s ;; Ok (y :: ys, s) end.

(** 89-126 [coff_section_flags] *)
Definition coff_section_flags (k : skind) : option Z :=
  match k with
  | SKText => Some (Z.lor SCN_CODE (Z.lor SCN_EXECUTE SCN_READ))
  | SKData => Some (Z.lor SCN_INIT (Z.lor SCN_READ SCN_WRITE))
  | SKUninitializedData => Some (Z.lor SCN_UNINIT (Z.lor SCN_READ SCN_WRITE))
  | SKReadOnlyData | SKReadOnlyDataWithRel | SKReadOnlyString => Some (Z.lor SCN_INIT SCN_READ)
  | SKDebug | SKDebugString | SKOther | SKOtherString => Some (Z.lor SCN_INIT (Z.lor SCN_READ SCN_DISCARDABLE))
  | SKLinker => Some (Z.lor SCN_INFO SCN_REMOVE)
  | _ => None
  end.
(** src/write/mod.rs 362-368 [section_flags], as the characteristics, or an error when they are not COFF flags *)
Definition sec_characteristics (s : osec) : out Z :=
  match se_flags s with
  | SFCoff c => Ok c
  | SFNone => of_opt (coff_section_flags (se_kind s))
  | _ => Err
  end.
(** 128-164 [coff_symbol_flags]: type and storage class *)
Definition has_section (y : osym) : bool := match sy_section y with YSec _ => true | _ => false end.
Definition coff_symbol_flags (y : osym) : option (Z * Z) :=
  let typ := match sy_kind y with YText => 32 | _ => 0 end in
  let class :=
    if sy_weak y then Some CLASS_WEAK else
    match sy_kind y with
    | YFile => Some CLASS_FILE
    | YSection => Some (if has_section y then CLASS_STATIC else CLASS_SECTION)
    | YLabel => Some CLASS_LABEL
    | YText | YData | YTls =>
      match sy_section y with
      | YNone => None
      | YUndefined | YCommon => Some CLASS_EXTERNAL
      | YAbsolute | YSec _ =>
        match sy_scope y with
        | ScUnknown => None
        | ScCompilation => Some CLASS_STATIC
        | ScLinkage | ScDynamic => Some CLASS_EXTERNAL
        end
      end
    | YUnknown => match sy_section y with YUndefined => Some CLASS_EXTERNAL | _ => None end
    end in
  option_map (fun c => (typ, c)) class.
(** src/write/mod.rs 494-500 [symbol_flags] *)
Definition sym_flags (y : osym) : out (Z * Z) :=
  match sy_flags y with
  | Some (YFCoff t c) => Ok (t, c)
  | None => of_opt (coff_symbol_flags y)
  | _ => Err
  end.

(** 441-487: COMDAT selection and associated section of each section *)
Definition comdat_sel (kind : Z) : option Z :=
  if kind =? 2 then Some 1 else if kind =? 1 then Some 2 else if kind =? 3 then Some 3 else if kind =? 4 then Some 4
  else if kind =? 5 then Some 6 else if kind =? 6 then Some 7 else None.
Definition sel_set (l : list (Z * Z)) (i : Z) (f : Z * Z -> Z * Z) : out (list (Z * Z)) := x <- unwrap (zget l i) ;; Ok (zset l i (f x)).
Definition comdat_member (o : obj) (leader : Z) (id : Z) (l : list (Z * Z)) : out (list (Z * Z)) :=
  s <- unwrap (zget (o_sections o) id) ;;
  match se_symbol s with
  | None => Err
  | Some _ => if id =? leader then Ok l else sel_set l id (fun _ => (SELECT_ASSOCIATIVE, wrap_u 32 leader + 1))
  end.
Definition comdat_flags (o : obj) (c : ocomdat) (l : list (Z * Z)) : out (list (Z * Z)) :=
  y <- unwrap (zget (o_symbols o) (oc_symbol c)) ;;
  match sy_section y with
  | YSec sec =>
    ' sel <- of_opt (comdat_sel (oc_kind c)) ;;
    l <- sel_set l sec (fun '(_, a) => (sel, a)) ;;
    fold_m (comdat_member o sec) (oc_sections c) l
  | _ => Err
  end.
(** 489-552: names of the weak default symbols *)
Definition defined_external (y : osym) : bool :=
  negb (sy_weak y) && match sy_scope y with ScLinkage | ScDynamic => true | _ => false end &&
  match sy_section y with YSec _ | YAbsolute => true | _ => false end.
Definition in_comdat (o : obj) (id : Z) : bool := existsb (fun c => existsb (fun i => i =? id) (oc_sections c)) (o_comdats o).
Definition weak_unique (o : obj) : bytes :=
  let l := filter defined_external (o_symbols o) in
  let first := match find (fun y => match sy_section y with YSec id => negb (in_comdat o id) | _ => true end) l with
               | Some y => sy_name y | None => [] end in
  match first with
  | [] => match find has_section l with Some y => sy_name y | None => [] end
  | _ => first
  end.
Definition weak_name (o : obj) (y : osym) : bytes :=
  let u := weak_unique o in
  str ".weak." ++ sy_name y ++ match u with [] => [] | _ => 46 :: u end.

(** 18-23 [SymbolOffsets] *)
Record soff := { so_name : cname; so_index : Z; so_aux : Z }.
(** 554-596: reserve one symbol; the result is the weak default symbol, if any, and the symbol *)
Definition reserve_symbol (o : obj) (y : osym) (w : cw) : out (option soff * soff * cw) :=
  ' (weak, w) <- (if sy_weak y then
      ' (n, w) <- cw_add_name w (weak_name o y) ;;
      ' (i, w) <- cw_reserve_symbol_index w ;; Ok (Some {| so_name := n; so_index := i; so_aux := 0 |}, w)
    else Ok (None, w)) ;;
  ' (i, w) <- cw_reserve_symbol_index w ;;
  ' (aux, name, w) <- (
    if sy_weak y then ' (a, w) <- cw_reserve_aux w ;; Ok (a, sy_name y, w)
    else match sy_kind y with
         | YFile => ' (a, w) <- cw_reserve_aux_file_name w (sy_name y) ;; Ok (a, str ".file", w)
         | YSection => if has_section y then ' (a, w) <- cw_reserve_aux w ;; Ok (a, sy_name y, w) else Ok (0, sy_name y, w)
         | _ => Ok (0, sy_name y, w)
         end) ;;
  ' (n, w) <- cw_add_name w name ;;
  Ok (weak, {| so_name := n; so_index := i; so_aux := aux |}, w).
(** 601-605: reserve the data and relocations of one section *)
Definition reserve_section (s : osec) (w : cw) : out (Z * Z * cw) :=
  ' (a, w) <- cw_reserve_section w (zlen (se_data s)) ;;
  ' (b, w) <- cw_reserve_relocations w (zlen (se_relocs s)) ;; Ok (a, b, w).
(** src/common.rs 55-58 [SubArchitecture] *)
Inductive subarch := SubArm64E | SubArm64EC.
(** 610-633: the machine *)
Definition coff_machine (a : arch) (sub : option subarch) (e : endian) : option Z :=
  match sub with
  | None =>
    match a with
    | AArm => Some 452 | AAarch64 => Some 43620 | AI386 => Some 332 | AX86_64 => Some 34404
    | APowerPc | APowerPc64 => Some (match e with Little => 496 | Big => 498 end)
    | _ => None
    end
  | Some SubArm64EC => match a with AAarch64 => Some 42561 | _ => None end
  | Some SubArm64E => None
  end.
(** 662-685: the alignment flag; 1 to 8192 *)
Definition align_flag (align : Z) : option Z :=
  match align with
  | 1 => Some 1 | 2 => Some 2 | 4 => Some 3 | 8 => Some 4 | 16 => Some 5 | 32 => Some 6 | 64 => Some 7 | 128 => Some 8 | 256 => Some 9
  | 512 => Some 10 | 1024 => Some 11 | 2048 => Some 12 | 4096 => Some 13 | 8192 => Some 14 | _ => None
  end.
(** src/pe.rs 829-831 [with_align] *)
Definition with_align (c a : Z) : Z := Z.lor (Z.ldiff c SCN_ALIGN_MASK) (Z.land a SCN_ALIGN_MASK).
(** 643-697: write one section header: the section, its name, offsets and COMDAT selection *)
Definition write_sec_header (x : osec * cname * (Z * Z) * (Z * Z)) (w : cw) : out cw :=
  let '(s, name, (offset, reloc_offset), (sel, _)) := x in
  c <- sec_characteristics s ;;
  let c := if negb (sel =? 0) then Z.lor c SCN_COMDAT else c in
  let c := if 65535 <? zlen (se_relocs s) then Z.lor c SCN_OVFL else c in
  a <- of_opt (align_flag (se_align s)) ;;
  let c := with_align c (Z.shiftl a 20) in
  cw_write_section_header w name (wrap_u 32 (se_size s)) offset reloc_offset 0 (wrap_u 32 (zlen (se_relocs s))) c.
(** 704-716: write one relocation *)
Definition write_reloc (ys : list soff) (r : orel) (w : cw) : out cw :=
  match ol_flags r with
  | RFcoff typ => y <- unwrap (zget ys (ol_symbol r)) ;;
      Ok (cw_write_relocation w {| cr_va := wrap_u 32 (ol_offset r); cr_sym := so_index y; cr_typ := typ |})
  | _ => Err
  end.
(** 700-718: write one section *)
Definition write_sec (ys : list soff) (s : osec) (w : cw) : out cw :=
  w <- cw_write_section w (se_data s) ;;
  match se_relocs s with
  | [] => Ok w
  | l => w <- cw_write_relocations_count w (zlen l) ;; fold_m (write_reloc ys) l w
  end.
(** 731-739, 761-763: section numbers; [id.0 as i32 + 1] *)
Definition sec_number (id : Z) : out Z := let n := wrap_s 32 id + 1 in if n <? 2 ^ 31 then Ok n else Panic.
(** 721-800: write one symbol *)
Definition write_sym (crc : bytes -> Z) (o : obj) (sels : list (Z * Z)) (x : osym * (option soff * soff)) (w : cw) : out cw :=
  let '(y, (weak, off)) := x in
  ' (typ, class) <- sym_flags y ;;
  secnum <- (if sy_weak y then Ok IMAGE_SYM_UNDEFINED else
    match sy_section y with
    | YNone => match sy_kind y with YFile => Ok IMAGE_SYM_DEBUG | _ => Panic end
    | YUndefined | YCommon => Ok IMAGE_SYM_UNDEFINED
    | YAbsolute => Ok IMAGE_SYM_ABSOLUTE
    | YSec id => sec_number id
    end) ;;
  let value := if sy_weak y then 0 else match sy_section y with YCommon => wrap_u 32 (sy_size y) | _ => wrap_u 32 (sy_value y) end in
  w <- (if sy_weak y then
      match weak with
      | None => Panic
      | Some d =>
        n <- match sy_section y with
             | YSec id => sec_number id
             | YUndefined => Ok IMAGE_SYM_ABSOLUTE
             | _ => Err
             end ;;
        cw_write_symbol w (so_name d) (wrap_u 32 (sy_value y)) n 0 CLASS_EXTERNAL 0
      end
    else Ok w) ;;
  w <- cw_write_symbol w (so_name off) value secnum typ class (so_aux off) ;;
  if sy_weak y then
    match weak with None => Panic | Some d => Ok (cw_write_aux_weak w (so_index d) 3) end
  else
    match sy_kind y, sy_section y with
    | YFile, _ => cw_write_aux_file_name w (sy_name y) (so_aux off)
    | YSection, YSec id =>
      if negb (so_aux off =? 1) then Panic else
      s <- unwrap (zget (o_sections o) id) ;;
      ' (sel, assoc) <- unwrap (zget sels id) ;;
      Ok (cw_write_aux_section w (wrap_u 32 (se_size s)) (wrap_u 32 (zlen (se_relocs s))) 0
            (if is_bss (se_kind s) then 0 else crc (se_data s)) assoc sel)
    | _, _ => if negb (so_aux off =? 0) then Panic else Ok w
    end.

(** 430-806 [coff_write].  [crc] is the JamCRC checksum (an external crate); [sub] and [fflags] are [sub_architecture] and the
    characteristics of [FileFlags::Coff] (0 for other flags), which [obj] leaves out. *)
Definition coff_write (crc : bytes -> Z) (o : obj) (sub : option subarch) (fflags : Z) : out bytes :=
  ' (names, w) <- map_m (fun s w => cw_add_name w (se_name s)) (o_sections o) cw_new ;;
  sels <- fold_m (comdat_flags o) (o_comdats o) (map (fun _ => (0, 0)) (o_sections o)) ;;
  ' (ys, w) <- map_m (fun y w => ' (weak, s, w) <- reserve_symbol o y w ;; Ok ((weak, s), w)) (o_symbols o) w ;;
  w <- cw_reserve_file_header w ;;
  w <- cw_reserve_section_headers w (wrap_u 16 (zlen (o_sections o))) ;;
  ' (offs, w) <- map_m (fun s w => ' (a, b, w) <- reserve_section s w ;; Ok ((a, b), w)) (o_sections o) w ;;
  w <- cw_reserve_symtab_strtab w ;;
  machine <- of_opt (coff_machine (o_arch o) sub (o_endian o)) ;;
  w <- cw_write_file_header w machine 0 fflags ;;
  w <- fold_m write_sec_header (combine (combine (combine (o_sections o) names) offs) sels) w ;;
  w <- fold_m (write_sec (map snd ys)) (o_sections o) w ;;
  w <- fold_m (write_sym crc o sels) (combine (o_symbols o) ys) w ;;
  w <- cw_write_strtab w ;;
  if negb (cw_len w =? zlen (cw_buf w)) then Panic else Ok (cw_buf w).
