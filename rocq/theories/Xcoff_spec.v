(** Specification of XCOFF files (C74, C75, C76, C77). *)
From Verif Require Export File_spec Iter_spec Str_spec Xcoff_model.

(** * Encodings.  A word has 4 bytes, or 8 in a 64-bit file. *)
Definition xword (is64 : bool) (v : Z) : Prop := if is64 then u64_ok v else u32_ok v.
Definition xw (is64 : bool) (v : Z) : bytes := write_u Big (if is64 then 8 else 4) v.
Definition xhdr_ok (is64 : bool) (h : xhdr) : Prop :=
  u16_ok (xh_nscns h) /\ u32_ok (xh_timdat h) /\ xword is64 (xh_symptr h) /\ u32_ok (xh_nsyms h) /\ u16_ok (xh_opthdr h) /\ u16_ok (xh_flags h).
Definition xhdr_enc (is64 : bool) (h : xhdr) : bytes :=
  write_u Big 2 (if is64 then 0x1f7 else 0x1df) ++ write_u Big 2 (xh_nscns h) ++ write_u Big 4 (xh_timdat h) ++ xw is64 (xh_symptr h) ++
  (if is64 then write_u Big 2 (xh_opthdr h) ++ write_u Big 2 (xh_flags h) ++ write_u Big 4 (xh_nsyms h)
   else write_u Big 4 (xh_nsyms h) ++ write_u Big 2 (xh_opthdr h) ++ write_u Big 2 (xh_flags h)).
Definition xsec_ok (is64 : bool) (s : xsec) : Prop :=
  zlen (xs_name s) = 8 /\ bytes_ok (xs_name s) /\ xword is64 (xs_paddr s) /\ xword is64 (xs_vaddr s) /\ xword is64 (xs_size s) /\ xword is64 (xs_scnptr s) /\
  xword is64 (xs_relptr s) /\ xword is64 (xs_lnnoptr s) /\ u32_ok (xs_flags s) /\
  if is64 then u32_ok (xs_nreloc s) /\ u32_ok (xs_nlnno s) /\ u32_ok (xs_reserve s) else u16_ok (xs_nreloc s) /\ u16_ok (xs_nlnno s) /\ xs_reserve s = 0.
Definition xsec_enc (is64 : bool) (s : xsec) : bytes :=
  xs_name s ++ xw is64 (xs_paddr s) ++ xw is64 (xs_vaddr s) ++ xw is64 (xs_size s) ++ xw is64 (xs_scnptr s) ++ xw is64 (xs_relptr s) ++ xw is64 (xs_lnnoptr s) ++
  (if is64 then write_u Big 4 (xs_nreloc s) ++ write_u Big 4 (xs_nlnno s) ++ write_u Big 4 (xs_flags s) ++ write_u Big 4 (xs_reserve s)
   else write_u Big 2 (xs_nreloc s) ++ write_u Big 2 (xs_nlnno s) ++ write_u Big 4 (xs_flags s)).
Definition xsym_ok (is64 : bool) (y : xsym) : Prop :=
  zlen (xy_field y) = (if is64 then 4 else 8) /\ bytes_ok (xy_field y) /\ xword is64 (xy_value y) /\ - 2 ^ 15 <= xy_scnum y < 2 ^ 15 /\ u16_ok (xy_type y) /\
  byte_ok (xy_class y) /\ byte_ok (xy_naux y).
Definition xsym_enc (is64 : bool) (y : xsym) : bytes :=
  (if is64 then xw is64 (xy_value y) ++ xy_field y else xy_field y ++ xw is64 (xy_value y)) ++
  write_i Big 2 (xy_scnum y) ++ write_u Big 2 (xy_type y) ++ write_u Big 1 (xy_class y) ++ write_u Big 1 (xy_naux y).
Definition xrel_ok (is64 : bool) (r : xrel) : Prop := xword is64 (xr_vaddr r) /\ u32_ok (xr_symndx r) /\ byte_ok (xr_rsize r) /\ byte_ok (xr_rtype r).
Definition xrel_enc (is64 : bool) (r : xrel) : bytes :=
  xw is64 (xr_vaddr r) ++ write_u Big 4 (xr_symndx r) ++ write_u Big 1 (xr_rsize r) ++ write_u Big 1 (xr_rtype r).
(** sizes of the structures *)
Definition hdr_bytes (is64 : bool) : Z := if is64 then 24 else 20.
Definition auxhdr_bytes (is64 : bool) : Z := if is64 then 120 else 72.

(** * Files *)
(** The optional header is read if the file is executable (flag 2) and the optional header has its full size. *)
Definition wants_aux (is64 : bool) (h : xhdr) : Prop := Z.testbit (xh_flags h) 1 = true /\ xh_opthdr h = auxhdr_bytes is64.
Definition aux_of (is64 : bool) (F : bytes) (h : xhdr) (a : option bytes) : Prop :=
  match a with
  | Some b => wants_aux is64 h /\ zlen b = auxhdr_bytes is64 /\ holds F (hdr_bytes is64) b
  | None => ~ wants_aux is64 h
  end.
(** The symbol table: entries of 18 bytes, followed by the string table, which starts with its size. *)
Definition symtab_of (is64 : bool) (F : bytes) (h : xhdr) (t : xsymtab) : Prop :=
  xt_64 t = is64 /\
  if xh_symptr h =? 0 then xt_entries t = [] /\ xt_strings t = (None, 0, 0)
  else zlen (xt_entries t) = xh_nsyms h /\ Forall (fun b => zlen b = 18) (xt_entries t) /\ (xt_entries t <> [] -> holds F (xh_symptr h) (concat (xt_entries t))) /\
    exists len, u32_ok len /\ let o := xh_symptr h + 18 * xh_nsyms h in holds F o (write_u Big 4 len) /\ xt_strings t = (Some F, o, o + len).
Definition xfile_of (is64 : bool) (F : bytes) (f : xfile) : Prop :=
  let h := xf_header f in
  xf_64 f = is64 /\ xf_data f = F /\ xhdr_ok is64 h /\ holds F 0 (xhdr_enc is64 h) /\ aux_of is64 F h (xf_aux f) /\
  zlen (xf_sections f) = xh_nscns h /\ Forall (xsec_ok is64) (xf_sections f) /\
  (xf_sections f <> [] -> holds F (hdr_bytes is64 + xh_opthdr h) (concat (map (xsec_enc is64) (xf_sections f)))) /\
  symtab_of is64 F h (xf_symbols f).

(** * Names *)
(** a name padded with null bytes to the size of its field *)
Definition padded (field name : bytes) : Prop := ~ In 0 name /\ (field = name \/ exists r, field = name ++ 0 :: r).
(** a string of the string table: it ends before the end of the table, and the table before the end of the file *)
Definition xstring (t : strings) (off : Z) (name : bytes) : Prop :=
  match t with (Some F, a, b) => string_at F (a + off) name /\ a + off + zlen name < b <= zlen F | _ => False end.
(** a field of 8 bytes: an offset in the last four if the first byte is null, or the name *)
Definition xfield (t : strings) (field name : bytes) : Prop :=
  if match zget field 0 with Some b => b =? 0 | None => true end
  then exists off, u32_ok off /\ zdrop 4 field = write_u Big 4 off /\ xstring t off name
  else padded field name.
(** the name in a symbol *)
Definition own_name (t : xsymtab) (y : xsym) (name : bytes) : Prop :=
  if xt_64 t then exists off, u32_ok off /\ xy_field y = write_u Big 4 off /\ xstring (xt_strings t) off name else xfield (xt_strings t) (xy_field y) name.

(** * Sections *)
(** the kind: that of the first of these bits that is set in the flags *)
Definition kind_bits : list (Z * skind) :=
  [(5, SKText); (6, SKData); (10, SKTls); (7, SKUninitializedData); (11, SKUninitializedTls); (13, SKDebug); (4, SKDebug); (12, SKMetadata); (15, SKMetadata);
   (9, SKOther); (8, SKOther); (3, SKOther); (14, SKOther)].
Inductive flag_kind (flags : Z) : list (Z * skind) -> skind -> Prop :=
| fk_here n k l : Z.testbit flags n = true -> flag_kind flags ((n, k) :: l) k
| fk_skip n k l k' : Z.testbit flags n = false -> flag_kind flags l k' -> flag_kind flags ((n, k) :: l) k'
| fk_none : flag_kind flags [] SKUnknown.

(** * Symbols *)
(** the entry with the given index *)
Definition entry (t : xsymtab) (i : Z) (y : xsym) : Prop := xsym_ok (xt_64 t) y /\ zget (xt_entries t) i = Some (xsym_enc (xt_64 t) y).
(** Iteration: each symbol is followed by the number of auxiliary entries that it gives; null symbols are left out; the end is the first index outside of the table. *)
Inductive xwalk (t : xsymtab) : Z -> list (Z * xsym) -> Z -> Prop :=
| xw_end k : zlen (xt_entries t) <= k -> xwalk t k [] k
| xw_null k y l k' : entry t k y -> xy_class y = 0 -> xwalk t (k + 1 + xy_naux y) l k' -> xwalk t k l k'
| xw_some k y l k' : entry t k y -> xy_class y <> 0 -> xwalk t (k + 1 + xy_naux y) l k' -> xwalk t k ((k, y) :: l) k'.
(** Auxiliary entries: a file name; a csect.  In a 64-bit file their last byte gives the type. *)
Definition file_entry (is64 : bool) (b : bytes) (a : xfaux) : Prop :=
  exists pad rest, b = xa_fname a ++ pad ++ write_u Big 1 (xa_ftype a) ++ rest /\ zlen (xa_fname a) = 8 /\ zlen pad = 6 /\ byte_ok (xa_ftype a) /\ zlen rest = 3 /\
    (is64 = true -> zget rest 2 = Some 252).
Definition csect_entry (is64 : bool) (b : bytes) (a : xcaux) : Prop :=
  u32_ok (xc_parmhash a) /\ u16_ok (xc_snhash a) /\ byte_ok (xc_smtyp a) /\ byte_ok (xc_smclas a) /\ xword is64 (xc_scnlen a) /\
  exists rest, b = write_u Big 4 (xc_scnlen a mod 2 ^ 32) ++ write_u Big 4 (xc_parmhash a) ++ write_u Big 2 (xc_snhash a) ++ write_u Big 1 (xc_smtyp a) ++ write_u Big 1 (xc_smclas a) ++ rest /\
    zlen rest = 6 /\ bytes_ok rest /\ (is64 = true -> exists pad, rest = write_u Big 4 (xc_scnlen a / 2 ^ 32) ++ [pad] ++ [251]).
(** the csect of a symbol: external, weak and hidden symbols with auxiliary entries have one, in the last of them *)
Definition csect_class (c : Z) : Prop := c = 2 \/ c = 111 \/ c = 107.
Definition csect_of (t : xsymtab) (i : Z) (y : xsym) (a : xcaux) : Prop :=
  csect_class (xy_class y) /\ 0 < xy_naux y /\ exists b, zget (xt_entries t) (i + xy_naux y) = Some b /\ csect_entry (xt_64 t) b a.
(** the type (3 bits) of a csect: 0 external reference, 1 definition, 2 label, 3 common *)
Definition csect_type (a : xcaux) : Z := xc_smtyp a mod 8.
Definition csect_kind (a : xcaux) : symkind :=
  let c := xc_smclas a in
  if (csect_type a =? 1) || (csect_type a =? 3) then
    if existsb (Z.eqb c) [0; 6] then YText else if existsb (Z.eqb c) [1; 3; 5; 9; 10; 15; 16] then YData else if existsb (Z.eqb c) [20; 21] then YTls else YUnknown
  else if csect_type a =? 2 then YText else YUnknown.

(** * The parts of a parsed file *)
Definition sec_data (f : xfile) (s : xsec) (d : bytes) : Prop := zlen d = xs_size s /\ (d <> [] -> holds (xf_data f) (xs_scnptr s) d).
Definition sec_relocs (f : xfile) (s : xsec) (rs : list xrel) : Prop :=
  zlen rs = xs_nreloc s /\ Forall (xrel_ok (xf_64 f)) rs /\ (rs <> [] -> holds (xf_data f) (xs_relptr s) (concat (map (xrel_enc (xf_64 f)) rs))) /\
  (xf_64 f = false -> xs_nreloc s <> 65535).
(** the name of a symbol: that of its first auxiliary entry if it is a file symbol with auxiliary entries *)
Definition sym_name (t : xsymtab) (i : Z) (y : xsym) (name : bytes) : Prop :=
  if (xy_class y =? 103) && (0 <? xy_naux y) then exists b a, zget (xt_entries t) (i + 1) = Some b /\ file_entry (xt_64 t) b a /\ xfield (xt_strings t) (xa_fname a) name
  else own_name t y name.
(** what the API reports about a symbol, given its csect *)
Definition sym_size (a : option xcaux) : Z := match a with Some a => if (csect_type a =? 1) || (csect_type a =? 3) then xc_scnlen a else 0 | None => 0 end.
Definition sym_kind (y : xsym) (a : option xcaux) : symkind :=
  match a with Some a => if csect_type a <=? 3 then csect_kind a else YUnknown | None => if xy_class y =? 103 then YFile else YUnknown end.
Definition sym_defined (y : xsym) (a : option xcaux) : bool := (0 <? xy_scnum y) && match a with Some a => (1 <=? csect_type a) && (csect_type a <=? 3) | None => false end.

(** * Written files (C77) *)
(** Default flags of a symbol: storage class 103 for files, 3 for local text, data and TLS symbols, 111 for weak ones and 2 for the others; visibility hidden (8192) for
    those with linkage scope; and csect type and storage mapping class. *)
Definition default_flags (o : obj) (y : osym) (fl : xyflags) : Prop :=
  yx_class fl = match sy_kind y with YFile => 103 | _ => match sy_scope y with ScCompilation => 3 | _ => if sy_weak y then 111 else 2 end end /\
  yx_type fl = (if (match sy_kind y with YFile => false | _ => true end) && (match sy_scope y with ScLinkage => true | _ => false end) then 8192 else 0) /\ yx_csect fl = None /\
  let sk := match sy_section y with YSec id => match zget (o_sections o) id with Some s => se_kind s | None => SKUnknown end | _ => SKUnknown end in
  (csect_class (yx_class fl) -> (yx_smtyp fl, yx_smclas fl) =
     match sy_kind y with
     | YText => (1, 0)
     | YData => match sk with SKUninitializedData => (3, 9) | SKReadOnlyData => (1, 1) | _ => (1, 5) end
     | _ => match sk with SKUninitializedTls => (3, 21) | _ => (1, 20) end
     end).
Definition written_flags (xy : Z -> option xyflags) (o : obj) (y : osym) (fl : xyflags) : Prop :=
  match sy_flags y with Some (YFOther v) => xy v = Some fl | None => default_flags o y fl | _ => False end.
(** What the caller must respect.  Symbol names are not empty; explicit flags of symbols fit their fields and do not have the null storage class. *)
Definition xflags_ok (o : obj) (fl : xyflags) : Prop :=
  u16_ok (yx_type fl) /\ byte_ok (yx_class fl) /\ yx_class fl <> 0 /\ byte_ok (yx_smtyp fl) /\ byte_ok (yx_smclas fl).
Definition xo_section_ok (is64 : bool) (o : obj) (s : osec) : Prop :=
  str_ok (se_name s) /\ bytes_ok (se_data s) /\ (forall v, se_flags s = SFOther v -> u32_ok v) /\ (is64 = false -> zlen (se_relocs s) < 65535) /\
  Forall (fun r => 0 <= ol_symbol r < zlen (o_symbols o) /\ u64_ok (ol_offset r) /\ forall t z, ol_flags r = RFxcoff t z -> byte_ok t /\ byte_ok z) (se_relocs s).
Definition xo_symbol_ok (xy : Z -> option xyflags) (o : obj) (y : osym) : Prop :=
  str_ok (sy_name y) /\ sy_name y <> [] /\ u64_ok (sy_value y) /\ u64_ok (sy_size y) /\ (forall id, sy_section y = YSec id -> 0 <= id < zlen (o_sections o)) /\
  (forall v fl, sy_flags y = Some (YFOther v) -> xy v = Some fl -> xflags_ok o fl).
Definition xo_ok (is64 : bool) (xy : Z -> option xyflags) (o : obj) (fflags : Z) : Prop :=
  zlen (o_sections o) < 2 ^ 15 /\ u16_ok fflags /\ Forall (xo_section_ok is64 o) (o_sections o) /\ Forall (xo_symbol_ok xy o) (o_symbols o).
(** Addresses: text, data and uninitialised data follow each other, aligned to 4; the other sections have address 0. *)
Inductive addresses : Z -> list osec -> list Z -> Prop :=
| ad_nil a : addresses a [] []
| ad_some a s l r n : se_kind s = SKText \/ se_kind s = SKData \/ se_kind s = SKUninitializedData ->
    n mod 4 = 0 -> a + zlen (se_data s) <= n < a + zlen (se_data s) + 4 -> addresses n l r -> addresses a (s :: l) (a :: r)
| ad_none a s l r : ~ (se_kind s = SKText \/ se_kind s = SKData \/ se_kind s = SKUninitializedData) -> addresses a l r -> addresses a (s :: l) (0 :: r).
Definition xmod (is64 : bool) : Z := if is64 then 2 ^ 64 else 2 ^ 32.
(** a section that was written; [syms] are the symbols of the file with their indices *)
Definition reloc_back (is64 : bool) (syms : list (Z * xsym)) (r : orel) (x : xrel) : Prop :=
  xr_vaddr x = ol_offset r mod xmod is64 /\ (exists y, zget syms (ol_symbol r) = Some (xr_symndx x, y)) /\ ol_flags r = RFxcoff (xr_rtype x) (xr_rsize x).
Definition section_back (is64 : bool) (f : xfile) (syms : list (Z * xsym)) (s : osec * Z) (x : xsec) : Prop :=
  padded (xs_name x) (se_name (fst s)) /\ xs_paddr x = snd s mod xmod is64 /\ xs_vaddr x = snd s mod xmod is64 /\ sec_data f x (se_data (fst s)) /\
  match se_flags (fst s) with
  | SFOther v => xs_flags x = v
  | SFNone => match se_kind (fst s) with
              | SKText | SKReadOnlyData | SKReadOnlyString | SKReadOnlyDataWithRel => xs_flags x = 32
              | SKData => xs_flags x = 64 | SKUninitializedData => xs_flags x = 128 | SKTls => xs_flags x = 1024 | SKUninitializedTls => xs_flags x = 2048
              | SKOtherString => xs_flags x = 512 | SKDebug | SKDebugString => xs_flags x = 8192 | SKOther | SKMetadata => xs_flags x = 0
              | _ => False
              end
  | _ => False
  end /\
  exists rs, sec_relocs f x rs /\ Forall2 (reloc_back is64 syms) (se_relocs (fst s)) rs.
(** a symbol that was written *)
Definition symbol_back (is64 : bool) (xy : Z -> option xyflags) (o : obj) (t : xsymtab) (addrs : list Z) (syms : list (Z * xsym)) (y : osym) (p : Z * xsym) : Prop :=
  let '(i, x) := p in
  sym_name t i x (sy_name y) /\
  match sy_section y with
  | YNone => xy_scnum x = -2 /\ xy_value x = sy_value y mod xmod is64
  | YUndefined | YCommon => xy_scnum x = 0 /\ xy_value x = sy_value y mod xmod is64
  | YAbsolute => xy_scnum x = -1 /\ xy_value x = sy_value y mod xmod is64
  | YSec id => xy_scnum x = id + 1 /\ exists a, zget addrs id = Some a /\ xy_value x = (a + sy_value y) mod xmod is64
  end /\
  exists fl, written_flags xy o y fl /\ xy_type x = yx_type fl /\ xy_class x = yx_class fl /\
    (csect_class (yx_class fl) -> exists a, csect_of t i x a /\ xc_smtyp a = yx_smtyp fl /\ xc_smclas a = yx_smclas fl /\ xc_parmhash a = 0 /\ xc_snhash a = 0 /\
       match yx_csect fl with
       | None => xc_scnlen a = sy_size y mod xmod is64
       | Some c => exists k z, zget syms c = Some (k, z) /\ xc_scnlen a = k
       end).
(** a written file *)
Definition file_back (is64 : bool) (xy : Z -> option xyflags) (o : obj) (fflags : Z) (F : bytes) (f : xfile) : Prop :=
  xfile_of is64 F f /\ xh_flags (xf_header f) = fflags /\ xh_timdat (xf_header f) = 0 /\ xh_opthdr (xf_header f) = 0 /\
  exists addrs syms, addresses 0 (o_sections o) addrs /\ xwalk (xf_symbols f) 0 syms (xh_nsyms (xf_header f)) /\
    Forall2 (section_back is64 f syms) (combine (o_sections o) addrs) (xf_sections f) /\
    Forall2 (symbol_back is64 xy o (xf_symbols f) addrs syms) (o_symbols o) syms.
