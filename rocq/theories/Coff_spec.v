(** Specification vocabulary for COFF object files. *)
From Verif Require Export CoffW_model File_spec Iter_spec Str_spec.

(** Entries of the symbol table that a symbol takes: a weak symbol comes after a symbol for its default definition and before an auxiliary
    record; a file name takes as many auxiliary records of 18 bytes as it needs; a section symbol has one auxiliary record. *)
Definition entries (y : osym) : Z :=
  if sy_weak y then 3 else
  match sy_kind y with
  | YFile => 1 + (zlen (sy_name y) + 17) / 18
  | YSection => match sy_section y with YSec _ => 2 | _ => 1 end
  | _ => 1
  end.
Definition total (l : list osym) : Z := fold_right (fun y n => entries y + n) 0 l.
(** the index of the entry of the i-th symbol *)
Definition sym_index (o : obj) (i : Z) : Z :=
  total (ztake i (o_symbols o)) + match zget (o_symbols o) i with Some y => if sy_weak y then 1 else 0 | None => 0 end.

(** What the caller must respect: names are bytes without null; section names do not start with a slash; symbol names are not empty;
    there are at most 65279 sections; ids are valid; given flags fit their fields and do not
    have the relocation overflow flag (which the writer computes), and the storage class 103 (file) is used exactly for
    file symbols. *)
Definition sec_ok (o : obj) (s : osec) : Prop :=
  str_ok (se_name s) /\ (forall t, se_name s <> 47 :: t) /\ bytes_ok (se_data s) /\
  (forall c, se_flags s = SFCoff c -> 0 <= c < 2 ^ 32 /\ Z.testbit c 24 = false) /\
  Forall (fun r => 0 <= ol_symbol r < zlen (o_symbols o) /\ forall t, ol_flags r = RFcoff t -> 0 <= t < 2 ^ 16) (se_relocs s).
Definition sym_ok (o : obj) (y : osym) : Prop :=
  str_ok (sy_name y) /\ sy_name y <> [] /\ (sy_kind y = YFile -> zlen (sy_name y) <= 255 * 18) /\
  (forall id, sy_section y = YSec id -> 0 <= id < zlen (o_sections o)) /\
  (forall t c, sy_flags y = Some (YFCoff t c) -> 0 <= t < 2 ^ 16 /\ 0 <= c < 256 /\ (c = 103 <-> sy_kind y = YFile /\ sy_weak y = false)).
Definition coff_ok (o : obj) (fflags : Z) : Prop :=
  zlen (o_sections o) <= 65279 /\ 0 <= fflags < 2 ^ 16 /\ Forall (sec_ok o) (o_sections o) /\ Forall (sym_ok o) (o_symbols o).

(** The relocations of a section as they should be read: offset, index of the symbol, type. *)
Definition rel_type (r : orel) : Z := match ol_flags r with RFcoff t => t | _ => 0 end.
Definition expected_rel (o : obj) (r : orel) : crel :=
  {| cr_va := ol_offset r mod 2 ^ 32; cr_sym := sym_index o (ol_symbol r); cr_typ := rel_type r |}.

(** The section that is read at position [i] (0-based) of the section table, for the section [s] that was written: same name, address 0,
    the size truncated to 32 bits, the same alignment, the given flags except those that the writer computes (20-23 alignment, 12 COMDAT, 24
    relocation overflow), the same relocations, and the same data unless it is uninitialised data. *)
Definition no_data (s : osec) : bool := match se_flags s with SFCoff c => Z.testbit c 7 | _ => match se_kind s with SKUninitializedData => true | _ => false end end.
Definition computed_flag (n : Z) : bool := (n =? 12) || ((20 <=? n) && (n <=? 24)).
Definition reads_section (o : obj) (f : cfile) (i : Z) (s : osec) : Prop :=
  exists x, zget (cf_sections f) i = Some x /\ cs_name f x = Ok (se_name s) /\ c_vaddr x = 0 /\ c_rawsize x = se_size s mod 2 ^ 32 /\
    coff_alignment x = se_align s /\
    (forall c n, se_flags s = SFCoff c -> 0 <= n -> computed_flag n = false -> Z.testbit (c_flags x) n = Z.testbit c n) /\
    coff_relocations (cf_data f) x = Ok (map (expected_rel o) (se_relocs s)) /\
    (no_data s = true -> coff_data (cf_data f) x = Ok []) /\
    (no_data s = false -> se_size s = zlen (se_data s) -> coff_data (cf_data f) x = Ok (se_data s)).

(** The symbol that is read at the index of the symbol [y]: same name, value, section number (undefined and 0 for a weak symbol, whose
    definition is the symbol before it), and the given type and storage class. *)
Definition sym_number (y : osym) : Z :=
  if sy_weak y then 0 else match sy_section y with YNone => -2 | YUndefined | YCommon => 0 | YAbsolute => -1 | YSec id => id + 1 end.
Definition sym_value (y : osym) : Z :=
  if sy_weak y then 0 else match sy_section y with YCommon => sy_size y mod 2 ^ 32 | _ => sy_value y mod 2 ^ 32 end.
Definition reads_symbol (o : obj) (f : cfile) (i : Z) (y : osym) : Prop :=
  exists x, coff_symbol (cf_symbols f) (sym_index o i) = Ok x /\ cy_name f (sym_index o i) x = Ok (sy_name y) /\ y_value x = sym_value y /\
    y_secnum x = sym_number y /\ y_naux x = entries y - 1 - (if sy_weak y then 1 else 0) /\
    (forall t c, sy_flags y = Some (YFCoff t c) -> y_typ x = t /\ y_class x = c).
(** The definition of a weak symbol: an external symbol just before it, named after it, that the auxiliary record of the weak symbol
    designates as its default (with search type 3, alias). *)
Definition reads_weak (o : obj) (f : cfile) (i : Z) (y : osym) : Prop :=
  exists d name, coff_symbol (cf_symbols f) (sym_index o i - 1) = Ok d /\ cy_name f (sym_index o i - 1) d = Ok name /\
    (exists tail, name = str ".weak." ++ sy_name y ++ tail) /\ y_class d = 2 /\ y_typ d = 0 /\ y_naux d = 0 /\
    y_value d = sy_value y mod 2 ^ 32 /\ y_secnum d = (match sy_section y with YSec id => id + 1 | _ => -1 end) /\
    coff_aux_weak (cf_symbols f) (sym_index o i) = Ok (sym_index o i - 1, 3).
(** The auxiliary record of a section symbol: size, number of relocations (at most 65535), checksum. *)
Definition reads_aux (crc : bytes -> Z) (o : obj) (f : cfile) (i : Z) (id : Z) : Prop :=
  exists a s, coff_aux_section (cf_symbols f) (sym_index o i) = Ok a /\ zget (o_sections o) id = Some s /\
    x_length a = se_size s mod 2 ^ 32 /\ x_nrel a = Z.min 65535 (zlen (se_relocs s)) /\
    x_sum a = if is_bss (se_kind s) then 0 else crc (se_data s).
(** The indices that iteration over the symbols of the file should give. *)
Fixpoint indices (k : Z) (l : list osym) : list Z :=
  match l with
  | [] => []
  | y :: l => (if sy_weak y then [k; k + 1] else [k]) ++ indices (k + entries y) l
  end.

(** * What the read API should report for a symbol [y] written with default flags (undefined symbols with value 0 and common symbols with a
    non-zero size are the sensible cases; the others are listed as they are) *)
Definition plain_kind (k : symkind) : bool := match k with YText | YData | YTls | YUnknown => true | _ => false end.
Definition expected_kind (y : osym) : symkind :=
  if sy_weak y then match sy_kind y with YText => YText | _ => YData end else
  match sy_kind y with YData | YTls | YUnknown => YData | k => k end.
Definition expected_section (y : osym) : rsec :=
  if sy_weak y then RUnknown else
  match sy_section y with
  | YNone => RNone
  | YAbsolute => RAbsolute
  | YSec id => RSection (id + 1)
  | YUndefined | YCommon =>
    if plain_kind (sy_kind y) then if sym_value y =? 0 then RUndefined else RCommon
    else match sy_kind y with YSection => RUndefined | _ => RUnknown end
  end.
Definition expected_global (y : osym) : bool :=
  sy_weak y || (plain_kind (sy_kind y) &&
    match sy_section y with YUndefined | YCommon => true | _ => match sy_scope y with ScLinkage | ScDynamic => true | _ => false end end).
Definition expected_address (y : osym) : Z :=
  match sy_section y, sy_kind y with YSec _, YFile => 0 | YSec _, _ => if sy_weak y then 0 else sy_value y mod 2 ^ 32 | _, _ => 0 end.
Definition expected_size (o : obj) (y : osym) : Z :=
  if sy_weak y then 0 else
  match sy_section y with
  | YUndefined | YCommon => if plain_kind (sy_kind y) then sym_value y else 0
  | YSec id => match sy_kind y, zget (o_sections o) id with YSection, Some s => se_size s mod 2 ^ 32 | _, _ => 0 end
  | _ => 0
  end.
Definition reports_symbol (o : obj) (f : cfile) (i : Z) (y : osym) : Prop :=
  exists x, coff_symbol (cf_symbols f) (sym_index o i) = Ok x /\ cy_kind x = expected_kind y /\ cy_section x = expected_section y /\
    cy_is_weak x = sy_weak y /\ cy_is_global x = expected_global y /\ cy_is_local x = negb (expected_global y) /\
    cy_scope x = (if expected_global y then ScLinkage else ScCompilation) /\ cy_address f x = expected_address y /\
    cy_size f (sym_index o i) x = expected_size o y.
(** the kind of a section written with default flags *)
Definition expected_skind (k : skind) : skind :=
  match k with
  | SKReadOnlyDataWithRel | SKReadOnlyString => SKReadOnlyData
  | SKDebug | SKDebugString | SKOtherString => SKOther
  | _ => k
  end.

(** * COMDATs.  A section symbol of a section; the conditions under which COMDATs can be read back: the symbol of the group is defined in a
    section of the group (its leader); the sections of the groups are disjoint and each has exactly one section symbol; the symbol of
    the group is the first one of the leader after the section symbol of the leader. *)
Definition is_section_symbol (o : obj) (i id : Z) : Prop :=
  exists y, zget (o_symbols o) i = Some y /\ sy_weak y = false /\ sy_kind y = YSection /\ sy_section y = YSec id.
Definition comdat_ok (o : obj) (c : ocomdat) (leader : Z) : Prop :=
  In leader (oc_sections c) /\ NoDup (oc_sections c) /\ 
  (forall id, In id (oc_sections c) -> exists i, is_section_symbol o i id) /\
  exists i y, is_section_symbol o i leader /\ i < oc_symbol c /\ zget (o_symbols o) (oc_symbol c) = Some y /\ sy_section y = YSec leader /\ sy_weak y = false /\
    forall j z, i < j < oc_symbol c -> zget (o_symbols o) j = Some z -> sy_section z <> YSec leader.
Definition comdats_ok (o : obj) : Prop :=
  (forall i j id, is_section_symbol o i id -> is_section_symbol o j id -> i = j) /\
  (forall c, In c (o_comdats o) -> exists leader, comdat_ok o c leader) /\
  (forall a b c d id, zget (o_comdats o) a = Some c -> zget (o_comdats o) b = Some d -> In id (oc_sections c) -> In id (oc_sections d) -> a = b) /\
  Forall (fun y => sy_flags y = None) (o_symbols o).
(** the group as it should be read: index of its symbol, leader, kind *)
Definition reads_comdat (o : obj) (c : ocomdat) (r : ccomdat) : Prop :=
  exists leader, comdat_ok o c leader /\ cc_symbol r = sym_index o (oc_symbol c) /\ cc_section r = leader + 1 /\ comdat_kind (cc_sel r) = oc_kind c.

(** * Iteration over the symbols of any table: the entries that are not auxiliary records, from index [k]; each is followed by as many
    auxiliary records as it announces, and the iteration ends at the first index outside of the table. *)
Inductive walk (t : csymtab) : Z -> list (Z * csym) -> Z -> Prop :=
| walk_end k : zlen (ct_entries t) <= k -> walk t k [] k
| walk_more k b l k' : zget (ct_entries t) k = Some b ->
    walk t (k + 1 + y_naux (csym_of (ct_big t) b)) l k' -> walk t k ((k, csym_of (ct_big t) b) :: l) k'.
(** the results of a partial function on a list *)
Fixpoint select {A B} (g : A -> option B) (l : list A) : list B :=
  match l with [] => [] | x :: l => match g x with Some y => y :: select g l | None => select g l end end.

(** * Section name fields: [/] and decimal digits up to the end or a null byte, or [//] and six base-64 digits *)
Definition alphabet : bytes := str "ABCDEFGHIJKLMNOPQRSTUVWXYZabcdefghijklmnopqrstuvwxyz0123456789+/".
Definition number_in (radix : Z) (ds : list Z) : Z := fold_left (fun n d => n * radix + d) ds 0.
Definition name_decimal (b : bytes) (off : Z) : Prop :=
  exists ds rest, zdrop 1 b = map (fun d => 48 + d) ds ++ rest /\ Forall (fun d => 0 <= d < 10) ds /\ (rest = [] \/ exists r, rest = 0 :: r) /\ off = number_in 10 ds.
Definition name_base64 (b : bytes) (off : Z) : Prop :=
  exists ds, Forall2 (fun c d => zget alphabet d = Some c) (zdrop 2 b) ds /\ off = number_in 64 ds /\ off < 2 ^ 32.
(** the offset that the name field [b] designates *)
Definition name_designates (b : bytes) (off : Z) : Prop :=
  zget b 0 = Some 47 /\ if match zget b 1 with Some 47 => true | _ => false end then name_base64 b off else name_decimal b off.
