(** Specification of writing a relocatable ELF file from an object (C66): which objects, where their parts are in the file, and how the
    reader shows them. *)
From Verif Require Export Obj_model Rel_spec ElfR_spec ElfF_spec.
From Verif Require Export ElfO_model.
Notation strtab := Str_model.strtab (only parsing).

(** * Numbers *)
Definition count {A} (f : A -> bool) (l : list A) : Z := zlen (filter f l).
Definition relocated (s : osec) : bool := 0 <? zlen (se_relocs s).
Definition local_symbol (y : osym) : bool := match sy_scope y with ScCompilation => true | _ => false end.
(** The null section, the groups, and the sections, each followed by its relocation section if it has relocations *)
Definition section_no (o : obj) (i : Z) : Z := 1 + zlen (o_comdats o) + i + count relocated (ztake i (o_sections o)).
(** The null symbol, the local symbols, the others *)
Definition symbol_no (o : obj) (k : Z) : Z :=
  match zget (o_symbols o) k with
  | Some y => if local_symbol y then 1 + count local_symbol (ztake k (o_symbols o))
              else 1 + count local_symbol (o_symbols o) + count (fun y => negb (local_symbol y)) (ztake k (o_symbols o))
  | None => 0
  end.

(** * The objects *)
(** Sections: the fields fit the format.  Given flags do not make the section one of the tables that have a meaning of their own (symbol
    tables, relocations, groups), and the section has the type without data exactly if it has none. *)
Definition no_data (s : osec) : bool := match se_flags s with SFElf t _ => t =? 8 | _ => is_bss (se_kind s) end.
Definition plain_type (t : Z) : Prop := u32_ok t /\ ~ In t [2; 4; 9; 11; 17; 18; 1073741844].
Record section_fits (is64 : bool) (s : osec) : Prop := {
  sf_name : bytes_ok (se_name s);
  sf_data : bytes_ok (se_data s);
  sf_align : 0 <= se_align s <= 1 \/ exists k, 0 <= k < 64 /\ se_align s = 2 ^ k;
  sf_words : word_ok is64 (se_align s) /\ word_ok is64 (se_size s);
  sf_size : if no_data s then se_data s = [] else se_size s = zlen (se_data s);
  sf_flags : forall t f, se_flags s = SFElf t f -> plain_type t /\ word_ok is64 f
}.
Record symbol_fits (is64 : bool) (y : osym) : Prop := {
  yf_name : bytes_ok (sy_name y);
  yf_words : word_ok is64 (sy_value y) /\ word_ok is64 (sy_size y);
  yf_flags : forall i o, sy_flags y = Some (YFElf i o) -> 0 <= i < 256 /\ 0 <= o < 256
}.
Definition reloc_fits (is64 is_rela : bool) (o : obj) (l : orel) : Prop :=
  forall t, ol_flags l = RFelf t -> rel_ok is64 is_rela {| cr_offset := ol_offset l; cr_sym := symbol_no o (ol_symbol l); cr_type := t; cr_addend := ol_addend l |}.
Record object_fits (is64 is_rela : bool) (o : obj) : Prop := {
  of_few : zlen (o_comdats o) + zlen (o_sections o) + zlen (o_symbols o) < 2 ^ 29;
  of_sections : Forall (section_fits is64) (o_sections o);
  of_symbols : Forall (symbol_fits is64) (o_symbols o);
  of_relocs : Forall (fun s => Forall (reloc_fits is64 is_rela o) (se_relocs s)) (o_sections o)
}.
(** the flags of the file *)
Definition flags_fit (t : eopts) : Prop :=
  match eo_flags t with Some (abi, ver, fl) => 0 <= abi < 256 /\ 0 <= ver < 256 /\ u32_ok fl | None => True end.

(** * What the reader shows *)
(** The kind of a section whose flags were chosen by its kind *)
Definition kind_back (k : skind) : skind :=
  match k with
  | SKReadOnlyDataWithRel => SKData
  | SKDebugString => SKOtherString
  | SKDebug | SKLinker | SKMetadata => SKOther
  | k => k
  end.
(** Section [i], as read *)
Definition section_back (f : efile) (F : bytes) (i : Z) (s : osec) : Prop :=
  exists h, ef_section f i = Ok (i, h) /\ es_name f h = Ok (se_name s) /\ es_data F h = Ok (se_data s) /\ es_address h = 0 /\
    es_size h = se_size s /\ es_align h = se_align s /\
    match se_flags s with
    | SFElf t fl => es_flags h = SFElf t fl
    | _ => es_kind h = kind_back (se_kind s)
    end.
(** Its relocations: there is a relocation section, following it, exactly if it has some; the relocations are yielded in order, with the
    numbers of the symbols *)
Definition reloc_back (o : obj) (is_rela : bool) (l : orel) (r : Z * reloc) : Prop :=
  exists t, ol_flags l = RFelf t /\ r = (ol_offset l, {| rl_sym := Some (symbol_no o (ol_symbol l)); rl_addend := ol_addend l; rl_implicit := negb is_rela; rl_type := t |}).
Definition relocs_back (is64 is_rela mips : bool) (o : obj) (f : efile) (F : bytes) (i : Z) (s : osec) : Prop :=
  es_reloc_index f i = Ok (if relocated s then Some (i + 1) else None) /\
  exists rs st', runs (secrel_next is64 (ef_endian f) mips F (ef_sections f) (ef_relocs f)) (secrel_new i) rs false st' /\
    Forall2 (reloc_back o is_rela) (se_relocs s) rs.
(** The kind, binding and visibility of a symbol without given flags *)
Definition symbol_kind_back (y : osym) : symkind :=
  match sy_section y, sy_kind y with
  | YUndefined, (YText | YData | YLabel | YUnknown) => YUnknown
  | _, YLabel => YUnknown
  | _, k => k
  end.
Definition symbol_scope_back (y : osym) : scope :=
  match sy_section y with
  | YUndefined => ScUnknown
  | _ => match sy_scope y with
         | ScCompilation => if sy_weak y then ScDynamic else ScCompilation
         | ScLinkage => ScLinkage
         | _ => ScDynamic
         end
  end.
Definition symbol_section_back (o : obj) (y : osym) (r : sym) : rsec :=
  match sy_section y with
  | YUndefined => RUndefined
  | YCommon => RCommon
  | YSec i => Coff_model.RSection (section_no o i)
  | YNone | YAbsolute => if st_type r =? 4 then RNone else RAbsolute
  end.
(** Symbol [k], as read: section symbols have no name *)
Definition symbol_back (o : obj) (f : efile) (k : Z) (y : osym) : Prop :=
  exists r, ef_symbol (ef_symbols f) k = Ok (k, r) /\
    symbol_name (ef_symbols f) r = Ok (match sy_kind y with YSection => [] | _ => sy_name y end) /\
    ey_address r = (match sy_section y with YCommon => 0 | _ => sy_value y end) /\ st_value r = sy_value y /\ ey_size r = sy_size y /\
    ey_section (ef_symbols f) k r = symbol_section_back o y r /\
    match sy_flags y with
    | Some (YFElf i ot) => ey_flags r = (i, ot)
    | _ => ey_kind r = symbol_kind_back y /\ ey_scope r = symbol_scope_back y /\ ey_weak r = sy_weak y
    end.
(** A COMDAT group as read: its symbol and its sections *)
Definition comdat_back (o : obj) (f : efile) (c : ocomdat) (g : shdr * list Z) : Prop :=
  ElfF_model.comdat_symbol g = symbol_no o (oc_symbol c) /\ snd g = map (section_no o) (oc_sections c) /\
  forall y, zget (o_symbols o) (oc_symbol c) = Some y -> ElfF_model.comdat_name f g = Ok (match sy_kind y with YSection => [] | _ => sy_name y end).

(** The file [F] of the object is accepted, and shows the object. *)
Record reads_back (o : obj) (t : eopts) (is64 is_rela : bool) (F : bytes) (f : efile) : Prop := {
  rb_parse : efile_parse is64 F = Ok f;
  rb_endian : ef_endian f = o_endian o;
  rb_kind : ef_kind f = FRelocatable;
  rb_entry : ef_entry is64 f = 0;
  rb_flags : let '(abi, ver, fl) := match eo_flags t with Some g => g | None => (0, 0, 0) end in ef_flags is64 f = (abi, ver, elf_e_flags (o_arch o) fl);
  rb_arch : exists m, elf_machine (o_arch o) = Ok m /\ ef_architecture is64 f = elf_architecture m is64 (snd (ef_flags is64 f));
  rb_segments : ef_segments f = [];
  rb_sections : forall i s, zget (o_sections o) i = Some s -> section_back f F (section_no o i) s;
  rb_relocs : forall i s, zget (o_sections o) i = Some s ->
    relocs_back is64 is_rela (is64 && (match o_endian o with Little => true | Big => false end) && (match elf_machine (o_arch o) with Ok m => m =? 8 | _ => false end))
      o f F (section_no o i) s;
  rb_symbols : forall k y, zget (o_symbols o) k = Some y -> symbol_back o f (symbol_no o k) y;
  (** the section of the symbols tells how many of them are local *)
  rb_local : exists h, ef_section f (smt_section (ef_symbols f)) = Ok (smt_section (ef_symbols f), h) /\ sh_type h = 2 /\ sh_info h = 1 + count local_symbol (o_symbols o);
  rb_count : zlen (smt_symbols (ef_symbols f)) = 1 + zlen (o_symbols o);
  rb_comdats : exists gs, runs (ElfF_model.comdat_next (ef_endian f) F) (ef_comdats f) gs false [] /\ Forall2 (comdat_back o f) (o_comdats o) gs
}.
