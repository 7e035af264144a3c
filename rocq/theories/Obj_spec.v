(** What the object builder promises, in terms of its public calls. *)
From Verif Require Export Obj_model.

(** * Calls *)
Inductive op :=
| OAddSection (segment name : bytes) (kind : skind) | OSectionId (s : std) | OAddSubsection (s : std) (name : bytes)
| OSetData (sec : Z) (data : bytes) (align : Z) | OAppend (sec : Z) (data : bytes) (align : Z) | OAppendBss (sec size align : Z)
| OAddComdat (c : ocomdat) | OAddSymbol (y : osym) | OAddCommon (y : osym) (size align : Z) | OAddFile (name : bytes)
| OSectionSymbol (sec : Z) | OSymbolSectionAndOffset (sym : Z)
| OAddSymbolData (sym sec : Z) (data : bytes) (align : Z) | OAddSymbolBss (sym sec size align : Z) | OSetSymbolData (sym sec offset size : Z)
| OAddRelocation (sec offset symbol addend : Z) (sub : option Z) (fl : rflags) | OSetSubsections.
(** What a call returns *)
Inductive ret := RUnit | RId (id : Z) | ROffset (off : Z) | RPlace (p : option (Z * Z)).
Definition wrap_ret {A} (f : A -> ret) (r : out A * obj) : out ret * obj :=
  match r with (Ok a, o) => (Ok (f a), o) | (Err, o) => (Err, o) | (Panic, o) => (Panic, o) end.
Definition wrap_pure (r : Z * obj) : out ret * obj := (Ok (RId (fst r)), snd r).
Definition call (c : op) (o : obj) : out ret * obj :=
  match c with
  | OAddSection sg n k => wrap_pure (o_add_section o sg n k)
  | OSectionId s => wrap_pure (o_section_id o s)
  | OAddSubsection s n => wrap_ret RId (o_add_subsection o s n)
  | OSetData sec d al => wrap_ret (fun _ => RUnit) (o_set_section_data o sec d al)
  | OAppend sec d al => wrap_ret ROffset (o_append o sec d al)
  | OAppendBss sec n al => wrap_ret ROffset (o_append_bss o sec n al)
  | OAddComdat c => wrap_pure (o_add_comdat o c)
  | OAddSymbol y => wrap_ret RId (o_add_symbol o y)
  | OAddCommon y n al => wrap_ret RId (o_add_common o y n al)
  | OAddFile n => wrap_pure (o_add_file o n)
  | OSectionSymbol sec => wrap_ret RId (o_section_symbol o sec)
  | OSymbolSectionAndOffset y => wrap_ret RPlace (o_symbol_section_and_offset o y)
  | OAddSymbolData y sec d al => wrap_ret ROffset (o_add_symbol_data o y sec d al)
  | OAddSymbolBss y sec n al => wrap_ret ROffset (o_add_symbol_bss o y sec n al)
  | OSetSymbolData y sec off n => wrap_ret (fun _ => RUnit) (o_set_symbol_data o y sec off n)
  | OAddRelocation sec off y ad sub fl => wrap_ret (fun _ => RUnit) (o_add_relocation o sec off y ad sub fl)
  | OSetSubsections => (Ok RUnit, o_set_subsections o)
  end.
(** Arguments are values of their types (u64), and, the one restriction on callers, a section's own symbol is not given data. *)
Definition not_section_symbol (o : obj) (y : Z) : Prop := forall sy, zget (o_symbols o) y = Some sy -> sy_kind sy <> YSection.
Definition call_ok (c : op) (o : obj) : Prop :=
  match c with
  | OSetData _ _ al | OAppend _ _ al => u64_ok al
  | OAppendBss _ n al => u64_ok n /\ u64_ok al
  | OAddSymbolData y _ _ al => u64_ok al /\ not_section_symbol o y
  | OAddSymbolBss y _ n al => u64_ok n /\ u64_ok al /\ not_section_symbol o y
  | OSetSymbolData y _ _ _ => not_section_symbol o y
  | OAddRelocation _ off _ _ _ _ => u64_ok off
  | _ => True
  end.
(** The objects that a program can build: any calls, some of which may have returned an error *)
Inductive built (f : format) (a : arch) (e : endian) : obj -> Prop :=
| built_new : built f a e (o_new f a e)
| built_call o c r o' : built f a e o -> call_ok c o -> call c o = (r, o') -> r <> Panic -> built f a e o'.

(** * What holds of every object that can be built *)
Definition same_place (s : osec) (i : bytes * bytes * skind * sflags) : Prop :=
  let '(sg, nm, kd, _) := i in se_segment s = sg /\ se_name s = nm /\ se_kind s = kd.
(** [id] is the first section that is this standard section *)
Definition first_std (o : obj) (st : std) (id : Z) : Prop :=
  (exists s, zget (o_sections o) id = Some s /\ same_place s (section_info (o_format o) (o_arch o) st)) /\
  (forall j s, j < id -> zget (o_sections o) j = Some s -> ~ same_place s (section_info (o_format o) (o_arch o) st)).
Definition is_section_symbol (o : obj) (y sec : Z) : Prop :=
  exists sy, zget (o_symbols o) y = Some sy /\ sy_kind sy = YSection /\ sy_section sy = YSec sec.
Definition mangled (o : obj) (n : bytes) : bytes := match o_prefix o with Some p => p :: n | None => n end.
Definition linkable (k : symkind) : Prop := k = YText \/ k = YData \/ k = YTls.
Record coherent (o : obj) : Prop := {
  (** a section has its data and no more *)
  co_size : forall id s, zget (o_sections o) id = Some s ->
    0 <= se_size s /\ if is_bss (se_kind s) then se_data s = [] else se_size s = zlen (se_data s);
  (** a section symbol belongs to one section, a section to at most one section symbol *)
  co_symbol : forall id y, (exists s, zget (o_sections o) id = Some s /\ se_symbol s = Some y) <-> is_section_symbol o y id;
  (** standard sections are found, the first if there are several *)
  co_std : forall st id, lookup_std (o_std o) st = Some id <-> first_std o st id;
  (** a name is found as a symbol of that name *)
  co_map : forall n id, lookup_name (o_map o) n = Some id -> n <> [] /\ exists y, zget (o_symbols o) id = Some y /\ linkable (sy_kind y) /\ sy_name y = mangled o n;
  (** a stub is a symbol that refers to the symbol it stands for *)
  co_stub : forall y id, lookup_id (o_stubs o) y = Some id -> exists sy st sec s r, zget (o_symbols o) y = Some sy /\ zget (o_symbols o) id = Some st /\
    sy_name st = str ".refptr." ++ sy_name sy /\ zget (o_sections o) sec = Some s /\ In r (se_relocs s) /\ ol_symbol r = y /\ ol_offset r = 0;
  (** the bootstrap symbol of Mach-O thread-local variables *)
  co_tlv : forall id, o_tlv o = Some id -> exists y, zget (o_symbols o) id = Some y /\ sy_kind y = YText /\ sy_name y = mangled o (str "_tlv_bootstrap") }.

(** * What no call changes *)
Definition prefix_of {A} (l l' : list A) : Prop := exists t, l' = l ++ t.
Record sec_grows (s s' : osec) : Prop := {
  sg_segment : se_segment s' = se_segment s; sg_name : se_name s' = se_name s; sg_kind : se_kind s' = se_kind s;
  sg_align : se_align s <= se_align s' \/ se_data s = []; sg_data : zlen (se_data s) <= zlen (se_data s');
  sg_size : se_size s <= se_size s';
  (** relocations are only added, and a byte once there changes only where a new relocation's field (at most 8 bytes) covers it *)
  sg_relocs : exists new, se_relocs s' = se_relocs s ++ new /\ forall i, 0 <= i < zlen (se_data s) ->
    zget (se_data s') i = zget (se_data s) i \/ exists r, In r new /\ ol_offset r <= i < ol_offset r + 8;
  sg_symbol : forall y, se_symbol s = Some y -> se_symbol s' = Some y }.
Record sym_grows (y y' : osym) : Prop := {
  yg_name : sy_name y' = sy_name y; yg_kind : sy_kind y' = sy_kind y; yg_scope : sy_scope y' = sy_scope y; yg_weak : sy_weak y' = sy_weak y }.
Record grows (o o' : obj) : Prop := {
  gr_format : o_format o' = o_format o; gr_arch : o_arch o' = o_arch o; gr_endian : o_endian o' = o_endian o; gr_prefix : o_prefix o' = o_prefix o;
  gr_sections : forall id s, zget (o_sections o) id = Some s -> exists s', zget (o_sections o') id = Some s' /\ sec_grows s s';
  gr_symbols : forall id y, zget (o_symbols o) id = Some y -> exists y', zget (o_symbols o') id = Some y' /\ sym_grows y y';
  gr_comdats : prefix_of (o_comdats o) (o_comdats o');
  gr_std : forall st id, lookup_std (o_std o) st = Some id -> lookup_std (o_std o') st = Some id;
  gr_stubs : forall y id, lookup_id (o_stubs o) y = Some id -> lookup_id (o_stubs o') y = Some id;
  gr_tlv : forall id, o_tlv o = Some id -> o_tlv o' = Some id;
  gr_map : forall n id, lookup_name (o_map o) n = Some id -> exists id', lookup_name (o_map o') n = Some id' /\ id <= id' }.

(** * Alignment *)
(** the least multiple of [align] that is at least [n] *)
Definition aligned_after (n align off : Z) : Prop := n <= off < n + align /\ (align | off).
Definition pow2 (align : Z) : Prop := exists k, 0 <= k < 64 /\ align = 2 ^ k.

(** * Relocations *)
(** the format's own flags for the given ones (C41 says what they mean), and the addend before the format's adjustment *)
Definition translated (f : format) (a : arch) (e : endian) (off : Z) (fl : rflags) (ad : Z) (fl' : rflags) (ad' : Z) : Prop :=
  match fl with
  | RFgeneric k enc size =>
    match f with
    | FElf => exists t, elf_translate a e k enc size = Ok t /\ fl' = RFelf t /\ ad' = ad
    | FCoff => exists t, coff_translate a k enc size ad = Ok t /\ fl' = RFcoff t /\ ad' = ad
    | FXcoff => exists t rs, xcoff_translate k size = Ok (t, rs) /\ fl' = RFxcoff t rs /\ ad' = ad
    | FMachO => exists t pcrel len, macho_translate a k enc size off ad = Ok (t, pcrel, len, ad') /\ fl' = RFmacho t pcrel len
    end
  | _ => fl' = fl /\ ad' = ad
  end.
(** the section's bytes with the [n] bytes at [off] replaced by those of [v] *)
Definition patched (e : endian) (off n v : Z) (d d' : bytes) : Prop :=
  off + n <= zlen d /\ d' = ztake off d ++ write_u e (Z.to_nat n) (v mod 2 ^ (8 * n)) ++ zdrop (off + n) d.
(** one more relocation; an implicit addend is in the section's bytes, an explicit one in the relocation *)
Definition relocated (f : format) (a : arch) (e : endian) (r : orel) (v : Z) (implicit : bool) (s s' : osec) : Prop :=
  se_segment s' = se_segment s /\ se_name s' = se_name s /\ se_kind s' = se_kind s /\ se_size s' = se_size s /\ se_align s' = se_align s /\
  se_flags s' = se_flags s /\ se_relocs s' = se_relocs s ++ [r] /\
  if implicit && negb (v =? 0)
  then ol_addend r = 0 /\ exists n, (n = 4 \/ n = 8) /\ reloc_size f a (ol_flags r) = Ok (8 * n) /\ patched e (ol_offset r) n v (se_data s) (se_data s')
  else ol_addend r = v /\ se_data s' = se_data s.
(** sections that were there are there still, all but [sec] unchanged, and no symbol that was there has changed *)
Definition others_same (o o' : obj) (sec : Z) : Prop :=
  (forall j s, j <> sec -> zget (o_sections o) j = Some s -> zget (o_sections o') j = Some s) /\ prefix_of (o_symbols o) (o_symbols o') /\
  o_map o' = o_map o /\ o_comdats o' = o_comdats o.
(** one relocation, to [sym]: what the section and the object look like afterwards *)
Definition relocates (o o' : obj) (sec off sym ad : Z) (fl : rflags) : Prop :=
  exists s s' r fl' ad' v implicit, zget (o_sections o) sec = Some s /\ zget (o_sections o') sec = Some s' /\
    translated (o_format o) (o_arch o) (o_endian o) off fl ad fl' ad' /\ adjust_addend (o_format o) (o_arch o) fl' ad' = Ok (v, implicit) /\
    relocated (o_format o) (o_arch o) (o_endian o) r v implicit s s' /\ ol_offset r = off /\ ol_symbol r = sym /\ ol_flags r = fl'.
(** nothing but a section symbol is new *)
Definition nearly (o o' : obj) (sec : Z) : Prop :=
  (forall j s, zget (o_sections o) j = Some s -> exists s', zget (o_sections o') j = Some s' /\ (s' = s \/ j = sec /\ exists y, s' = sec_with_symbol s y)) /\
  prefix_of (o_symbols o) (o_symbols o') /\ o_map o' = o_map o /\ o_comdats o' = o_comdats o.
(** nothing that was there has changed *)
Definition untouched (o o' : obj) : Prop :=
  prefix_of (o_sections o) (o_sections o') /\ prefix_of (o_symbols o) (o_symbols o') /\ o_map o' = o_map o /\ o_comdats o' = o_comdats o.
(** the symbol of the stored relocation: the one given, or its stub *)
Definition target (o' : obj) (f : format) (fl : rflags) (sym sym' : Z) : Prop :=
  match f, fl with FCoff, RFgeneric KGotRelative _ _ => lookup_id (o_stubs o') sym = Some sym' | _, _ => sym' = sym end.

(** * Symbols *)
(** the symbol as it is stored *)
Definition stored (o : obj) (y : osym) : osym :=
  match sy_kind y, sy_name y with
  | (YText | YData | YTls), _ :: _ => sym_named y (mangled o (sy_name y))
  | _, _ => y
  end.
Definition named (y : osym) : bool := match sy_kind y, sy_name y with (YText | YData | YTls), _ :: _ => true | _, _ => false end.

(** * Histories *)
Inductive later : obj -> obj -> Prop :=
| later_refl o : later o o
| later_call o c r o' o'' : call_ok c o -> call c o = (r, o') -> r <> Panic -> later o' o'' -> later o o''.
(** [d] is at [off] in the section, but for relocated fields *)
Definition data_at (s : osec) (off : Z) (d : bytes) : Prop := forall i, 0 <= i < zlen d ->
  zget (se_data s) (off + i) = zget d i \/ exists r, In r (se_relocs s) /\ ol_offset r <= off + i < ol_offset r + 8.
(** the data that a symbol gets: under [set_subsections_via_symbols] an empty symbol takes one byte *)
Definition datum (o : obj) (d : bytes) : bytes := if (zlen d =? 0) && o_subsections o then [0] else d.
Definition bss_size (o : obj) (n : Z) : Z := if (n =? 0) && o_subsections o then 1 else n.
(** the same names are found as before; the bootstrap symbol of Mach-O thread-local variables is added as needed *)
Definition finds_same (o o' : obj) : Prop := forall n, n <> str "_tlv_bootstrap" -> o_symbol_id o' n = o_symbol_id o n.
