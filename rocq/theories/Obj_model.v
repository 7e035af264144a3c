(** Model of src/write/mod.rs: the [Object] builder, with the private methods of the formats that it calls.
    Definitions only.  Every [&mut self] method is a function from the object to its result and the new object; after [Panic] the
    object means nothing.  [HashMap]s are association lists (the first entry of a key counts). *)
From Coq Require Export Ascii String.
From Verif Require Export Str_model Iter_model Kind_model.
Open Scope list_scope.

(** a byte string literal *)
Definition str (s : string) : bytes := map (fun c => Z.of_nat (nat_of_ascii c)) (list_ascii_of_string s).
(** core::fmt of an unsigned number in decimal: at most 20 digits for usize *)
Fixpoint dec_go (fuel : nat) (n : Z) (acc : bytes) : bytes :=
  match fuel with
  | O => acc
  | S f => if n <? 10 then (48 + n) :: acc else dec_go f (n / 10) ((48 + n mod 10) :: acc)
  end.
Definition dec (n : Z) : bytes := dec_go 20 n [].

(** src/write/mod.rs 851-867 [StandardSection] *)
Inductive std := StText | StData | StReadOnlyData | StReadOnlyDataWithRel | StReadOnlyString | StUninitializedData | StTls
  | StUninitializedTls | StTlsVariables | StGnuProperty | StEhFrame.
Scheme Equality for std.
(** 886-901 [StandardSection::all] *)
Definition all_std : list std := [StText; StData; StReadOnlyData; StReadOnlyDataWithRel; StReadOnlyString; StUninitializedData; StTls;
  StUninitializedTls; StTlsVariables; StGnuProperty; StEhFrame].
(** src/common.rs [SectionFlags], those that the builder sets itself, and any other *)
Inductive sflags := SFNone | SFElf (sh_type sh_flags : Z) | SFMachO (flags reserved2 : Z) | SFCoff (characteristics : Z) | SFOther (v : Z).

(** src/write/elf/object.rs 69-133 [elf_section_info]: segment, name, kind, flags *)
Definition elf_section_info (a : arch) (s : std) : bytes * bytes * skind * sflags :=
  match s with
  | StText => (str "", str ".text", SKText, SFNone)
  | StData => (str "", str ".data", SKData, SFNone)
  | StReadOnlyData | StReadOnlyString => (str "", str ".rodata", SKReadOnlyData, SFNone)
  | StReadOnlyDataWithRel => (str "", str ".data.rel.ro", SKReadOnlyDataWithRel, SFNone)
  | StUninitializedData => (str "", str ".bss", SKUninitializedData, SFNone)
  | StTls => (str "", str ".tdata", SKTls, SFNone)
  | StUninitializedTls => (str "", str ".tbss", SKUninitializedTls, SFNone)
  | StTlsVariables => (str "", str "", SKTlsVariables, SFNone)
  | StGnuProperty => (str "", str ".note.gnu.property", SKNote, SFElf 7 2)
  | StEhFrame => (str "", str ".eh_frame", SKReadOnlyData,
      SFElf (match a with AX86_64 | AX86_64_X32 => 1879048193 | _ => 1 end) 2)
  end.
(** src/write/coff/object.rs 37-78 [coff_section_info] *)
Definition coff_section_info (s : std) : bytes * bytes * skind * sflags :=
  match s with
  | StText => (str "", str ".text", SKText, SFNone)
  | StData => (str "", str ".data", SKData, SFNone)
  | StReadOnlyData | StReadOnlyDataWithRel | StReadOnlyString => (str "", str ".rdata", SKReadOnlyData, SFNone)
  | StUninitializedData => (str "", str ".bss", SKUninitializedData, SFNone)
  | StTls => (str "", str ".tls$", SKData, SFNone)
  | StUninitializedTls => (str "", str "", SKUninitializedTls, SFNone)
  | StTlsVariables => (str "", str "", SKTlsVariables, SFNone)
  | StGnuProperty => (str "", str "", SKNote, SFNone)
  | StEhFrame => (str "", str ".eh_frame", SKReadOnlyData, SFNone)
  end.
(** src/write/macho/object.rs 66-139 [macho_section_info] *)
Definition macho_section_info (s : std) : bytes * bytes * skind * sflags :=
  match s with
  | StText => (str "__TEXT", str "__text", SKText, SFNone)
  | StData => (str "__DATA", str "__data", SKData, SFNone)
  | StReadOnlyData => (str "__TEXT", str "__const", SKReadOnlyData, SFNone)
  | StReadOnlyDataWithRel => (str "__DATA", str "__const", SKReadOnlyDataWithRel, SFNone)
  | StReadOnlyString => (str "__TEXT", str "__cstring", SKReadOnlyString, SFNone)
  | StUninitializedData => (str "__DATA", str "__bss", SKUninitializedData, SFNone)
  | StTls => (str "__DATA", str "__thread_data", SKTls, SFNone)
  | StUninitializedTls => (str "__DATA", str "__thread_bss", SKUninitializedTls, SFNone)
  | StTlsVariables => (str "__DATA", str "__thread_vars", SKTlsVariables, SFNone)
  | StGnuProperty => (str "", str "", SKNote, SFNone)
  | StEhFrame => (str "__TEXT", str "__eh_frame", SKReadOnlyData, SFMachO 1744830475 0)
  end.
(** src/write/xcoff.rs 30-70 [xcoff_section_info] *)
Definition xcoff_section_info (s : std) : bytes * bytes * skind * sflags :=
  match s with
  | StText => (str "", str ".text", SKText, SFNone)
  | StData => (str "", str ".data", SKData, SFNone)
  | StReadOnlyData | StReadOnlyDataWithRel | StReadOnlyString => (str "", str ".rdata", SKReadOnlyData, SFNone)
  | StUninitializedData => (str "", str ".bss", SKUninitializedData, SFNone)
  | StTls => (str "", str ".tdata", SKTls, SFNone)
  | StUninitializedTls => (str "", str ".tbss", SKUninitializedTls, SFNone)
  | StTlsVariables | StGnuProperty | StEhFrame => (str "", str "", SKUnknown, SFNone)
  end.
(** 262-279 [section_info] *)
Definition section_info (f : format) (a : arch) (s : std) : bytes * bytes * skind * sflags :=
  match f with FCoff => coff_section_info s | FElf => elf_section_info a s | FMachO => macho_section_info s | FXcoff => xcoff_section_info s end.

(** 1019-1031 [SymbolSection] *)
Inductive ysec := YNone | YUndefined | YAbsolute | YCommon | YSec (id : Z).
(** src/common.rs [SymbolFlags], those that the object writers accept, and any other *)
Inductive yflags := YFElf (st_info st_other : Z) | YFMachO (n_type n_desc : Z) | YFCoff (typ storage_class : Z) | YFOther (v : Z).
(** 1052-1078 [Symbol]; [sy_flags] is [None] for [SymbolFlags::None] *)
Record osym := { sy_name : bytes; sy_value : Z; sy_size : Z; sy_kind : symkind; sy_scope : scope; sy_weak : bool; sy_section : ysec;
  sy_flags : option yflags }.
(** 1119-1125 [RelocationInternal] *)
Record orel := { ol_offset : Z; ol_symbol : Z; ol_sub : option Z; ol_addend : Z; ol_flags : rflags }.
(** 910-921 [Section] *)
Record osec := { se_segment : bytes; se_name : bytes; se_kind : skind; se_size : Z; se_align : Z; se_data : bytes;
  se_relocs : list orel; se_symbol : option Z; se_flags : sflags }.
(** 1146-1160 [Comdat]: kind, symbol, sections *)
Record ocomdat := { oc_kind : Z; oc_symbol : Z; oc_sections : list Z }.
(** 69-96 [Object]; [o_prefix] is [mangling.global_prefix()] *)
Record obj := { o_format : format; o_arch : arch; o_endian : endian; o_sections : list osec; o_std : list (std * Z);
  o_symbols : list osym; o_map : list (bytes * Z); o_comdats : list ocomdat; o_prefix : option Z; o_stubs : list (Z * Z);
  o_tlv : option Z; o_subsections : bool }.

(** 1181-1199 [Mangling::default] and [global_prefix]: an underscore for 32-bit x86 COFF and Mach-O *)
Definition default_prefix (f : format) (a : arch) : option Z :=
  match f, a with FCoff, AI386 => Some 95 | FMachO, _ => Some 95 | _, _ => None end.
(** 100-126 [Object::new] *)
Definition o_new (f : format) (a : arch) (e : endian) : obj :=
  {| o_format := f; o_arch := a; o_endian := e; o_sections := []; o_std := []; o_symbols := []; o_map := []; o_comdats := [];
     o_prefix := default_prefix f a; o_stubs := []; o_tlv := None; o_subsections := false |}.

(** record updates *)
Definition with_sections (o : obj) (l : list osec) : obj :=
  {| o_format := o_format o; o_arch := o_arch o; o_endian := o_endian o; o_sections := l; o_std := o_std o; o_symbols := o_symbols o;
     o_map := o_map o; o_comdats := o_comdats o; o_prefix := o_prefix o; o_stubs := o_stubs o; o_tlv := o_tlv o; o_subsections := o_subsections o |}.
Definition with_std (o : obj) (l : list (std * Z)) : obj :=
  {| o_format := o_format o; o_arch := o_arch o; o_endian := o_endian o; o_sections := o_sections o; o_std := l; o_symbols := o_symbols o;
     o_map := o_map o; o_comdats := o_comdats o; o_prefix := o_prefix o; o_stubs := o_stubs o; o_tlv := o_tlv o; o_subsections := o_subsections o |}.
Definition with_symbols (o : obj) (l : list osym) : obj :=
  {| o_format := o_format o; o_arch := o_arch o; o_endian := o_endian o; o_sections := o_sections o; o_std := o_std o; o_symbols := l;
     o_map := o_map o; o_comdats := o_comdats o; o_prefix := o_prefix o; o_stubs := o_stubs o; o_tlv := o_tlv o; o_subsections := o_subsections o |}.
Definition with_map (o : obj) (l : list (bytes * Z)) : obj :=
  {| o_format := o_format o; o_arch := o_arch o; o_endian := o_endian o; o_sections := o_sections o; o_std := o_std o; o_symbols := o_symbols o;
     o_map := l; o_comdats := o_comdats o; o_prefix := o_prefix o; o_stubs := o_stubs o; o_tlv := o_tlv o; o_subsections := o_subsections o |}.
Definition with_comdats (o : obj) (l : list ocomdat) : obj :=
  {| o_format := o_format o; o_arch := o_arch o; o_endian := o_endian o; o_sections := o_sections o; o_std := o_std o; o_symbols := o_symbols o;
     o_map := o_map o; o_comdats := l; o_prefix := o_prefix o; o_stubs := o_stubs o; o_tlv := o_tlv o; o_subsections := o_subsections o |}.
Definition with_stubs (o : obj) (l : list (Z * Z)) : obj :=
  {| o_format := o_format o; o_arch := o_arch o; o_endian := o_endian o; o_sections := o_sections o; o_std := o_std o; o_symbols := o_symbols o;
     o_map := o_map o; o_comdats := o_comdats o; o_prefix := o_prefix o; o_stubs := l; o_tlv := o_tlv o; o_subsections := o_subsections o |}.
Definition with_tlv (o : obj) (t : option Z) : obj :=
  {| o_format := o_format o; o_arch := o_arch o; o_endian := o_endian o; o_sections := o_sections o; o_std := o_std o; o_symbols := o_symbols o;
     o_map := o_map o; o_comdats := o_comdats o; o_prefix := o_prefix o; o_stubs := o_stubs o; o_tlv := t; o_subsections := o_subsections o |}.
(** 305-310 [set_subsections_via_symbols] *)
Definition o_set_subsections (o : obj) : obj :=
  {| o_format := o_format o; o_arch := o_arch o; o_endian := o_endian o; o_sections := o_sections o; o_std := o_std o; o_symbols := o_symbols o;
     o_map := o_map o; o_comdats := o_comdats o; o_prefix := o_prefix o; o_stubs := o_stubs o; o_tlv := o_tlv o;
     o_subsections := match o_format o with FMachO => true | _ => o_subsections o end |}.
Definition sec_with (s : osec) (size align : Z) (data : bytes) : osec :=
  {| se_segment := se_segment s; se_name := se_name s; se_kind := se_kind s; se_size := size; se_align := align; se_data := data;
     se_relocs := se_relocs s; se_symbol := se_symbol s; se_flags := se_flags s |}.
Definition sec_with_flags (s : osec) (fl : sflags) : osec :=
  {| se_segment := se_segment s; se_name := se_name s; se_kind := se_kind s; se_size := se_size s; se_align := se_align s; se_data := se_data s;
     se_relocs := se_relocs s; se_symbol := se_symbol s; se_flags := fl |}.
Definition sec_with_symbol (s : osec) (y : option Z) : osec :=
  {| se_segment := se_segment s; se_name := se_name s; se_kind := se_kind s; se_size := se_size s; se_align := se_align s; se_data := se_data s;
     se_relocs := se_relocs s; se_symbol := y; se_flags := se_flags s |}.
Definition sec_push_reloc (s : osec) (r : orel) : osec :=
  {| se_segment := se_segment s; se_name := se_name s; se_kind := se_kind s; se_size := se_size s; se_align := se_align s; se_data := se_data s;
     se_relocs := se_relocs s ++ [r]; se_symbol := se_symbol s; se_flags := se_flags s |}.
Definition sym_at (y : osym) (value size : Z) (sec : ysec) : osym :=
  {| sy_name := sy_name y; sy_value := value; sy_size := size; sy_kind := sy_kind y; sy_scope := sy_scope y; sy_weak := sy_weak y;
     sy_section := sec; sy_flags := sy_flags y |}.
Definition sym_with_flags (y : osym) (fl : option yflags) : osym :=
  {| sy_name := sy_name y; sy_value := sy_value y; sy_size := sy_size y; sy_kind := sy_kind y; sy_scope := sy_scope y; sy_weak := sy_weak y;
     sy_section := sy_section y; sy_flags := fl |}.
Definition sym_named (y : osym) (name : bytes) : osym :=
  {| sy_name := name; sy_value := sy_value y; sy_size := sy_size y; sy_kind := sy_kind y; sy_scope := sy_scope y; sy_weak := sy_weak y;
     sy_section := sy_section y; sy_flags := sy_flags y |}.

(** [debug_assert_eq!(align & (align - 1), 0)] on u64: the subtraction panics for 0 *)
Definition align_bad (align : Z) : bool := (align <? 1) || negb (Z.land align (align - 1) =? 0).
(** 946-956 [Section::set_data] *)
Definition sec_set_data (s : osec) (data : bytes) (align : Z) : out unit * osec :=
  if is_bss (se_kind s) || align_bad align || negb (zlen (se_data s) =? 0) then (Panic, s)
  else (Ok tt, sec_with s (zlen data) align data).
(** 962-978 [Section::append_data]; a vector of 2^63 bytes or more is a capacity overflow *)
Definition sec_append_data (s : osec) (append_data : bytes) (align : Z) : out Z * osec :=
  if is_bss (se_kind s) || align_bad align then (Panic, s) else
  let al := if se_align s <? align then align else se_align s in
  let len := zlen (se_data s) in
  let rem := Z.land len (align - 1) in
  let offset := if rem =? 0 then len else len + (align - rem) in
  if offset + zlen append_data <? 2 ^ 63 then
    let data := se_data s ++ zeros (offset - len) ++ append_data in
    (Ok offset, sec_with s (zlen data) al data)
  else (Panic, s).
(** 984-998 [Section::append_bss]; u64 additions *)
Definition sec_append_bss (s : osec) (size align : Z) : out Z * osec :=
  if negb (is_bss (se_kind s)) || align_bad align then (Panic, s) else
  let al := if se_align s <? align then align else se_align s in
  let rem := Z.land (se_size s) (align - 1) in
  match (if rem =? 0 then Ok (se_size s) else padd 64 (se_size s) (align - rem)) with
  | Ok offset =>
    match padd 64 offset size with
    | Ok size' => (Ok offset, sec_with s size' al (se_data s))
    | _ => (Panic, s)
    end
  | _ => (Panic, s)
  end.
(** [self.sections[id.0]], updated by a method of [Section] *)
Definition on_section {A} (o : obj) (id : Z) (f : osec -> out A * osec) : out A * obj :=
  match zget (o_sections o) id with
  | Some s => let (r, s') := f s in (r, with_sections o (zset (o_sections o) id s'))
  | None => (Panic, o)
  end.
(** 193-214 [set_section_data], [append_section_data], [append_section_bss] *)
Definition o_set_section_data (o : obj) (id : Z) (data : bytes) (align : Z) := on_section o id (fun s => sec_set_data s data align).
Definition o_append (o : obj) (id : Z) (data : bytes) (align : Z) := on_section o id (fun s => sec_append_data s data align).
Definition o_append_bss (o : obj) (id : Z) (size align : Z) := on_section o id (fun s => sec_append_bss s size align).

(** a map's [get] *)
Definition lookup_std (l : list (std * Z)) (s : std) : option Z := option_map snd (find (fun '(k, _) => std_beq k s) l).
Definition lookup_name (l : list (bytes * Z)) (n : bytes) : option Z := option_map snd (find (fun '(k, _) => bytes_eqb k n) l).
Definition lookup_id (l : list (Z * Z)) (i : Z) : option Z := option_map snd (find (fun '(k, _) => k =? i) l).

(** 248-257: the loop of [add_section] over the standard sections *)
Fixpoint add_std (f : format) (a : arch) (segment name : bytes) (kind : skind) (id : Z) (todo : list std) (l : list (std * Z)) : list (std * Z) :=
  match todo with
  | [] => l
  | st :: todo =>
    let l := match lookup_std l st with
      | Some _ => l
      | None =>
        let '(sg, nm, kd, _) := section_info f a st in
        if bytes_eqb sg segment && bytes_eqb nm name && skind_beq kd kind then (st, id) :: l else l
      end in
    add_std f a segment name kind id todo l
  end.
(** 234-260 [add_section] *)
Definition o_add_section (o : obj) (segment name : bytes) (kind : skind) : Z * obj :=
  let id := zlen (o_sections o) in
  let s := {| se_segment := segment; se_name := name; se_kind := kind; se_size := 0; se_align := 1; se_data := []; se_relocs := [];
              se_symbol := None; se_flags := SFNone |} in
  (id, with_std (with_sections o (o_sections o ++ [s])) (add_std (o_format o) (o_arch o) segment name kind id all_std (o_std o))).
(** [add_section], then [self.section_mut(id).flags = flags] *)
Definition o_add_section_flags (o : obj) (segment name : bytes) (kind : skind) (fl : sflags) : Z * obj :=
  let (id, o) := o_add_section o segment name kind in
  match zget (o_sections o) id with
  | Some s => (id, with_sections o (zset (o_sections o) id (sec_with_flags s fl)))
  | None => (id, o)
  end.
(** 219-229 [section_id] *)
Definition o_section_id (o : obj) (st : std) : Z * obj :=
  match lookup_std (o_std o) st with
  | Some id => (id, o)
  | None => let '(sg, nm, kd, fl) := section_info (o_format o) (o_arch o) st in o_add_section_flags o sg nm kd fl
  end.
(** 284-333 [add_subsection]: the name of a subsection is [unimplemented!] for XCOFF *)
Definition o_add_subsection (o : obj) (st : std) (value : bytes) : out Z * obj :=
  let '(sg, nm, kd, fl) := section_info (o_format o) (o_arch o) st in
  let name sep := match value with [] => nm | _ => nm ++ sep :: value end in
  match o_format o with
  | FMachO => let (id, o) := o_section_id o st in (Ok id, o)
  | FCoff => let (id, o) := o_add_section_flags o sg (name 36) kd fl in (Ok id, o)
  | FElf => let (id, o) := o_add_section_flags o sg (name 46) kd fl in (Ok id, o)
  | FXcoff => (Panic, o)
  end.
(** 399-403 [add_comdat] *)
Definition o_add_comdat (o : obj) (c : ocomdat) : Z * obj := (zlen (o_comdats o), with_comdats o (o_comdats o ++ [c])).
(** 406-408 [symbol_id] *)
Definition o_symbol_id (o : obj) (name : bytes) : option Z := lookup_name (o_map o) name.
(** 459-463 [add_raw_symbol] *)
Definition o_add_raw (o : obj) (y : osym) : Z * obj := (zlen (o_symbols o), with_symbols o (o_symbols o ++ [y])).
(** 556-582 [section_symbol] *)
Definition o_section_symbol (o : obj) (id : Z) : out Z * obj :=
  match zget (o_sections o) id with
  | None => (Panic, o)
  | Some s =>
    match se_symbol s with
    | Some y => (Ok y, o)
    | None =>
      let name := match o_format o with FCoff => se_name s | FMachO => str "ltmp" ++ dec id | _ => [] end in
      let (y, o) := o_add_raw o {| sy_name := name; sy_value := 0; sy_size := 0; sy_kind := YSection; sy_scope := ScCompilation;
        sy_weak := false; sy_section := YSec id; sy_flags := None |} in
      (Ok y, with_sections o (zset (o_sections o) id (sec_with_symbol s (Some y))))
    end
  end.
(** 430-457 [add_symbol] *)
Definition is_undef (y : osym) : bool := match sy_section y with YUndefined => true | _ => false end.
Definition o_add_symbol (o : obj) (y : osym) : out Z * obj :=
  if negb (is_undef y) && scope_beq (sy_scope y) ScUnknown then (Panic, o) else
  match sy_kind y with
  | YSection =>
    match sy_section y with
    | YSec sec =>
      do id, o <- o_section_symbol o sec ;;
      match sy_flags y with
      | None => (Ok id, o)
      | Some fl =>
        match zget (o_symbols o) id with
        | Some y' => (Ok id, with_symbols o (zset (o_symbols o) id (sym_with_flags y' (Some fl))))
        | None => (Panic, o)
        end
      end
    | _ => (Panic, o)  (* unwrap *)
    end
  | YText | YData | YTls =>
    match sy_name y with
    | [] => let (id, o) := o_add_raw o y in (Ok id, o)
    | name =>
      let (id, o) := o_add_raw o (match o_prefix o with Some p => sym_named y (p :: name) | None => y end) in
      (Ok id, with_map o ((name, id) :: o_map o))
    end
  | _ => let (id, o) := o_add_raw o y in (Ok id, o)
  end.
(** 534-539 [add_common_symbol] *)
Definition o_add_common (o : obj) (y : osym) (size align : Z) : out Z * obj := o_add_symbol o (sym_at y align size YCommon).
(** 542-553 [add_file_symbol] *)
Definition o_add_file (o : obj) (name : bytes) : Z * obj :=
  o_add_raw o {| sy_name := name; sy_value := 0; sy_size := 0; sy_kind := YFile; sy_scope := ScCompilation; sy_weak := false;
                 sy_section := YNone; sy_flags := None |}.
(** 668-677 [symbol_section_and_offset] *)
Definition o_symbol_section_and_offset (o : obj) (id : Z) : out (option (Z * Z)) * obj :=
  match zget (o_symbols o) id with
  | None => (Panic, o)
  | Some y =>
    match sy_kind y with
    | YSection => (Ok (Some (id, 0)), o)
    | _ => match sy_section y with
      | YSec sec => do s, o <- o_section_symbol o sec ;; (Ok (Some (s, sy_value y)), o)
      | _ => (Ok None, o)
      end
    end
  end.

(** 753-794 [write_relocation_addend] *)
Definition reloc_size (f : format) (a : arch) (fl : rflags) : out Z :=
  match f, fl with
  | FCoff, RFcoff typ => coff_reloc_size a typ
  | FElf, RFelf t => elf_reloc_size a t
  | FMachO, RFmacho _ _ len => macho_reloc_size len
  | FXcoff, RFxcoff _ rs => xcoff_reloc_size rs
  | _, _ => Err
  end.
Definition sec_write_addend (e : endian) (size offset addend : Z) (s : osec) : out unit * osec :=
  if is_bss (se_kind s) then (Panic, s) else
  let put n :=
    if (offset <=? zlen (se_data s)) && (n <=? zlen (se_data s) - offset)
    then (Ok tt, sec_with s (se_size s) (se_align s)
      (ztake offset (se_data s) ++ write_u e (Z.to_nat n) (wrap_u (8 * n) addend) ++ zdrop (offset + n) (se_data s)))
    else (Err, s) in
  if size =? 32 then put 4 else if size =? 64 then put 8 else (Err, s).
Definition o_write_addend (o : obj) (sec : Z) (r : orel) : out unit * obj :=
  match reloc_size (o_format o) (o_arch o) (ol_flags r) with
  | Ok size => on_section o sec (sec_write_addend (o_endian o) size (ol_offset r) (ol_addend r))
  | Err => (Err, o)
  | Panic => (Panic, o)
  end.
(** the adjusted addend and whether it is implicit (733-743, and the formats' [adjust_addend]) *)
Definition adjust_addend (f : format) (a : arch) (fl : rflags) (addend : Z) : out (Z * bool) :=
  match f, fl with
  | FCoff, RFcoff typ => v <- coff_adjust a typ addend ;; Ok (v, true)
  | FElf, _ => b <- elf_has_addend a ;; Ok (addend, negb b)
  | FMachO, RFmacho t pcrel _ => macho_adjust a t pcrel addend
  | FXcoff, RFxcoff t _ => v <- xcoff_adjust t addend ;; Ok (v, true)
  | _, _ => Err
  end.
(** 733-750: the rest of [add_relocation_internal] after the translation *)
Definition o_finish_reloc (o : obj) (sec : Z) (r : orel) : out unit * obj :=
  match adjust_addend (o_format o) (o_arch o) (ol_flags r) (ol_addend r) with
  | Ok (addend, implicit) =>
    let r := {| ol_offset := ol_offset r; ol_symbol := ol_symbol r; ol_sub := ol_sub r; ol_addend := addend; ol_flags := ol_flags r |} in
    if implicit && negb (addend =? 0) then
      do u, o <- o_write_addend o sec r ;;
      on_section o sec (fun s => (Ok tt, sec_push_reloc s
        {| ol_offset := ol_offset r; ol_symbol := ol_symbol r; ol_sub := ol_sub r; ol_addend := 0; ol_flags := ol_flags r |}))
    else on_section o sec (fun s => (Ok tt, sec_push_reloc s r))
  | Err => (Err, o)
  | Panic => (Panic, o)
  end.
Definition orel_with (r : orel) (symbol : Z) (sub : option Z) (addend : Z) (fl : rflags) : orel :=
  {| ol_offset := ol_offset r; ol_symbol := symbol; ol_sub := sub; ol_addend := addend; ol_flags := fl |}.
(** 718-751 [add_relocation_internal], for a relocation that needs no stub: the formats' [translate_relocation] *)
Definition o_add_reloc_plain (o : obj) (sec : Z) (r : orel) : out unit * obj :=
  match ol_flags r with
  | RFgeneric k enc size =>
    match o_format o with
    | FElf =>
      match elf_translate (o_arch o) (o_endian o) k enc size with
      | Ok t => o_finish_reloc o sec (orel_with r (ol_symbol r) (ol_sub r) (ol_addend r) (RFelf t))
      | Err => (Err, o) | Panic => (Panic, o)
      end
    | FCoff =>
      match coff_translate (o_arch o) k enc size (ol_addend r) with
      | Ok t => o_finish_reloc o sec (orel_with r (ol_symbol r) (ol_sub r) (ol_addend r) (RFcoff t))
      | Err => (Err, o) | Panic => (Panic, o)
      end
    | FXcoff =>
      match xcoff_translate k size with
      | Ok (t, rs) => o_finish_reloc o sec (orel_with r (ol_symbol r) (ol_sub r) (ol_addend r) (RFxcoff t rs))
      | Err => (Err, o) | Panic => (Panic, o)
      end
    | FMachO =>
      match macho_length (o_arch o) size, macho_type (o_arch o) k enc with
      | Ok _, Ok _ =>
        if macho_subtracts (o_arch o) k enc then
          do y, o <- o_section_symbol o sec ;;
          match macho_translate (o_arch o) k enc size (ol_offset r) (ol_addend r) with
          | Ok (t, pcrel, len, addend) => o_finish_reloc o sec (orel_with r (ol_symbol r) (Some y) addend (RFmacho t pcrel len))
          | Err => (Err, o) | Panic => (Panic, o)
          end
        else
          match macho_translate (o_arch o) k enc size (ol_offset r) (ol_addend r) with
          | Ok (t, pcrel, len, addend) => o_finish_reloc o sec (orel_with r (ol_symbol r) (ol_sub r) addend (RFmacho t pcrel len))
          | Err => (Err, o) | Panic => (Panic, o)
          end
      | _, _ => (Err, o)
      end
    end
  | _ => o_finish_reloc o sec r
  end.
(** src/write/coff/object.rs 360-401 [coff_add_stub_symbol] *)
Definition o_coff_stub (o : obj) (y : Z) : out Z * obj :=
  match lookup_id (o_stubs o) y with
  | Some id => (Ok id, o)
  | None =>
    match address_size (o_arch o) with
    | None => (Panic, o)
    | Some size =>
      let (sec, o) := o_add_section o [] (str ".rdata$.refptr") SKReadOnlyData in
      do u, o <- o_set_section_data o sec (zeros size) size ;;
      do u, o <- o_add_reloc_plain o sec {| ol_offset := 0; ol_symbol := y; ol_sub := None; ol_addend := 0;
        ol_flags := RFgeneric KAbsolute EGeneric (size * 8) |} ;;
      match zget (o_symbols o) y with
      | None => (Panic, o)
      | Some sy =>
        let (id, o) := o_add_raw o {| sy_name := str ".refptr." ++ sy_name sy; sy_value := 0; sy_size := size; sy_kind := YData;
          sy_scope := ScCompilation; sy_weak := false; sy_section := YSec sec; sy_flags := None |} in
        (Ok id, with_stubs o ((y, id) :: o_stubs o))
      end
    end
  end.
(** 718-751 [add_relocation_internal] *)
Definition o_add_reloc_internal (o : obj) (sec : Z) (r : orel) : out unit * obj :=
  match o_format o, ol_flags r with
  | FCoff, RFgeneric KGotRelative enc size =>
    do y, o <- o_coff_stub o (ol_symbol r) ;;
    o_add_reloc_plain o sec (orel_with r y (ol_sub r) (ol_addend r) (RFgeneric KGotRelative enc size))
  | _, _ => o_add_reloc_plain o sec r
  end.
(** 683-716 [add_relocation] and [add_relocation_with_subtractor] *)
Definition o_add_relocation (o : obj) (sec offset symbol addend : Z) (sub : option Z) (fl : rflags) : out unit * obj :=
  match sub, o_format o with
  | Some _, (FCoff | FElf | FXcoff) => (Err, o)
  | _, _ => o_add_reloc_internal o sec {| ol_offset := offset; ol_symbol := symbol; ol_sub := sub; ol_addend := addend; ol_flags := fl |}
  end.

(** src/write/macho/object.rs 205-224 [macho_tlv_bootstrap] *)
Definition o_tlv_bootstrap (o : obj) : out Z * obj :=
  match o_tlv o with
  | Some id => (Ok id, o)
  | None =>
    do id, o <- o_add_symbol o {| sy_name := str "_tlv_bootstrap"; sy_value := 0; sy_size := 0; sy_kind := YText; sy_scope := ScDynamic;
      sy_weak := false; sy_section := YUndefined; sy_flags := None |} ;;
    (Ok id, with_tlv o (Some id))
  end.
Definition set_sym (o : obj) (id value size : Z) (sec : ysec) : out unit * obj :=
  match zget (o_symbols o) id with
  | Some y => (Ok tt, with_symbols o (zset (o_symbols o) id (sym_at y value size sec)))
  | None => (Panic, o)
  end.
(** [.unwrap()] of a result *)
Definition unwrap_r {A S} (r : out A * S) : out A * S := match r with (Err, s) => (Panic, s) | _ => r end.
(** src/write/macho/object.rs 233-301 [macho_add_thread_var] *)
Definition o_add_thread_var (o : obj) (id : Z) : out Z * obj :=
  match zget (o_symbols o) id with
  | None => (Panic, o)
  | Some y =>
    match sy_kind y with
    | YTls =>
      let (init, o) := o_add_raw o {| sy_name := sy_name y ++ str "$tlv$init"; sy_value := 0; sy_size := 0; sy_kind := YTls;
        sy_scope := ScCompilation; sy_weak := false; sy_section := YUndefined; sy_flags := None |} in
      let (sec, o) := o_section_id o StTlsVariables in
      match address_size (o_arch o) with
      | None => (Panic, o)
      | Some asz =>
        do offset, o <- o_append o sec (zeros (asz * 3)) asz ;;
        do boot, o <- o_tlv_bootstrap o ;;
        do u, o <- unwrap_r (o_add_relocation o sec offset boot 0 None (RFgeneric KAbsolute EGeneric (asz * 8))) ;;
        do u, o <- unwrap_r (o_add_relocation o sec (offset + asz * 2) init 0 None (RFgeneric KAbsolute EGeneric (asz * 8))) ;;
        do u, o <- set_sym o id offset (asz * 3) (YSec sec) ;;
        (Ok init, o)
      end
    | _ => (Ok id, o)
    end
  end.
(** 645-663 [set_symbol_data] *)
Definition o_set_symbol_data (o : obj) (id sec offset size : Z) : out unit * obj :=
  match zget (o_symbols o) id with
  | None => (Panic, o)
  | Some y =>
    if scope_beq (sy_scope y) ScUnknown then (Panic, o) else
    do id, o <- match o_format o with FMachO => o_add_thread_var o id | _ => (Ok id, o) end ;;
    set_sym o id offset size (YSec sec)
  end.
(** 596-610 [add_symbol_data] *)
Definition o_add_symbol_data (o : obj) (id sec : Z) (data : bytes) (align : Z) : out Z * obj :=
  let data := if (zlen data =? 0) && o_subsections o then [0] else data in
  do offset, o <- o_append o sec data align ;;
  do u, o <- o_set_symbol_data o id sec offset (zlen data) ;;
  (Ok offset, o).
(** 624-638 [add_symbol_bss] *)
Definition o_add_symbol_bss (o : obj) (id sec size align : Z) : out Z * obj :=
  let size := if (size =? 0) && o_subsections o then 1 else size in
  do offset, o <- o_append_bss o sec size align ;;
  do u, o <- o_set_symbol_data o id sec offset size ;;
  (Ok offset, o).
