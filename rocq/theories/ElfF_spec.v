(** Specification of what the unified API must show of an ELF file, independent of the reader. *)
From Verif Require Export Core_spec.
From Verif Require Import Obj_model.
From Verif Require Export File_spec Iter_spec Note_spec Ver_spec ElfR_spec ElfF_model.

(** * The file header *)
(** [n] bytes at offset [o] of [F] as a number *)
Definition number_at (F : bytes) (e : endian) (o n : Z) (v : Z) : Prop := exists b, holds F o b /\ zlen b = n /\ v = read_u e b.
Definition elf_magic : bytes := [127; 69; 76; 70].
(** e_type *)
Inductive file_kind : Z -> fkind -> Prop :=
| fk_rel : file_kind 1 FRelocatable
| fk_exec : file_kind 2 FExecutable
| fk_dyn : file_kind 3 FDynamic
| fk_core : file_kind 4 FCore
| fk_other t : t <> 1 -> t <> 2 -> t <> 3 -> t <> 4 -> file_kind t FUnknown.

(** * Section kinds: flag bits are W 0, A 1, X 2, S 5, T 10 *)
Definition bit (x i : Z) : Prop := Z.testbit x i = true.
Definition metadata_types : list Z := [0; 2; 3; 4; 5; 6; 9; 11; 17; 18; 19; 1073741844].
Inductive section_kind (s : shdr) : skind -> Prop :=
| ek_text : sh_type s = 1 -> bit (sh_flags s) 1 -> bit (sh_flags s) 2 -> section_kind s SKText
| ek_tls : sh_type s = 1 -> bit (sh_flags s) 1 -> ~ bit (sh_flags s) 2 -> bit (sh_flags s) 10 -> section_kind s SKTls
| ek_data : sh_type s = 1 -> bit (sh_flags s) 1 -> ~ bit (sh_flags s) 2 -> ~ bit (sh_flags s) 10 -> bit (sh_flags s) 0 -> section_kind s SKData
| ek_rostring : sh_type s = 1 -> bit (sh_flags s) 1 -> ~ bit (sh_flags s) 2 -> ~ bit (sh_flags s) 10 -> ~ bit (sh_flags s) 0 ->
    bit (sh_flags s) 5 -> section_kind s SKReadOnlyString
| ek_rodata : sh_type s = 1 -> bit (sh_flags s) 1 -> ~ bit (sh_flags s) 2 -> ~ bit (sh_flags s) 10 -> ~ bit (sh_flags s) 0 ->
    ~ bit (sh_flags s) 5 -> section_kind s SKReadOnlyData
| ek_string : sh_type s = 1 -> ~ bit (sh_flags s) 1 -> bit (sh_flags s) 5 -> section_kind s SKOtherString
| ek_other : sh_type s = 1 -> ~ bit (sh_flags s) 1 -> ~ bit (sh_flags s) 5 -> section_kind s SKOther
| ek_tbss : sh_type s = 8 -> bit (sh_flags s) 10 -> section_kind s SKUninitializedTls
| ek_bss : sh_type s = 8 -> ~ bit (sh_flags s) 10 -> section_kind s SKUninitializedData
| ek_note : sh_type s = 7 -> section_kind s SKNote
| ek_meta : In (sh_type s) metadata_types -> section_kind s SKMetadata
| ek_unknown : sh_type s <> 1 -> sh_type s <> 7 -> sh_type s <> 8 -> ~ In (sh_type s) metadata_types -> section_kind s SKUnknown.

(** Section [i] is the first one whose name can be read and is [name]. *)
Definition first_named (t : sectab) (name : bytes) (i : Z) (s : shdr) : Prop :=
  zget (stab_sections t) i = Some s /\ section_name t s = Ok name /\
  forall j s', zget (stab_sections t) j = Some s' -> j < i -> section_name t s' <> Ok name.
Definition none_named (t : sectab) (name : bytes) : Prop := forall s, In s (stab_sections t) -> section_name t s <> Ok name.

(** * Symbols.  The low four bits of st_info are the type, the high four the binding; the low two bits of st_other
    are the visibility. *)
Definition s_type (s : sym) : Z := st_info s mod 16.
Definition s_bind (s : sym) : Z := st_info s / 16.
Definition s_vis (s : sym) : Z := st_other s mod 4.
Inductive symbol_kind (s : sym) : symkind -> Prop :=
| yk_data : s_type s = 1 \/ s_type s = 5 -> symbol_kind s YData
| yk_text : s_type s = 2 \/ s_type s = 10 -> symbol_kind s YText
| yk_section : s_type s = 3 -> symbol_kind s YSection
| yk_file : s_type s = 4 -> symbol_kind s YFile
| yk_tls : s_type s = 6 -> symbol_kind s YTls
| yk_unknown : ~ In (s_type s) [1; 2; 3; 4; 5; 6; 10] -> symbol_kind s YUnknown.
(** The section of symbol number [i], with the extended indices [xs]. *)
Inductive symbol_in (xs : list Z) (i : Z) (s : sym) : rsec -> Prop :=
| yi_undefined : st_shndx s = 0 -> symbol_in xs i s RUndefined
| yi_absolute : st_shndx s = 65521 -> s_type s <> 4 -> symbol_in xs i s RAbsolute
| yi_file : st_shndx s = 65521 -> s_type s = 4 -> symbol_in xs i s RNone
| yi_common : st_shndx s = 65522 -> symbol_in xs i s RCommon
| yi_small : 0 < st_shndx s < 65280 -> symbol_in xs i s (RSection (st_shndx s))
| yi_extended n : st_shndx s = 65535 -> zget xs i = Some n -> n <> 0 -> symbol_in xs i s (RSection n)
| yi_extended_none : st_shndx s = 65535 -> zget xs i = Some 0 -> symbol_in xs i s RNone
| yi_missing : st_shndx s = 65535 -> zget xs i = None -> symbol_in xs i s RUnknown
| yi_reserved : 65280 <= st_shndx s < 65535 -> st_shndx s <> 65521 -> st_shndx s <> 65522 -> symbol_in xs i s RUnknown.
Inductive symbol_scope (s : sym) : scope -> Prop :=
| yc_undefined : st_shndx s = 0 -> symbol_scope s ScUnknown
| yc_local : st_shndx s <> 0 -> s_bind s = 0 -> symbol_scope s ScCompilation
| yc_hidden : st_shndx s <> 0 -> s_bind s = 1 \/ s_bind s = 2 -> s_vis s = 2 -> symbol_scope s ScLinkage
| yc_dynamic : st_shndx s <> 0 -> s_bind s = 1 \/ s_bind s = 2 -> s_vis s <> 2 -> symbol_scope s ScDynamic
| yc_other : st_shndx s <> 0 -> ~ In (s_bind s) [0; 1; 2] -> symbol_scope s ScUnknown.
(** A definition: in a section, and a function, an object or untyped; a local untyped symbol whose name starts with
    a dollar sign is a mapping symbol instead. *)
Definition defines (t : symtab) (s : sym) : Prop :=
  (0 < st_shndx s < 65280 \/ st_shndx s = 65535) /\ (s_type s = 0 \/ s_type s = 1 \/ s_type s = 2) /\
  ~ (s_type s = 0 /\ s_bind s = 0 /\ exists rest, symbol_name t s = Ok (36 :: rest)).
Definition sym_ok (s : sym) : Prop := 0 <= st_info s < 256 /\ 0 <= st_other s < 256 /\ u16_ok (st_shndx s).

(** * COMDAT groups *)
(** A COMDAT group section: type 17, and its data is a word with bit 0 set, followed by the members *)
Definition is_comdat (e : endian) (F : bytes) (s : shdr) (members : list Z) : Prop :=
  sh_type s = 17 /\ exists d flag, sh_data s F = Ok d /\ d = write_u e 4 flag ++ concat (map (write_u e 4) members) /\
    u32_ok flag /\ bit flag 0 /\ Forall u32_ok members.

(** * Build id and debug links *)
(** The areas that hold notes: the note sections if there is a section table, otherwise the note segments, each given
    by the result of reading its data, and its alignment *)
Definition note_areas (f : efile) (F : bytes) : list (out bytes * Z) :=
  match stab_sections (ef_sections f) with
  | [] => map (fun p => (ph_data p F, p_align p)) (filter (fun p => p_type p =? 4) (ef_segments f))
  | l => map (fun s => (sh_data s F, sh_addralign s)) (filter (fun s => sh_type s =? 7) l)
  end.
(** Padded to 4 bytes unless the alignment is 8 *)
Definition area_align (a al : Z) : Prop := a <= 4 /\ al = 4 \/ a = 8 /\ al = 8.
Definition is_build_id (n : note_view) : Prop := v_type n = 3 /\ exists k, Note_spec.v_name n = str "GNU" ++ zeros k.
(** An area without a build id: all of it is notes, and none is a build id *)
Definition no_build_id (e : endian) (x : out bytes * Z) : Prop :=
  exists d al l, fst x = Ok d /\ area_align (snd x) al /\ notes_data e al l d /\ Forall (fun n => ~ is_build_id n) l.
(** An area whose first build id is [id]; anything may follow *)
Definition area_build_id (e : endian) (x : out bytes * Z) (id : bytes) : Prop :=
  exists d al l n post, fst x = Ok d /\ area_align (snd x) al /\ notes_then e al post l d /\ Forall (fun n => ~ is_build_id n) l /\
    is_build_id n /\ v_desc n = id /\ exists b tl, post = b ++ tl /\ note_body e al n b.
Definition build_id_of (f : efile) (F : bytes) (id : bytes) : Prop :=
  exists a x c, note_areas f F = a ++ x :: c /\ Forall (no_build_id (ef_endian f)) a /\ area_build_id (ef_endian f) x id.
(** The contents of [.gnu_debuglink]: name, null, padding to a multiple of 4, checksum; anything may follow *)
Definition debuglink (e : endian) (d name : bytes) (crc : Z) : Prop :=
  ~ In 0 name /\ u32_ok crc /\ exists pad tl, d = name ++ [0] ++ pad ++ write_u e 4 crc ++ tl /\ zlen pad < 4 /\ (4 | zlen name + 1 + zlen pad).
(** and of [.gnu_debugaltlink]: name, null, build id *)
Definition debugaltlink (d name id : bytes) : Prop := ~ In 0 name /\ d = name ++ [0] ++ id.

(** * Compressed sections *)
(** UTF-8: the encoding of a scalar value *)
Definition scalar (c : Z) : Prop := 0 <= c < 55296 \/ 57344 <= c < 1114112.
Definition utf8_char (c : Z) : bytes :=
  if c <? 128 then [c]
  else if c <? 2048 then [192 + c / 64; 128 + c mod 64]
  else if c <? 65536 then [224 + c / 4096; 128 + c / 64 mod 64; 128 + c mod 64]
  else [240 + c / 262144; 128 + c / 4096 mod 64; 128 + c / 64 mod 64; 128 + c mod 64].
Definition utf8 (b : bytes) : Prop := exists cs, Forall scalar cs /\ b = concat (map utf8_char cs).
(** A section in the ELF format: flag bit 11, and a header that gives the format and the uncompressed size *)
Definition elf_compressed (is64 : bool) (e : endian) (F : bytes) (s : shdr) (c : crange) : Prop :=
  bit (sh_flags s) 11 /\ sh_type s <> 8 /\
  exists ty size h, holds F (sh_offset s) h /\ zlen h = chdr_size is64 /\ number_at h e 0 4 ty /\
    (if is64 then number_at h e 8 8 size else number_at h e 4 4 size) /\ zlen h <= sh_size s /\
    (ty = 1 /\ cg_format c = CFZlib \/ ty = 2 /\ cg_format c = CFZstd) /\
    cg_offset c = sh_offset s + zlen h /\ cg_size c = sh_size s - zlen h /\ cg_uncompressed c = size.
(** A section in the GNU format: its name starts with [.zdebug_], and its data with [ZLIB] and the uncompressed size in
    8 bytes, big endian, of which the first four are zero *)
Definition gnu_format (f : efile) (F : bytes) (s : shdr) (c : crange) : Prop :=
  ~ bit (sh_flags s) 11 /\ sh_type s <> 8 /\ (exists rest, section_name (ef_sections f) s = Ok (str ".zdebug_" ++ rest) /\ utf8 (str ".zdebug_" ++ rest)) /\
  u32_ok (cg_uncompressed c) /\ holds F (sh_offset s) (str "ZLIB" ++ write_u Big 8 (cg_uncompressed c)) /\ 12 <= sh_size s /\
  cg_format c = CFZlib /\ cg_offset c = sh_offset s + 12 /\ cg_size c = sh_size s - 12.
(** A section that is not compressed *)
Definition uncompressed (f : efile) (s : shdr) (c : crange) : Prop :=
  ~ bit (sh_flags s) 11 /\ ~ (exists rest, section_name (ef_sections f) s = Ok (str ".zdebug_" ++ rest) /\ utf8 (str ".zdebug_" ++ rest)) /\
  cg_format c = CFNone /\
  if sh_type s =? 8 then cg_offset c = 0 /\ cg_size c = 0 /\ cg_uncompressed c = 0
  else cg_offset c = sh_offset s /\ cg_size c = sh_size s /\ cg_uncompressed c = sh_size s.

(** * Imports and exports *)
(** The version of symbol number [i]: without a table there is none; [v] otherwise *)
Definition version_of (vs : option vtable) (i : Z) (v : option version) : Prop :=
  match vs with None => v = None | Some t => vt_version t (match zget (vt_symbols t) i with Some x => x mod 2 ^ 15 | None => 1 end) = Ok v end.
Definition version_hidden (vs : option vtable) (i : Z) (h : bool) : Prop :=
  match vs with None => h = false | Some t => h = match zget (vt_symbols t) i with Some x => Z.testbit x 15 | None => false end end.
(** What symbol number [i] contributes to the imports: nothing, an error ([None]), or an import *)
Inductive import_at (vs : option vtable) (t : symtab) (i : Z) (s : sym) : list (option import) -> Prop :=
| ia_defined : st_shndx s <> 0 -> import_at vs t i s []
| ia_unnamed : st_shndx s = 0 -> symbol_name t s = Ok [] -> import_at vs t i s []
| ia_badname : st_shndx s = 0 -> symbol_name t s = Err -> import_at vs t i s [None]
| ia_badversion name : st_shndx s = 0 -> symbol_name t s = Ok name -> name <> [] -> (forall v, ~ version_of vs i v) -> import_at vs t i s [None]
| ia_import im v : st_shndx s = 0 -> symbol_name t s = Ok (im_name im) -> im_name im <> [] -> version_of vs i v ->
    im_version im = option_map v_name v -> im_library im = match v with Some v => match v_file v with Some l => l | None => [] end | None => [] end ->
    (im_weak im = true <-> s_bind s = 2) -> im_info im = st_info s -> im_other im = st_other s -> import_at vs t i s [Some im].
(** The target of an export *)
Inductive exported (s : sym) : xtarget -> Prop :=
| et_address : s_bind s <> 0 -> 0 < st_shndx s < 65280 \/ st_shndx s = 65535 -> In (s_type s) [0; 1; 2] -> exported s (XAddress (st_value s))
| et_absolute : s_bind s <> 0 -> st_shndx s = 65521 -> In (s_type s) [0; 1; 2] -> exported s (XAbsolute (st_value s))
| et_tls : s_bind s <> 0 -> 0 < st_shndx s < 65280 \/ st_shndx s = 65535 \/ st_shndx s = 65521 -> s_type s = 6 -> exported s (XTls (st_value s))
| et_resolver : s_bind s <> 0 -> 0 < st_shndx s < 65280 \/ st_shndx s = 65535 \/ st_shndx s = 65521 -> s_type s = 10 -> exported s (XResolver (st_value s)).
Inductive export_at (vs : option vtable) (t : symtab) (i : Z) (s : sym) : list (option export) -> Prop :=
| xa_skip : (forall x, ~ exported s x) -> export_at vs t i s []
| xa_badname x : exported s x -> symbol_name t s = Err -> export_at vs t i s [None]
| xa_badversion x name : exported s x -> symbol_name t s = Ok name -> (forall v, ~ version_of vs i v) -> export_at vs t i s [None]
| xa_export ex v : exported s (ex_target ex) -> symbol_name t s = Ok (ex_name ex) -> version_of vs i v -> ex_version ex = option_map v_name v ->
    version_hidden vs i (ex_hidden ex) -> (ex_weak ex = true <-> s_bind s = 2) -> ex_info ex = st_info s -> ex_other ex = st_other s ->
    export_at vs t i s [Some ex].
(** The symbols after the null symbol, with their indices *)
Definition numbered (t : symtab) : list (Z * sym) := tl (combine (map Z.of_nat (seq 0 (length (smt_symbols t)))) (smt_symbols t)).
(** The version table of the file: the first section of type [ty] *)
Definition first_of_type (t : sectab) (ty : Z) (o : option shdr) : Prop :=
  match o with
  | Some s => exists a c, stab_sections t = a ++ s :: c /\ sh_type s = ty /\ Forall (fun h => sh_type h <> ty) a
  | None => Forall (fun h => sh_type h <> ty) (stab_sections t)
  end.
(** The groups among some sections, in order *)
Inductive groups (e : endian) (F : bytes) : list shdr -> list (shdr * list Z) -> Prop :=
| gr_nil : groups e F [] []
| gr_group s m l r : is_comdat e F s m -> groups e F l r -> groups e F (s :: l) ((s, m) :: r)
| gr_other s l r : (forall m, ~ is_comdat e F s m) -> groups e F l r -> groups e F (s :: l) r.
(** The data of the first section of a type; none if there is no such section *)
Definition data_of_type (t : sectab) (F : bytes) (ty : Z) (o : option bytes) : Prop :=
  match o with None => first_of_type t ty None | Some d => exists h, first_of_type t ty (Some h) /\ sh_data h F = Ok d end.
(** The version table: the version indices of the symbols, and the versions with their indices.  Section types:
    0x6fffffff (indices), 0x6ffffffd (definitions), 0x6ffffffe (needs); the names are strings of the symbol table that the first is linked to *)
Definition version_tables (is64 : bool) (e : endian) (F : bytes) (t : sectab) (syms : list Z) (l : list (Z * version)) : Prop :=
  exists h st defs needs, first_of_type t 1879048191 (Some h) /\ sh_data h F = Ok (concat (map (write_u e 2) syms)) /\ Forall u16_ok syms /\
    symtab_by_index is64 e F t (sh_link h) = Ok st /\ data_of_type t F 1879048189 defs /\ data_of_type t F 1879048190 needs /\
    table_entries e defs needs (stb_get (smt_strings st)) l.
