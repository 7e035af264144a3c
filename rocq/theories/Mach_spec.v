(** Specification vocabulary for Mach-O files, independent of the reader. *)
From Verif Require Export Mach_model File_spec Iter_spec Core_spec Ar_spec Trie_spec.

(** * Layout of the structures *)
Definition word (is64 : bool) (e : endian) (v : Z) : bytes := write_u e (if is64 then 8 else 4) v.
Definition mword_ok (is64 : bool) (v : Z) : Prop := 0 <= v < (if is64 then 2 ^ 64 else 2 ^ 32).
(** the file header, for the magic number of the format and byte order *)
Definition magic (is64 : bool) (e : endian) : Z :=
  match is64, e with true, Big => 0xfeedfacf | true, Little => 0xcffaedfe | false, Big => 0xfeedface | false, Little => 0xcefaedfe end.
Record mhdr := { mh_cpu : Z; mh_sub : Z; mh_file : Z; mh_n : Z; mh_sz : Z; mh_fl : Z }.
Definition mhdr_ok (h : mhdr) : Prop := u32_ok (mh_cpu h) /\ u32_ok (mh_sub h) /\ u32_ok (mh_file h) /\ u32_ok (mh_n h) /\ u32_ok (mh_sz h) /\ u32_ok (mh_fl h).
Definition mach_hdr (is64 : bool) (e : endian) (h : mhdr) (reserved : bytes) : bytes :=
  write_u Big 4 (magic is64 e) ++ write_u e 4 (mh_cpu h) ++ write_u e 4 (mh_sub h) ++ write_u e 4 (mh_file h) ++ write_u e 4 (mh_n h) ++
  write_u e 4 (mh_sz h) ++ write_u e 4 (mh_fl h) ++ reserved.
(** a segment command, without its sections *)
Definition mach_seg (is64 : bool) (e : endian) (size : Z) (g : mseg) : bytes :=
  write_u e 4 (if is64 then 0x19 else 1) ++ write_u e 4 size ++ g_name g ++ word is64 e (g_vmaddr g) ++ word is64 e (g_vmsize g) ++
  word is64 e (g_fileoff g) ++ word is64 e (g_filesize g) ++ write_u e 4 (g_maxprot g) ++ write_u e 4 (g_initprot g) ++ write_u e 4 (g_nsects g) ++
  write_u e 4 (g_flags g).
Definition seg_ok (is64 : bool) (g : mseg) : Prop :=
  zlen (g_name g) = 16 /\ bytes_ok (g_name g) /\ mword_ok is64 (g_vmaddr g) /\ mword_ok is64 (g_vmsize g) /\ mword_ok is64 (g_fileoff g) /\
  mword_ok is64 (g_filesize g) /\ u32_ok (g_maxprot g) /\ u32_ok (g_initprot g) /\ u32_ok (g_nsects g) /\ u32_ok (g_flags g).
(** a section header; only 64-bit files have the last field *)
Definition mach_sec (is64 : bool) (e : endian) (s : msec) : bytes :=
  x_sectname s ++ x_segname s ++ word is64 e (x_addr s) ++ word is64 e (x_size s) ++ write_u e 4 (x_offset s) ++ write_u e 4 (x_align s) ++
  write_u e 4 (x_reloff s) ++ write_u e 4 (x_nreloc s) ++ write_u e 4 (x_flags s) ++ write_u e 4 (x_reserved1 s) ++ write_u e 4 (x_reserved2 s) ++
  (if is64 then write_u e 4 (x_reserved3 s) else []).
Definition msec_ok (is64 : bool) (s : msec) : Prop :=
  zlen (x_sectname s) = 16 /\ bytes_ok (x_sectname s) /\ zlen (x_segname s) = 16 /\ bytes_ok (x_segname s) /\ mword_ok is64 (x_addr s) /\
  mword_ok is64 (x_size s) /\ u32_ok (x_offset s) /\ u32_ok (x_align s) /\ u32_ok (x_reloff s) /\ u32_ok (x_nreloc s) /\ u32_ok (x_flags s) /\
  u32_ok (x_reserved1 s) /\ u32_ok (x_reserved2 s) /\ (if is64 then u32_ok (x_reserved3 s) else x_reserved3 s = 0).
(** a symbol *)
Definition mach_nlist (is64 : bool) (e : endian) (n : nlist) : bytes :=
  write_u e 4 (n_strx n) ++ [n_type n] ++ [n_sect n] ++ write_u e 2 (n_desc n) ++ word is64 e (n_value n).
Definition nlist_ok (is64 : bool) (n : nlist) : Prop :=
  u32_ok (n_strx n) /\ 0 <= n_type n < 256 /\ 0 <= n_sect n < 256 /\ u16_ok (n_desc n) /\ mword_ok is64 (n_value n).

(** * Load commands: 32-bit command, 32-bit total size, and the rest of the command *)
Definition command (e : endian) (b : bytes) (cmd : Z) : Prop :=
  exists body, b = write_u e 4 cmd ++ write_u e 4 (zlen b) ++ body /\ u32_ok cmd /\ u32_ok (zlen b).
(** [D] is the commands [l], the first at offset [off], followed by [rest] *)
Inductive commands (e : endian) : Z -> list lcmd -> bytes -> bytes -> Prop :=
| cmds_nil off D : commands e off [] D D
| cmds_cons off c l D rest : command e (lc_data c) (lc_cmd c) -> lc_offset c = off -> commands e (off + zlen (lc_data c)) l D rest ->
    commands e off (c :: l) (lc_data c ++ D) rest.
Definition starts_command (e : endian) (D : bytes) : Prop := exists b cmd tl, D = b ++ tl /\ command e b cmd.
(** [l] is what can be read of [n] commands in [D]: all of them, or those before the first that is not a command *)
Definition readable (e : endian) (n off : Z) (D : bytes) (l : list lcmd) (complete : bool) : Prop :=
  exists rest, commands e off l D rest /\ if complete then zlen l = n else zlen l < n /\ ~ starts_command e rest.

(** * Files *)
(** the load commands of a file whose header is [h]: none if the table is not inside of the file *)
Definition table_size (is64 : bool) : Z := if is64 then 32 else 28.
Definition file_commands (is64 : bool) (e : endian) (F : bytes) (h : mhdr) (l : list lcmd) : Prop :=
  (exists D c, holds F (table_size is64) D /\ zlen D = mh_sz h /\ readable e (mh_n h) (table_size is64) D l c) \/
  (l = [] /\ mh_sz h <> 0 /\ zlen F < table_size is64 + mh_sz h).
(** a segment command: the segment, as many section headers as it says, and unused bytes *)
Definition is_seg (is64 : bool) (c : lcmd) : bool := lc_cmd c =? (if is64 then 0x19 else 1).
Definition segment_of (is64 : bool) (e : endian) (c : lcmd) (g : mseg) (secs : list msec) : Prop :=
  seg_ok is64 g /\ Forall (msec_ok is64) secs /\ zlen secs = g_nsects g /\
  exists tl, lc_data c = mach_seg is64 e (zlen (lc_data c)) g ++ concat (map (mach_sec is64 e) secs) ++ tl.
(** a symbol table command (2): file offset and number of symbols, file offset and size of the strings *)
Definition is_symtab (c : lcmd) : bool := lc_cmd c =? 2.
Definition symtab_of (is64 : bool) (e : endian) (F : bytes) (c : lcmd) (t : msymtab) : Prop :=
  exists symoff stroff strsize tl,
    lc_data c = write_u e 4 2 ++ write_u e 4 (zlen (lc_data c)) ++ write_u e 4 symoff ++ write_u e 4 (zlen (mt_symbols t)) ++ write_u e 4 stroff ++
      write_u e 4 strsize ++ tl /\
    u32_ok symoff /\ u32_ok (zlen (mt_symbols t)) /\ u32_ok stroff /\ u32_ok strsize /\ Forall (nlist_ok is64) (mt_symbols t) /\
    (mt_symbols t <> [] -> holds F symoff (concat (map (mach_nlist is64 e) (mt_symbols t)))) /\
    mt_strings t = (Some F, stroff, stroff + strsize).
(** File offsets of the sections of a segment.  They are taken from the headers, but they are only 32 bits wide: if the segment ends after
    2^32 - 1 then for a section with data it is the first offset after the data of the section before, or the start of the segment, that agrees with the
    header in the low 32 bits, and the data of the section must end in the segment.  (All offsets wrap at 2^64.) *)
Definition section_has_data (s : msec) : bool := match x_flags s mod 256 with 1 | 12 | 18 => false | _ => true end.
Inductive offsets (fin : Z) : Z -> list msec -> list Z -> Prop :=
| offs_nil prev : offsets fin prev [] []
| offs_none prev s l o os : section_has_data s = false -> o = x_offset s -> offsets fin prev l os -> offsets fin prev (s :: l) (o :: os)
| offs_data prev s l o os : section_has_data s = true -> prev <= o < prev + 2 ^ 32 -> o mod 2 ^ 32 = x_offset s -> (o mod 2 ^ 64 + x_size s) mod 2 ^ 64 <= fin ->
    offsets fin ((o mod 2 ^ 64 + x_size s) mod 2 ^ 64) l os -> offsets fin prev (s :: l) (o mod 2 ^ 64 :: os).
Definition segment_offsets (g : mseg) (l : list msec) (os : list Z) : Prop :=
  let fin := (g_fileoff g + g_filesize g) mod 2 ^ 64 in
  if fin <? 2 ^ 32 then os = map x_offset l else offsets fin (g_fileoff g) l os.
(** Kinds of sections.  In object files (file type 1) a section is read-only if it belongs to the __TEXT segment; in other files if its segment cannot be written at
    first (bit 1) or becomes read-only (segment flag bit 4). *)
Definition name_is (field : bytes) (s : string) : Prop := exists tl, field = str s ++ tl /\ (tl = [] \/ exists r, tl = 0 :: r).
Definition attr_debug := 25. Definition attr_pure := 31. Definition attr_some := 10.
Definition regular (t : Z) : Prop := t = 0 \/ t = 6 \/ t = 7 \/ t = 9 \/ t = 10 \/ t = 11 \/ t = 13 \/ t = 16 \/ t = 20 \/ t = 21 \/ t = 22.
Definition code (s : msec) : bool := Z.testbit (x_flags s) attr_pure || Z.testbit (x_flags s) attr_some.
Definition section_kind (h : mhdr) (g : mseg) (s : msec) (k : skind) : Prop :=
  let t := x_flags s mod 256 in
  let readonly := (if mh_file h =? 1 then name_is (x_segname s) "__TEXT" else Z.testbit (g_initprot g) 1 = false \/ Z.testbit (g_flags g) 4 = true) in
  let dwarf := name_is (x_segname s) "__DWARF" in
  let debug := Z.testbit (x_flags s) attr_debug = true in
  match k with
  | SKDebug => dwarf
  | SKUninitializedData => ~ dwarf /\ ~ debug /\ (t = 1 \/ t = 12)
  | SKReadOnlyString => ~ dwarf /\ ~ debug /\ t = 2
  | SKReadOnlyData => ~ dwarf /\ ~ debug /\ (t = 3 \/ t = 4 \/ t = 5 \/ t = 14 \/ regular t /\ code s = false /\ readonly)
  | SKText => ~ dwarf /\ ~ debug /\ (t = 8 \/ regular t /\ code s = true)
  | SKTls => ~ dwarf /\ ~ debug /\ t = 17
  | SKUninitializedTls => ~ dwarf /\ ~ debug /\ t = 18
  | SKTlsVariables => ~ dwarf /\ ~ debug /\ t = 19
  | SKData => ~ dwarf /\ ~ debug /\ regular t /\ code s = false /\ ~ readonly
  | SKUnknown => ~ dwarf /\ (debug \/ t = 15 \/ 22 < t)
  | _ => False
  end.
(** the sections of a segment as they are reported *)
Definition segment_sections (h : mhdr) (g : mseg) (secs : list msec) (xs : list msint) : Prop :=
  map xi_sec xs = secs /\ segment_offsets g secs (map xi_offset xs) /\ Forall (fun x => section_kind h g (xi_sec x) (xi_kind x)) xs.
(** [mach_of is64 F f]: the file [F] has the parts [f] *)
Definition mach_of (is64 : bool) (F : bytes) (f : mfile) : Prop :=
  exists h r l groups tabs,
    mhdr_ok h /\ zlen (mach_hdr is64 (mf_endian f) h r) = table_size is64 /\ holds F 0 (mach_hdr is64 (mf_endian f) h r) /\
    file_commands is64 (mf_endian f) F h l /\
    Forall2 (fun c x => exists secs, segment_of is64 (mf_endian f) c (fst x) secs /\ segment_sections h (fst x) secs (snd x)) (filter (is_seg is64) l) groups /\
    Forall2 (symtab_of is64 (mf_endian f) F) (filter is_symtab l) tabs /\
    mf_64 f = is64 /\ mf_header f = mach_hdr is64 (mf_endian f) h r /\ mf_segments f = map fst groups /\ mf_sections f = concat (map snd groups) /\
    mf_symbols f = last tabs msymtab_empty /\ mf_data f = F.

(** * Section offsets of a large file: sections with data in order of their true offsets [os], with gaps of less than 4 GB *)
Fixpoint in_order (prev fin : Z) (l : list (msec * Z)) : Prop :=
  match l with
  | [] => True
  | (s, o) :: l =>
    if section_has_data s then prev <= o /\ o - prev < 2 ^ 32 /\ o + x_size s <= fin /\ x_offset s = o mod 2 ^ 32 /\ in_order (o + x_size s) fin l
    else o = x_offset s /\ in_order prev fin l
  end.

(** * Names of sections: [query] finds [name] *)
Definition finds (query name : bytes) : Prop :=
  name = query \/
  (exists suffix, query = str "." ++ suffix /\ name = ztake 16 (str "__" ++ suffix)) \/
  (exists suffix, query = str ".debug_" ++ suffix /\ name = ztake 16 (str "__zdebug_" ++ suffix)).

(** the name in a field of 16 bytes: up to a null byte *)
Definition field_name (field name : bytes) : Prop := ~ In 0 name /\ (field = name \/ exists r, field = name ++ 0 :: r).
(** [x] is the first element with [P] *)
Definition is_first {A} (P : A -> Prop) (l : list A) (x : A) : Prop := exists a b, l = a ++ x :: b /\ P x /\ Forall (fun y => ~ P y) a.

(** * Function starts: differences in LEB128, up to a zero or the end ([complete]), or up to something else that cannot be read *)
Inductive deltas : Z -> bytes -> list Z -> bool -> Prop :=
| ds_end a : deltas a [] [] true
| ds_zero a x tl : uleb_bytes x 0 -> deltas a (x ++ tl) [] true
| ds_bad a D : D <> [] -> (forall x d tl, D = x ++ tl -> uleb_bytes x d -> 2 ^ 64 <= a + d) -> deltas a D [] false
| ds_more a x d tl l c : uleb_bytes x d -> d <> 0 -> a + d < 2 ^ 64 -> deltas (a + d) tl l c -> deltas a (x ++ tl) (a + d :: l) c.

(** * Symbols: those that are not debugging entries (any of bits 5 to 7 of the type), with their positions *)
Definition stab (n : nlist) : Prop := 32 <= n_type n.
Inductive non_stabs : Z -> list nlist -> list (Z * nlist) -> Prop :=
| nst_nil k : non_stabs k [] []
| nst_skip k n l r : stab n -> non_stabs (k + 1) l r -> non_stabs k (n :: l) r
| nst_take k n l r : ~ stab n -> non_stabs (k + 1) l r -> non_stabs k (n :: l) ((k, n) :: r).

(** * Object map: debugging entries of types SO (100), OSO (102), FUN (36), STSYM (38) *)
Definition sym_name (t : msymtab) (n : nlist) (name : bytes) : Prop := nlist_name t n = Ok name.
Definition object_start (t : msymtab) (n : nlist) (name : bytes) : Prop := n_type n = 102 /\ sym_name t n name /\ name <> [].
(** [path(member)], or just a path *)
Definition object_file (name : bytes) (f : omfile) : Prop :=
  (exists m, name = of_path f ++ str "(" ++ m ++ str ")" /\ ~ In 40 (of_path f) /\ of_member f = Some m) \/
  ((forall p m, name <> p ++ str "(" ++ m ++ str ")") /\ f = {| of_path := name; of_member := None |}).
Inductive object_files (t : msymtab) : list nlist -> list omfile -> Prop :=
| ofs_nil : object_files t [] []
| ofs_take n l name f r : object_start t n name -> object_file name f -> object_files t l r -> object_files t (n :: l) (f :: r)
| ofs_skip n l r : (forall name, ~ object_start t n name) -> object_files t l r -> object_files t (n :: l) r.
(** after the symbols [pre], the current object is number [k]: the last SO or OSO symbol is the start of that object *)
Definition current_object (t : msymtab) (pre : list nlist) (k : Z) : Prop :=
  exists a n b name fs, pre = a ++ n :: b /\ object_start t n name /\ Forall (fun m => n_type m <> 100 /\ n_type m <> 102) b /\ object_files t a fs /\ k = zlen fs.
(** ... and the function that was begun: the last FUN symbol (with a readable name) has a name *)
Definition open_function (t : msymtab) (pre : list nlist) (n : nlist) (name : bytes) : Prop :=
  exists a b, pre = a ++ n :: b /\ n_type n = 36 /\ sym_name t n name /\ name <> [] /\ Forall (fun m => ~ (n_type m = 36 /\ exists nm, sym_name t m nm)) b.
Definition map_entry (t : msymtab) (pre : list nlist) (n : nlist) (en : omentry) : Prop :=
  current_object t pre (oe_object en) /\
  ((n_type n = 38 /\ sym_name t n (oe_name en) /\ oe_address en = n_value n /\ oe_size en = 0) \/
   (n_type n = 36 /\ sym_name t n [] /\ exists m, open_function t pre m (oe_name en) /\ oe_address en = n_value m /\ oe_size en = n_value n)).
Inductive map_entries (t : msymtab) : list nlist -> list nlist -> list omentry -> Prop :=
| mes_nil pre : map_entries t pre [] []
| mes_take pre n l en r : map_entry t pre n en -> map_entries t (pre ++ [n]) l r -> map_entries t pre (n :: l) (en :: r)
| mes_skip pre n l r : (forall en, ~ map_entry t pre n en) -> map_entries t (pre ++ [n]) l r -> map_entries t pre (n :: l) r.

(** * Commands that are searched for: a UUID (0x1b); an entry point: the offset in LC_MAIN (0x80000028), or the program counter in the registers of
    LC_UNIXTHREAD (5), by CPU type: x86-64, ARM64, x86, ARM *)
Definition uuid_command (e : endian) (c : lcmd) (u : bytes) : Prop :=
  lc_cmd c = 0x1b /\ zlen u = 16 /\ exists tl, lc_data c = write_u e 4 0x1b ++ write_u e 4 (zlen (lc_data c)) ++ u ++ tl.
Definition pc_register (cpu : Z) : option (Z * nat) :=
  if cpu =? 0x1000007 then Some (16, 8%nat) else if cpu =? 0x100000c then Some (32, 8%nat) else if cpu =? 7 then Some (10, 4%nat) else if cpu =? 12 then Some (15, 4%nat) else None.
Definition entry_command (e : endian) (cpu : Z) (c : lcmd) (a : Z) : Prop :=
  (lc_cmd c = 0x80000028 /\ 0 <= a < 2 ^ 64 /\ exists stack tl, zlen stack = 8 /\
     lc_data c = write_u e 4 0x80000028 ++ write_u e 4 (zlen (lc_data c)) ++ write_u e 8 a ++ stack ++ tl) \/
  (lc_cmd c = 5 /\ exists n w flavor regs tl, pc_register cpu = Some (n, w) /\ zlen flavor = 8 /\ zlen regs = n * Z.of_nat w /\ 0 <= a < 2 ^ (8 * Z.of_nat w) /\
     lc_data c = write_u e 4 5 ++ write_u e 4 (zlen (lc_data c)) ++ flavor ++ regs ++ write_u e w a ++ tl).

(** * Indirect symbols of a section: the entries from [reserved1], one for each pointer (types 6, 7, 16, 20) or stub (type 8, of [reserved2] bytes) *)
Definition indirect_of (is64 : bool) (s : msec) (l : list Z) (r : list Z) : Prop :=
  let range n := exists a c, l = a ++ r ++ c /\ zlen a = x_reserved1 s /\ zlen r = x_size s / n in
  match x_flags s mod 256 with
  | 6 | 7 | 16 | 20 => range (if is64 then 8 else 4)
  | 8 => x_reserved2 s <> 0 /\ range (x_reserved2 s)
  | _ => r = []
  end.
