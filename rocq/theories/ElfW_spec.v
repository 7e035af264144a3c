(** Specification for the two-phase ELF writer: which write calls match the reserve calls, and what the file must then hold. *)
From Verif Require Export ElfW_model File_spec.

(** * The order of the calls of phase 1 *)
(** the parts of the file that can be reserved only once *)
Inductive part := PSegments | PSections | PTable (s : slot).
Definition part_of (c : rcmd) : option part :=
  match c with
  | RProgramHeaders _ => Some PSegments
  | RSectionHeaders => Some PSections
  | RSymtab s => Some (PTable s)
  | RStrings s => Some (PTable s)
  | RShndx => Some (PTable SShndx)
  | RDynamic _ => Some (PTable SDynamic)
  | RHash _ _ => Some (PTable SHash)
  | RGnuHash _ _ _ => Some (PTable SGnuHash)
  | RVersym => Some (PTable SVersym)
  | RVerdef _ _ => Some (PTable SVerdef)
  | RVerneed _ _ => Some (PTable SVerneed)
  | RAttributes _ => Some (PTable SAttributes)
  | _ => None
  end.
Definition parts_of (cs : list rcmd) : list part := flat_map (fun c => match part_of c with Some p => [p] | None => [] end) cs.
(** the symbol table in which the call reserves an entry *)
Definition symbol_of (c : rcmd) : option slot :=
  match c with RNullSymbol s => Some s | RSymbol _ => Some SSymtab | RDynSymbol => Some SDynsym | _ => None end.
(** the number of symbols reserved, without the null symbol *)
Definition symbols (s : slot) (cs : list rcmd) : Z :=
  zlen (filter (fun c => match c with RSymbol _ => slot_beq s SSymtab | RDynSymbol => slot_beq s SDynsym | _ => false end) cs).
(** the section headers reserved, in order: [Some s] for the section of a table *)
Definition headers (cs : list rcmd) : list (option slot) :=
  flat_map (fun c => match c with RSection => [None] | RIndex s => [Some s] | _ => [] end) cs.
(** the API takes only these tables in these calls *)
Definition call_ok (c : rcmd) : Prop :=
  match c with
  | RRange len al => 0 <= len /\ (0 <= al <= 1 \/ exists k, 0 <= k < 64 /\ al = 2 ^ k)
  | RUntil off => 0 <= off < 2 ^ 64
  | RProgramHeaders n => 0 <= n < 2 ^ 32
  | RAdd s name => In s [SShstrtab; SStrtab; SDynstr] /\ bytes_ok name
  | RStrings s => In s [SShstrtab; SStrtab; SDynstr]
  | RRequire s => In s [SStrtab; SShndx; SDynstr]
  | RNullSymbol s | RSymtab s => In s [SSymtab; SDynsym]
  | RHash b n => 0 <= b < 2 ^ 32 /\ 0 <= n < 2 ^ 32
  | RGnuHash l b n => 0 <= l < 2 ^ 32 /\ 0 <= b < 2 ^ 32 /\ 0 <= n < 2 ^ 32
  | RVerdef n aux | RVerneed n aux => 0 <= n < 2 ^ 16 /\ 0 <= aux
  | RDynamic n | RAttributes n | RRelocations n _ | RComdat n => 0 <= n
  | _ => True
  end.
(** The documented order: the file header comes first; each part is reserved at most once; symbols are reserved before their table and
    before .symtab_shndx, which comes after .symtab and must be known to be needed by then; section names are added before .shstrtab is
    reserved, which must happen if a table has a section header. *)
Record in_order (cs : list rcmd) : Prop := {
  io_calls : Forall call_ok cs;
  io_few : zlen cs < 2 ^ 32;
  io_once : NoDup (parts_of cs);
  io_header : forall a b, cs = a ++ RFileHeader :: b -> a = [];
  io_symtab : forall a s b, cs = a ++ RSymtab s :: b -> Forall (fun c => symbol_of c <> Some s) b;
  io_shndx : forall a b, cs = a ++ RShndx :: b ->
    In (RSymtab SSymtab) a /\ Forall (fun c => symbol_of c <> Some SSymtab /\ c <> RRequire SShndx) b /\ symbols SSymtab a < 2 ^ 30 - 1;
  io_shstrtab : forall a b, cs = a ++ RStrings SShstrtab :: b -> Forall (fun c => forall s, c <> RIndex s) b;
  io_names : forall s, In (RIndex s) cs -> In (RStrings SShstrtab) cs
}.
(** The tables that the writer insists on having a section. *)
Definition named (s : slot) : bool := match s with SShstrtab | SStrtab | SDynstr => false | _ => true end.

(** * Matching write calls *)
(** the entries of a version definition section: a definition with the names that follow its own, or a shared one *)
Inductive verdef_calls (e : endian) : list wcmd -> Z -> Z -> Prop :=
| vd_nil : verdef_calls e [] 0 0
| vd_def d names ws n aux : wd_aux_count d = 1 + zlen names -> verdef_calls e ws n aux ->
    verdef_calls e (WVerdef d :: map WVerdaux names ++ ws) (n + 1) (aux + wd_aux_count d)
| vd_shared d ws n aux : wd_aux_count d <> 0 -> 0 < n -> verdef_calls e ws n aux -> verdef_calls e (WVerdefShared d :: ws) (n + 1) aux.
Inductive verneed_calls (e : endian) : list wcmd -> Z -> Z -> Prop :=
| vn_nil : verneed_calls e [] 0 0
| vn_need d l ws n aux : wn_aux_count d = zlen l -> verneed_calls e ws n aux ->
    verneed_calls e (WVerneed d :: map WVernaux l ++ ws) (n + 1) (aux + wn_aux_count d).
(** a section header call, and the bytes of the header; [nm s o] says that [o] is acceptable as the offset of the name of the section of [s] *)
Inductive header_call (nm : slot -> Z -> Prop) (R : rst) : option slot -> wcmd -> bytes -> Prop :=
| hc_any h : header_call nm R None (WSectionHeader h) (enc_shdr (r_is64 R) (r_end R) h)
| hc_slot s addr n name : u32_ok name -> nm s name -> header_call nm R (Some s) (WSlotHeader s addr n) (enc_shdr (r_is64 R) (r_end R) (slot_header R s name addr n)).
Record across := { x_mips64el : bool; x_shndx : bytes }.
(** the extended index of a symbol: that of the encoder or 0 *)
Definition xindex_bytes (R : rst) (y : wsym) : bytes :=
  write_u (r_end R) 4 (match snd (enc_sym (r_is64 R) (r_end R) y) with Some n => n | None => 0 end).
(** [block nm R x a c v ws d]: after the calls [a] the reserve call [c] returned [v], and the write calls [ws] match it and must write [d] at
    [v].  [R] is the state after phase 1; [x] has what depends on other calls: whether relocations are written in the layout of 64-bit
    little endian MIPS, and the extended section index of every symbol of .symtab. *)
Inductive block (nm : slot -> Z -> Prop) (R : rst) (x : across) (a : list rcmd) : rcmd -> Z -> list wcmd -> bytes -> Prop :=
| b_range len al v d : zlen d = len -> block nm R x a (RRange len al) v [WAlign al; WData d] d
| b_until off v : block nm R x a (RUntil off) v [WUntil off] []
| b_file_header v h d : x_mips64el x = (r_is64 R && (match r_end R with Little => true | Big => false end) && (fh_machine h =? 8)) -> enc_file_header (r_is64 R) (r_end R) h (w_layout R) = Ok d -> (r_is64 R = false -> r_len R < 2 ^ 32) ->
    block nm R x a RFileHeader v [WFileHeader h] d
| b_segments v ps : block nm R x a (RProgramHeaders (zlen ps)) v (WAlignProgramHeaders :: map WProgramHeader ps) (concat (map (enc_phdr (r_is64 R) (r_end R)) ps))
| b_no_sections v : v = 0 -> block nm R x a RSectionHeaders v [WNullSectionHeader] []
| b_sections v ws ds : v <> 0 -> zlen ws = zlen (headers a) -> zlen ds = zlen (headers a) ->
    (forall i h w d, zget (headers a) i = Some h -> zget ws i = Some w -> zget ds i = Some d -> header_call nm R h w d) ->
    block nm R x a RSectionHeaders v (WNullSectionHeader :: ws) (enc_null_shdr (r_is64 R) (r_end R) (w_layout R) ++ concat ds)
| b_no_strings s v : v = 0 -> block nm R x a (RStrings s) v [WStrings s] []
| b_strings s v : v <> 0 -> block nm R x a (RStrings s) v [WStrings s] (r_data R s)
| b_no_symtab s v : v = 0 -> (s = SSymtab -> x_shndx x = []) -> block nm R x a (RSymtab s) v [WNullSymbol s] []
| b_symtab s v ys : v <> 0 -> zlen ys = symbols s a -> (s = SSymtab -> x_shndx x = write_u (r_end R) 4 0 ++ concat (map (xindex_bytes R) ys)) ->
    block nm R x a (RSymtab s) v (WNullSymbol s :: map (WSymbol s) ys)
      (enc_null_sym (r_is64 R) ++ concat (map (fun y => fst (enc_sym (r_is64 R) (r_end R) y)) ys))
| b_no_shndx v : v = 0 -> block nm R x a RShndx v [WSymtabShndx] []
| b_shndx v : v <> 0 -> block nm R x a RShndx v [WSymtabShndx] (x_shndx x)
| b_dynamic v ds bs : Forall2 (fun d b => enc_dyn (r_is64 R) (r_end R) d = Ok b) ds bs ->
    block nm R x a (RDynamic (zlen ds)) v (WAlignDynamic :: map WDynamic ds) (concat bs)
| b_hash v n m h d : hash_table (r_end R) n m h = Ok d -> block nm R x a (RHash n m) v [WHash n m h] d
| b_gnu_hash v g h d : gnu_hash_table (r_is64 R) (r_end R) g h = Ok d ->
    block nm R x a (RGnuHash (gd_bloom_count g) (gd_bucket_count g) (gd_symbol_count g)) v [WGnuHash g h] d
| b_no_versym v : v = 0 -> block nm R x a RVersym v [WNullVersym] []
| b_versym v l : v <> 0 -> zlen l = symbols SDynsym a -> block nm R x a RVersym v (WNullVersym :: map WVersym l) (write_u (r_end R) 2 0 ++ concat (map (write_u (r_end R) 2) l))
| b_verdef v n aux ws d : verdef_calls (r_end R) ws n aux -> zlen d = 20 * n + 8 * aux -> block nm R x a (RVerdef n aux) v (WAlignVer SVerdef :: ws) d
| b_verneed v n aux ws d : verneed_calls (r_end R) ws n aux -> zlen d = 16 * n + 16 * aux -> block nm R x a (RVerneed n aux) v (WAlignVer SVerneed :: ws) d
| b_attributes v d : block nm R x a (RAttributes (zlen d)) v [WAttributes d] d
| b_relocations v is_rela l : block nm R x a (RRelocations (zlen l) is_rela) v (WAlignRelocation :: map (WRelocation is_rela) l)
    (concat (map (enc_rel (r_is64 R) is_rela (r_end R) (x_mips64el x)) l))
| b_comdat v l : block nm R x a (RComdat (zlen l)) v (WComdatHeader :: map WComdatEntry l) (write_u (r_end R) 4 1 ++ concat (map (write_u (r_end R) 4) l))
| b_other c v : part_of c = None -> match c with RRange _ _ | RUntil _ | RFileHeader | RRelocations _ _ | RComdat _ => False | _ => True end ->
    block nm R x a c v [] [].
(** the same for a sequence of reserve calls, made after the calls [a] *)
Inductive blocks (nm : slot -> Z -> Prop) (R : rst) (x : across) : list rcmd -> list rcmd -> list Z -> list wcmd -> list bytes -> Prop :=
| bs_nil a : blocks nm R x a [] [] [] []
| bs_cons a c cs v vs w ws d ds : block nm R x a c v w d -> blocks nm R x (a ++ [c]) cs vs ws ds ->
    blocks nm R x a (c :: cs) (v :: vs) (w ++ ws) (d :: ds).

(** * The file *)
(** [lays pos vs ds F]: the bytes [F], which begin at the file offset [pos], consist of the data [ds], each at its offset in [vs], in this
    order, with zeros between them. *)
Inductive lays : Z -> list Z -> list bytes -> bytes -> Prop :=
| lays_nil pos : lays pos [] [] []
| lays_skip pos v vs ds F : lays pos vs ds F -> lays pos (v :: vs) ([] :: ds) F
| lays_put pos v vs d ds F : pos <= v -> lays (v + zlen d) vs ds F -> lays pos (v :: vs) (d :: ds) (zeros (v - pos) ++ d ++ F).
(** the name of the section of [s] is at [o] in the section name table *)
Definition name_at (R : rst) (s : slot) (o : Z) : Prop := string_at (r_data R SShstrtab) o (slot_name s).
(** the program headers and the section header calls among the write calls *)
Definition segment_calls (ws : list wcmd) : list phdr := flat_map (fun w => match w with WProgramHeader p => [p] | _ => [] end) ws.
Definition header_calls (ws : list wcmd) : list wcmd :=
  flat_map (fun w => match w with WSectionHeader _ | WSlotHeader _ _ _ => [w] | _ => [] end) ws.
(** [h] is the header that the call must write; a table's section is named through .shstrtab *)
Definition header_written (R : rst) (w : wcmd) (h : shdr) : Prop :=
  match w with
  | WSectionHeader h' => h = h'
  | WSlotHeader s addr n => exists name, u32_ok name /\ name_at R s name /\ h = slot_header R s name addr n
  | _ => False
  end.

(** * The sections of the tables *)
(** SHT_STRTAB, SHT_SYMTAB, SHT_SYMTAB_SHNDX, SHT_DYNSYM, SHT_DYNAMIC, SHT_HASH and the GNU types *)
Definition table_type (s : slot) : Z :=
  match s with
  | SShstrtab | SStrtab | SDynstr => 3 | SSymtab => 2 | SShndx => 18 | SDynsym => 11 | SDynamic => 6 | SHash => 5
  | SGnuHash => 0x6ffffff6 | SVersym => 0x6fffffff | SVerdef => 0x6ffffffd | SVerneed => 0x6ffffffe | SAttributes => 0x6ffffff5
  end.
Definition table_name (s : slot) : bytes :=
  match s with
  | SShstrtab => str ".shstrtab" | SStrtab => str ".strtab" | SDynstr => str ".dynstr" | SSymtab => str ".symtab" | SShndx => str ".symtab_shndx"
  | SDynsym => str ".dynsym" | SDynamic => str ".dynamic" | SHash => str ".hash" | SGnuHash => str ".gnu.hash" | SVersym => str ".gnu.version"
  | SVerdef => str ".gnu.version_d" | SVerneed => str ".gnu.version_r" | SAttributes => str ".gnu.attributes"
  end.
(** the size of an entry, 0 for sections without entries of a fixed size *)
Definition table_entry (is64 : bool) (s : slot) : Z :=
  match s with
  | SSymtab | SDynsym => if is64 then 24 else 16 | SDynamic => if is64 then 16 else 8 | SHash | SShndx => 4 | SVersym => 2
  | SGnuHash => if is64 then 0 else 4 | _ => 0
  end.
(** the table that sh_link names *)
Definition table_link (s : slot) : option slot :=
  match s with
  | SSymtab => Some SStrtab | SShndx => Some SSymtab | SDynsym | SDynamic | SVerdef | SVerneed => Some SDynstr
  | SHash | SGnuHash | SVersym => Some SDynsym | SAttributes => Some SDynstr | _ => None
  end.
(** SHF_ALLOC for the tables used at run time, SHF_WRITE too for .dynamic *)
Definition table_flags (s : slot) : Z :=
  match s with SShstrtab | SStrtab | SSymtab | SShndx | SAttributes => 0 | SDynamic => 3 | _ => 2 end.
(** the index that the call [RIndex s] returned, 0 if there was none *)
Definition index_given (cs : list rcmd) (vs : list Z) (s : slot) (k : Z) : Prop :=
  (exists j, zget cs j = Some (RIndex s) /\ zget vs j = Some k) \/ (~ In (RIndex s) cs /\ k = 0).
Record table_section (is64 : bool) (cs : list rcmd) (vs : list Z) (s : slot) (v : Z) (d : bytes) (h : shdr) : Prop := {
  ts_type : sh_type h = table_type s;
  ts_flags : sh_flags h = table_flags s;
  ts_offset : sh_offset h = v;
  ts_size : sh_size h = zlen d;
  ts_link : match table_link s with Some t => index_given cs vs t (sh_link h) | None => sh_link h = 0 end;
  ts_entry : sh_entsize h = table_entry is64 s
}.
