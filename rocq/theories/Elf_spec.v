(** Specification of ELF files, independent of the reader. *)
From Verif Require Export Elf_model File_spec.

(** the range of an address-sized field *)
Definition word_ok (is64 : bool) (v : Z) : Prop := 0 <= v < (if is64 then 2 ^ 64 else 2 ^ 32).
Definition fhdr_ok (is64 : bool) (h : fhdr) : Prop :=
  0 <= fh_os_abi h < 256 /\ 0 <= fh_abi_version h < 256 /\ u16_ok (fh_type h) /\ u16_ok (fh_machine h) /\
  word_ok is64 (fh_entry h) /\ u32_ok (fh_flags h).
Definition phdr_ok (is64 : bool) (p : phdr) : Prop :=
  u32_ok (p_type p) /\ u32_ok (p_flags p) /\ word_ok is64 (p_offset p) /\ word_ok is64 (p_vaddr p) /\ word_ok is64 (p_paddr p) /\
  word_ok is64 (p_filesz p) /\ word_ok is64 (p_memsz p) /\ word_ok is64 (p_align p).
Definition shdr_ok (is64 : bool) (s : shdr) : Prop :=
  u32_ok (sh_name s) /\ u32_ok (sh_type s) /\ word_ok is64 (sh_flags s) /\ word_ok is64 (sh_addr s) /\ word_ok is64 (sh_offset s) /\
  word_ok is64 (sh_size s) /\ u32_ok (sh_link s) /\ u32_ok (sh_info s) /\ word_ok is64 (sh_addralign s) /\ word_ok is64 (sh_entsize s).
(** A layout is a possible one: table offsets are nonzero if the tables are not empty; without a section table there
    is no string table index and no section header offset. *)
Definition layout_ok (is64 : bool) (l : layout) : Prop :=
  word_ok is64 (ly_phoff l) /\ word_ok is64 (ly_shoff l) /\ u32_ok (ly_segment_num l) /\ u32_ok (ly_section_num l) /\
  u32_ok (ly_shstrtab_index l) /\ (ly_segment_num l > 0 -> ly_phoff l > 0) /\
  (if ly_section_num l =? 0 then ly_shoff l = 0 /\ ly_shstrtab_index l = 0 else ly_shoff l > 0).
(** The file [F] has a header and the section header 0 made by the encoder. *)
Definition has_header (is64 : bool) (e : endian) (F : bytes) (h : fhdr) (l : layout) : Prop :=
  exists hb, enc_file_header is64 e h l = Ok hb /\ holds F 0 hb /\
    (ly_section_num l > 0 -> holds F (ly_shoff l) (enc_null_shdr is64 e l)).
(** and program headers [ps] and section headers [ss] after the null one *)
Definition has_tables (is64 : bool) (e : endian) (F : bytes) (l : layout) (ps : list phdr) (ss : list shdr) : Prop :=
  ly_segment_num l = zlen ps /\ holds F (ly_phoff l) (concat (map (enc_phdr is64 e) ps)) /\
  (ly_section_num l = 0 /\ ss = [] \/ ly_section_num l = 1 + zlen ss /\
   holds F (ly_shoff l) (enc_null_shdr is64 e l ++ concat (map (enc_shdr is64 e) ss))).

(** * Sections with names and contents *)
(** section [s] has contents [d] in [F] *)
Definition content (F : bytes) (s : shdr) (d : bytes) : Prop :=
  if sh_type s =? 8 then d = [] else sh_size s = zlen d /\ holds F (sh_offset s) d.
(** A described section: header, name, contents *)
Record section := { sc_hdr : shdr; sc_name : bytes; sc_data : bytes }.
(** [F] has the sections [ss], named through the string table section [ly_shstrtab_index l] with contents [tab]. *)
Definition has_sections (is64 : bool) (e : endian) (F : bytes) (l : layout) (ss : list section) (tab : bytes) : Prop :=
  Forall (fun s => shdr_ok is64 (sc_hdr s) /\ string_at tab (sh_name (sc_hdr s)) (sc_name s) /\ content F (sc_hdr s) (sc_data s)) ss /\
  (exists str, zget ss (ly_shstrtab_index l - 1) = Some str /\ sc_data str = tab /\ sh_type (sc_hdr str) <> 8) /\
  string_at tab 0 [].

(** * Symbols *)
Definition wsym_ok (is64 : bool) (s : wsym) : Prop :=
  u32_ok (ws_name s) /\ 0 <= ws_info s < 256 /\ 0 <= ws_other s < 256 /\ u16_ok (ws_shndx s) /\ word_ok is64 (ws_value s) /\
  word_ok is64 (ws_size s) /\ match ws_section s with Some n => u32_ok n | None => True end.
(** The section of a symbol, as the user gave it: the optional index, where 0 means none, or else the raw field
    unless it is 0 or one of the reserved values from 0xff00. *)
Definition section_of (s : wsym) : option Z :=
  match ws_section s with
  | Some n => if n =? 0 then None else Some n
  | None => if (ws_shndx s =? 0) || (65280 <=? ws_shndx s) then None else Some (ws_shndx s)
  end.
(** The extended section index that the writer must store for the symbol: only needed for a section index that does
    not fit below the reserved values, or if the user asked for the raw value 0xffff. *)
Definition xindex_of (s : wsym) : option Z :=
  match ws_section s with
  | Some n => if 65280 <=? n then Some n else None
  | None => if ws_shndx s =? 65535 then Some 0 else None
  end.
(** The raw fields of the symbol read are those written. *)
Definition same_sym (s : wsym) (r : sym) : Prop :=
  st_name r = ws_name s /\ st_info r = ws_info s /\ st_other r = ws_other s /\ st_value r = ws_value s /\ st_size r = ws_size s /\
  (ws_section s = None -> st_shndx r = ws_shndx s).
(** An extended index table for the symbols: as long as the symbols, holding the index returned by the encoder for
    each symbol that needs one. *)
Definition shndx_for (is64 : bool) (e : endian) (syms : list wsym) (xs : list Z) : Prop :=
  Forall2 (fun s x => u32_ok x /\ match snd (enc_sym is64 e s) with Some n => x = n | None => True end) syms xs.
