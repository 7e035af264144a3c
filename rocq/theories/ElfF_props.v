(** Property theorems C62 (unified view of an ELF file), C63 (build id and debug links), C64 (symbol versions, imports and
    exports), C65 (compressed sections). *)
From Verif Require Import Core_proofs Str_proofs Util_proofs Hash_proofs Rel_proofs Note_proofs Ver_proofs File_proofs Elf_proofs ElfR_proofs Pod_proofs.
From Verif Require PeI_proofs PeX_proofs Ar_spec Ar_proofs ArSym_proofs CoffR_proofs CoffI_proofs CoffW_proofs Trie_proofs MachW_proofs Ver_props.
From Verif Require Import Obj_model ElfF_spec ElfF_proofs ElfG_proofs ElfH_proofs ElfI_proofs ElfJ_proofs ElfK_proofs.

(** * C62 *)
(** The header: class, byte order and version are in the identification, and the type, machine, entry point and flags
    are the numbers at their offsets. *)
Theorem C62_header : forall is64 F f, bytes_ok F -> efile_parse is64 F = Ok f ->
  holds F 0 (elf_magic ++ [if is64 then 2 else 1; match ef_endian f with Little => 1 | Big => 2 end; 1]) /\
  (ef_little f = true <-> ef_endian f = Little) /\
  exists abi ver ty machine entry flags, holds F 7 [abi; ver] /\ number_at F (ef_endian f) 16 2 ty /\ number_at F (ef_endian f) 18 2 machine /\
    number_at F (ef_endian f) 24 (if is64 then 8 else 4) entry /\ number_at F (ef_endian f) (if is64 then 48 else 36) 4 flags /\
    file_kind ty (ef_kind f) /\ ef_entry is64 f = entry /\ ef_flags is64 f = (abi, ver, flags) /\ ef_architecture is64 f = elf_architecture machine is64 flags.
Proof. exact (fun is64 F f K P => header_iff is64 F f K (proj1 (parse_iff is64 F f) P)). Qed.
Print Assumptions C62_header.
(** A file is accepted exactly if its identification, its tables, its symbol tables and its relocation chains are (C25, C26, C37, C39),
    and the tables of the view are those. *)
Theorem C62_parse : forall is64 F f, efile_parse is64 F = Ok f <->
  eh_parse is64 F = Ok (ef_raw f) /\ eh_endian (ef_raw f) = Ok (ef_endian f) /\ program_headers is64 (ef_endian f) (ef_raw f) F = Ok (ef_segments f) /\
  eh_sections is64 (ef_endian f) (ef_raw f) F = Ok (ef_sections f) /\ stab_symbols is64 (ef_endian f) F (ef_sections f) 2 = Ok (ef_symbols f) /\
  stab_symbols is64 (ef_endian f) F (ef_sections f) 11 = Ok (ef_dynsyms f) /\ relsec_parse (ef_sections f) (smt_section (ef_symbols f)) = Ok (ef_relocs f).
Proof.
  intros. rewrite parse_iff. split; [intros []; repeat (split; [assumption|]); assumption|]. intros (A & B & C & D & E & G & H). constructor; assumption.
Qed.
Print Assumptions C62_parse.
(** The sections are numbered from 1 and are those of the table after the null section; each is found again by its number. *)
Theorem C62_sections : forall f, map fst (ef_all_sections f) = map Z.of_nat (seq 1 (length (stab_sections (ef_sections f)) - 1)) /\
  map snd (ef_all_sections f) = tl (stab_sections (ef_sections f)) /\
  forall i s, In (i, s) (ef_all_sections f) <-> ef_section f i = Ok (i, s).
Proof. exact sections_all. Qed.
Print Assumptions C62_sections.
(** A section is found by name: the first of that name, otherwise the compressed one in the GNU style. *)
Theorem C62_by_name : forall f name,
  (forall i s, ef_section_by_name f name = Ok (Some (i, s)) <-> first_named (ef_sections f) name i s \/
     none_named (ef_sections f) name /\ exists rest, name = str ".debug_" ++ rest /\ first_named (ef_sections f) (str ".zdebug_" ++ rest) i s) /\
  (ef_section_by_name f name = Ok None <-> none_named (ef_sections f) name /\
     forall rest, name = str ".debug_" ++ rest -> none_named (ef_sections f) (str ".zdebug_" ++ rest)).
Proof. exact section_by_name_iff. Qed.
Print Assumptions C62_by_name.
(** The kind of a section follows its type and flags. *)
Theorem C62_section_kind : forall s k, section_kind s k <-> es_kind s = k.
Proof. exact kind_iff. Qed.
Print Assumptions C62_section_kind.
(** The permissions of a segment are the flag bits R 2, W 1, X 0. *)
Theorem C62_permissions : forall p, eg_permissions p = (Z.testbit (p_flags p) 2, Z.testbit (p_flags p) 1, Z.testbit (p_flags p) 0).
Proof. intro p. unfold eg_permissions. rewrite <- !has_flags_bit by lia. reflexivity. Qed.
Print Assumptions C62_permissions.
(** The symbols of an accepted file: iteration yields those after the null symbol, each with its number, and each is found
    again by its number; kind, section, scope and whether it is a definition follow the entry. *)
Theorem C62_symbols : forall is64 F f t, bytes_ok F -> zlen F < 2 ^ 63 -> efile_parse is64 F = Ok f -> t = ef_symbols f \/ t = ef_dynsyms f ->
  (exists st', runs (esym_next t) 1 (numbered t) false st') /\
  (forall i s, In (i, s) (numbered t) <-> ef_symbol t i = Ok (i, s)) /\
  forall i s, In (i, s) (numbered t) ->
    (forall k, symbol_kind s k <-> ey_kind s = k) /\ (forall r, symbol_in (smt_shndx t) i s r <-> ey_section t i s = r) /\
    (forall k, symbol_scope s k <-> ey_scope s = k) /\ (ey_definition t s = true <-> defines t s) /\
    (ey_weak s = true <-> s_bind s = 2) /\ (ey_local s = true <-> s_bind s = 0) /\
    ey_address s = (if st_shndx s =? 65522 then 0 else st_value s).
Proof.
  intros is64 F f t K HF P T. split; [apply esym_runs|]. split; [intros; apply esym_by_index|]. intros i s HI.
  assert (Ks : sym_ok s).
  { destruct (parsed is64 F f K HF P) as (_ & _ & _ & A & B). assert (C : Forall (fun s => sym_ok s /\ u32_ok (st_name s)) (smt_symbols t)) by (destruct T; subst t; assumption).
    rewrite Forall_forall in C. apply C. unfold numbered in HI. apply (in_combine_r (map Z.of_nat (seq 0 (length (smt_symbols t)))) _ i). destruct (combine _ _); [destruct HI|right; exact HI]. }
  split; [intro; apply sym_kind_iff; exact Ks|]. split; [intro; apply sym_section_iff; exact Ks|]. split; [intro; apply sym_scope_iff; exact Ks|]. split; [apply sym_def_iff; exact Ks|].
  unfold ey_weak, ey_local, s_bind, st_bind. rewrite Z.shiftr_div_pow2 by lia. change (2 ^ 4) with 16. rewrite !Z.eqb_eq. split; [reflexivity|]. split; reflexivity.
Qed.
Print Assumptions C62_symbols.
(** The COMDAT groups: iteration yields exactly the groups among the sections, in order. *)
Theorem C62_comdats : forall F f, bytes_ok F -> zlen F < 2 ^ 63 ->
  exists r, groups (ef_endian f) F (tl (stab_sections (ef_sections f))) r /\ runs (comdat_next (ef_endian f) F) (ef_comdats f) r false [].
Proof. exact (fun F f K HF => comdats_run (ef_endian f) F (tl (stab_sections (ef_sections f))) K HF). Qed.
Print Assumptions C62_comdats.
(** The relocation section of a section: the only one that relocates it; several are an error. *)
Theorem C62_relocation_section : forall is64 F f i h, efile_parse is64 F = Ok f ->
  (forall h0, zget (stab_sections (ef_sections f)) 0 = Some h0 -> ~ reloc_section h0) ->
  zget (stab_sections (ef_sections f)) i = Some h -> i <> 0 -> ~ reloc_section h ->
  es_reloc_index f i = match filter (relocates (ef_sections f) (smt_section (ef_symbols f)) i) (indices (ef_sections f)) with
    | [] => Ok None | [r] => Ok (Some r) | _ => Err end.
Proof. exact reloc_index_iff. Qed.
Print Assumptions C62_relocation_section.
(** No file makes any of this panic. *)
Theorem C62_total : forall is64 F, bytes_ok F -> zlen F < 2 ^ 63 -> efile_parse is64 F <> Panic /\
  forall f, efile_parse is64 F = Ok f ->
    (forall i, ef_section f i <> Panic) /\ (forall name, ef_section_by_name f name <> Panic) /\
    (forall s, es_name f s <> Panic /\ es_data F s <> Panic /\ forall a n, es_data_range F s a n <> Panic) /\
    (forall t i, ef_symbol t i <> Panic) /\ (forall t s, symbol_name t s <> Panic) /\ (forall c, comdat_name f c <> Panic) /\
    (forall i, es_reloc_index f i <> Panic /\ es_reloc_section f i <> Panic) /\
    (forall i s, ef_section f i = Ok (i, s) -> es_compressed_range is64 f F s <> Panic /\ es_compressed_data is64 f F s <> Panic).
Proof.
  intros is64 F K HF. split; [apply efile_np; [exact K|lia]|]. intros f P. destruct (parsed is64 F f K HF P) as (A & B & C & _).
  assert (N1 : forall i, stab_section (ef_sections f) i <> Panic). { intro i. unfold stab_section. destruct (_ =? _); [discriminate|]. destruct (zget _ _); cbn [of_opt]; discriminate. }
  assert (N2 : forall t i, symtab_symbol t i <> Panic). { intros t i. unfold symtab_symbol. destruct (_ =? _); [discriminate|]. destruct (zget _ _); cbn [of_opt]; discriminate. }
  split. { intro i. unfold ef_section. specialize (N1 i). destruct (stab_section _ i); cbn [bind]; [discriminate|discriminate|contradiction]. }
  split; [apply section_name_np|]. split.
  { intro s. split; [unfold es_name, section_name; apply strtab_get_no_panic|]. pose proof (sh_data_no_panic s F) as D. split; [exact D|]. intros a n. unfold es_data_range, es_data. destruct (sh_data s F); cbn [bind]; [discriminate|discriminate|contradiction]. }
  split. { intros t i. unfold ef_symbol. specialize (N2 t i). destruct (symtab_symbol t i); cbn [bind]; [discriminate|discriminate|contradiction]. }
  split; [apply symbol_name_np|]. split. { intro c. unfold comdat_name. specialize (N2 (ef_symbols f) (comdat_symbol c)). destruct (symtab_symbol _ _); cbn [bind]; [apply symbol_name_np|discriminate|contradiction]. }
  assert (N3 : forall i, es_reloc_index f i <> Panic). { intro i. unfold es_reloc_index. destruct (relsec_get _ _); [|discriminate]. destruct (relsec_get _ _); discriminate. }
  split. { intro i. split; [apply N3|]. unfold es_reloc_section. specialize (N3 i). destruct (es_reloc_index f i) as [[r|]| |]; cbn [bind]; try discriminate; [|contradiction]. specialize (N1 r). destruct (stab_section _ r); cbn [bind]; [discriminate|discriminate|contradiction]. }
  intros i s E. assert (Ks : shdr_ok is64 s). { unfold ef_section, stab_section in E. destruct (i =? 0); [discriminate|]. destruct (zget _ i) as [s'|] eqn:Z'; [|discriminate]. cbn [of_opt bind] in E. injection E as ->. rewrite Forall_forall in A. apply A. apply zget_In in Z'. exact Z'. }
  pose proof (proj2 (compressed_iff is64 F f s K HF Ks C)) as Q. split; [exact Q|]. unfold es_compressed_data. destruct (es_compressed_range is64 f F s) as [c| |]; cbn [bind]; [|discriminate|contradiction].
  unfold crange_data. pose proof (rr_read_bytes_at_no_panic F (cg_offset c) (cg_size c)) as R. destruct (rr_read_bytes_at F (cg_offset c) (cg_size c)); cbn [bind]; [discriminate|discriminate|contradiction].
Qed.
Print Assumptions C62_total.

(** * C63 *)
(** The build id is the description of the first build id note, in the note sections or, without sections, the note segments;
    what is before it must be well-formed, what follows need not be. *)
Theorem C63_build_id : forall is64 F f, bytes_ok F -> zlen F < 2 ^ 63 -> efile_parse is64 F = Ok f ->
  (forall id, ef_build_id f F = Ok (Some id) <-> build_id_of f F id) /\
  (ef_build_id f F = Ok None <-> Forall (no_build_id (ef_endian f)) (note_areas f F)) /\ ef_build_id f F <> Panic.
Proof.
  intros is64 F f K HF P. destruct (parsed is64 F f K HF P) as (A & B & _). exact (build_id_spec f F (note_areas_ok is64 f F K A B)).
Qed.
Print Assumptions C63_build_id.
(** The link to a separate debug file. *)
Theorem C63_debuglink : forall f F, bytes_ok F -> zlen F < 2 ^ 63 ->
  (forall name crc, ef_debuglink f F = Ok (Some (name, crc)) <-> exists i s d, first_named (ef_sections f) (str ".gnu_debuglink") i s /\
     sh_data s F = Ok d /\ debuglink (ef_endian f) d name crc) /\
  (ef_debuglink f F = Ok None <-> none_named (ef_sections f) (str ".gnu_debuglink")) /\ ef_debuglink f F <> Panic.
Proof. exact debuglink_iff. Qed.
Print Assumptions C63_debuglink.
(** The link to a supplementary debug file. *)
Theorem C63_debugaltlink : forall f F,
  (forall name id, ef_debugaltlink f F = Ok (Some (name, id)) <-> exists i s d, first_named (ef_sections f) (str ".gnu_debugaltlink") i s /\
     sh_data s F = Ok d /\ debugaltlink d name id) /\
  (ef_debugaltlink f F = Ok None <-> none_named (ef_sections f) (str ".gnu_debugaltlink")) /\ ef_debugaltlink f F <> Panic.
Proof. exact debugaltlink_iff. Qed.
Print Assumptions C63_debugaltlink.
(** Debug symbols are there exactly if a section has the name of DWARF debugging information. *)
Theorem C63_has_debug : forall f, ef_has_debug f = true <-> exists s, In s (stab_sections (ef_sections f)) /\
  (section_name (ef_sections f) s = Ok (str ".debug_info") \/ section_name (ef_sections f) s = Ok (str ".zdebug_info")).
Proof. exact has_debug_iff. Qed.
Print Assumptions C63_has_debug.

(** * C64 *)
(** The version table of a file: none without a version section; otherwise the version of index 2 or more is the last one the definitions
    and needs give it. *)
Theorem C64_versions : forall is64 f F, bytes_ok F -> zlen F < 2 ^ 63 ->
  match ef_versions is64 f F with
  | Ok (Some v) => exists l, version_tables is64 (ef_endian f) F (ef_sections f) (vt_symbols v) l /\
      forall i, 0 <= i -> vt_version v i = if i <? 2 then Ok None else match lookup_last l i with Some v => Ok (Some v) | None => Err end
  | Ok None => first_of_type (ef_sections f) 1879048191 None
  | Err => ~ first_of_type (ef_sections f) 1879048191 None /\ ~ exists syms l, version_tables is64 (ef_endian f) F (ef_sections f) syms l
  | Panic => False
  end.
Proof. exact versions_iff. Qed.
Print Assumptions C64_versions.
(** The imports: every dynamic symbol contributes in order what [import_at] says; an error does not end the iteration. *)
Theorem C64_imports : forall is64 F f vs, bytes_ok F -> zlen F < 2 ^ 63 -> efile_parse is64 F = Ok f ->
  exists rs, Forall2 (fun p r => import_at vs (ef_dynsyms f) (fst p) (snd p) r) (numbered (ef_dynsyms f)) rs /\
    Ar_spec.results (import_next vs (ef_dynsyms f)) 1 (concat rs).
Proof.
  intros is64 F f vs K HF P. destruct (parsed is64 F f K HF P) as (_ & _ & _ & _ & A). apply imports_ok. eapply Forall_impl; [|exact A]. intros s [H _]. exact H.
Qed.
Print Assumptions C64_imports.
(** The exports. *)
Theorem C64_exports : forall is64 F f vs, bytes_ok F -> zlen F < 2 ^ 63 -> efile_parse is64 F = Ok f ->
  exists rs, Forall2 (fun p r => export_at vs (ef_dynsyms f) (fst p) (snd p) r) (numbered (ef_dynsyms f)) rs /\
    Ar_spec.results (export_next vs (ef_dynsyms f)) 1 (concat rs).
Proof.
  intros is64 F f vs K HF P. destruct (parsed is64 F f K HF P) as (_ & _ & _ & _ & A). apply exports_ok. eapply Forall_impl; [|exact A]. intros s [H _]. exact H.
Qed.
Print Assumptions C64_exports.

(** * C65 *)
(** Where the data of a section is and how it is compressed. *)
Theorem C65_compressed : forall is64 F f i s, bytes_ok F -> zlen F < 2 ^ 63 -> efile_parse is64 F = Ok f -> ef_section f i = Ok (i, s) ->
  forall c, es_compressed_range is64 f F s = Ok c <->
    elf_compressed is64 (ef_endian f) F s c \/ gnu_format f F s c \/ uncompressed f s c.
Proof.
  intros is64 F f i s K HF P E. destruct (parsed is64 F f K HF P) as (A & _ & C & _).
  assert (Ks : shdr_ok is64 s). { unfold ef_section, stab_section in E. destruct (i =? 0); [discriminate|]. destruct (zget _ i) as [s'|] eqn:Z'; [|discriminate]. cbn [of_opt bind] in E. injection E as ->. rewrite Forall_forall in A. apply A. apply zget_In in Z'. exact Z'. }
  exact (proj1 (compressed_iff is64 F f s K HF Ks C)).
Qed.
Print Assumptions C65_compressed.
(** The bytes are those of the file, and are inside it. *)
Theorem C65_data : forall is64 f F s fmt d n, es_compressed_data is64 f F s = Ok (fmt, d, n) <->
  exists c, es_compressed_range is64 f F s = Ok c /\ cg_format c = fmt /\ cg_uncompressed c = n /\ rr_read_bytes_at F (cg_offset c) (cg_size c) = Ok d.
Proof.
  intros. unfold es_compressed_data, crange_data. destruct (es_compressed_range is64 f F s) as [c| |]; cbn [bind].
  - destruct (rr_read_bytes_at F (cg_offset c) (cg_size c)) as [b| |] eqn:E; cbn [bind]; split; try discriminate; try (intros (c' & Q & _ & _ & R); congruence).
    + intro Q. exists c. assert (cg_format c = fmt /\ cg_uncompressed c = n /\ b = d) as (A & B & C) by (repeat split; congruence). repeat split; congruence.
    + intros (c' & Q & A & B & C). congruence.
  - split; [discriminate|]. intros (c' & Q & _). discriminate.
  - split; [discriminate|]. intros (c' & Q & _). discriminate.
Qed.
Print Assumptions C65_data.
(** Names are strings only if they are UTF-8. *)
Theorem C65_utf8 : forall b, bytes_ok b -> (to_str (Ok b) = Ok b <-> utf8 b) /\ (to_str (Ok b) = Err <-> ~ utf8 b).
Proof.
  intros b K. rewrite <- (utf8_iff b K). unfold to_str. cbn [bind]. destruct (utf8_valid b); split; split; congruence || discriminate || (intros H; exfalso; apply H; reflexivity).
Qed.
Print Assumptions C65_utf8.

(** * An example: a 64-bit file with debug links, a group, compressed sections, symbols and versions *)
Record exs := { xs_name : bytes; xs_type : Z; xs_flags : Z; xs_link : Z; xs_info : Z; xs_align : Z; xs_data : bytes }.
Fixpoint ex_layout (l : list exs) (off name : Z) : list shdr :=
  match l with
  | [] => []
  | x :: l => {| sh_name := name; sh_type := xs_type x; sh_flags := xs_flags x; sh_addr := 0; sh_offset := off; sh_size := zlen (xs_data x); sh_link := xs_link x;
                 sh_info := xs_info x; sh_addralign := xs_align x; sh_entsize := 0 |} :: ex_layout l (off + zlen (xs_data x)) (name + zlen (xs_name x) + 1)
  end.
Definition ex_names (l : list exs) : bytes := 0 :: flat_map (fun x => xs_name x ++ [0]) l.
Definition ex_file (l : list exs) : bytes :=
  let name := str ".shstrtab" in
  let shs := {| xs_name := name; xs_type := 3; xs_flags := 0; xs_link := 0; xs_info := 0; xs_align := 1; xs_data := ex_names l ++ name ++ [0] |} in
  let l := l ++ [shs] in
  let d := flat_map xs_data l in
  let ly := {| ly_phoff := 0; ly_segment_num := 0; ly_shoff := 64 + zlen d; ly_section_num := zlen l + 1; ly_shstrtab_index := zlen l |} in
  match enc_file_header true Little {| fh_os_abi := 3; fh_abi_version := 0; fh_type := 3; fh_machine := 62; fh_entry := 4096; fh_flags := 0 |} ly with
  | Ok h => h ++ d ++ enc_null_shdr true Little ly ++ flat_map (enc_shdr true Little) (ex_layout l 64 1)
  | _ => []
  end.
Definition ex_sym (name info other shndx value : Z) : bytes := fst (enc_sym true Little {| ws_section := None; ws_name := name; ws_info := info; ws_other := other; ws_shndx := shndx; ws_value := value; ws_size := 8 |}).
Definition sec name ty flags link info align data := {| xs_name := str name; xs_type := ty; xs_flags := flags; xs_link := link; xs_info := info; xs_align := align; xs_data := data |}.
(** strings: 1 "AB", 4 "CD", 7 "E", 9 "F" *)
Definition ex_symtab : bytes := zeros 24 ++ ex_sym 1 0 0 1 7 ++ ex_sym 4 18 2 1 9 ++ ex_sym 7 32 0 0 0.
Definition ex_dynsym : bytes := zeros 24 ++ ex_sym 1 17 0 1 4660 ++ ex_sym 4 34 0 0 0 ++ ex_sym 99 16 0 0 0 ++ ex_sym 9 26 0 1 4096.
Definition ex_elf : bytes := Eval vm_compute in ex_file
  [sec ".text" 1 6 0 0 16 [144; 195];
   sec ".note.gnu.build-id" 7 2 0 0 4 (write_u Little 4 4 ++ write_u Little 4 2 ++ write_u Little 4 3 ++ str "GNU" ++ [0] ++ [171; 205; 0; 0]);
   sec ".gnu_debuglink" 1 0 0 0 4 (str "a.dbg" ++ [0; 0; 0] ++ write_u Little 4 305419896);
   sec ".gnu_debugaltlink" 1 0 0 0 1 (str "alt" ++ [0; 1; 2; 3]);
   sec ".group" 17 0 7 2 4 (write_u Little 4 1 ++ write_u Little 4 1);
   sec ".zdebug_info" 1 0 0 0 1 (str "ZLIB" ++ write_u Big 8 100 ++ [120; 156]);
   sec ".symtab" 2 0 8 2 8 ex_symtab;
   sec ".strtab" 3 0 0 0 1 Ver_props.ex_str;
   sec ".dynsym" 11 2 8 1 8 ex_dynsym;
   sec ".gnu.version" 1879048191 2 9 0 2 (flat_map (write_u Little 2) [0; 32771; 4; 5; 2]);
   sec ".gnu.version_d" 1879048189 2 8 0 4 Ver_props.ex_vd;
   sec ".gnu.version_r" 1879048190 2 8 0 4 Ver_props.ex_vn;
   sec ".debug_line" 1 2048 0 0 1 (write_u Little 4 1 ++ zeros 4 ++ write_u Little 8 50 ++ write_u Little 8 1 ++ [120; 156; 3])].
Definition ex_f : efile := Eval vm_compute in match efile_parse true ex_elf with Ok f => f
  | _ => {| ef_raw := []; ef_endian := Little; ef_segments := []; ef_sections := {| stab_sections := []; stab_strings := smt_strings symtab_default |}; ef_relocs := [];
            ef_symbols := symtab_default; ef_dynsyms := symtab_default |} end.
Definition sec_at (i : Z) : shdr := match ef_section ex_f i with Ok (_, s) => s | _ => null_shdr {| ly_phoff := 0; ly_segment_num := 0; ly_shoff := 0; ly_section_num := 0; ly_shstrtab_index := 0 |} end.
Definition ex_vs : option vtable := match ef_versions true ex_f ex_elf with Ok v => v | _ => None end.
(** the hypotheses of the theorems *)
Example C62_ex_hyps : bytes_ok ex_elf /\ zlen ex_elf < 2 ^ 63 /\ efile_parse true ex_elf = Ok ex_f.
Proof. split; [apply bytes_ok_forallb; vm_compute; reflexivity|]. split; vm_compute; reflexivity. Qed.
Example C62_ex : ef_kind ex_f = FDynamic /\ ef_architecture true ex_f = AX86_64 /\ ef_entry true ex_f = 4096 /\ length (ef_all_sections ex_f) = 14%nat /\
  map fst (ef_all_sections ex_f) = [1; 2; 3; 4; 5; 6; 7; 8; 9; 10; 11; 12; 13; 14] /\
  es_kind (sec_at 1) = SKText /\ es_kind (sec_at 2) = SKNote /\ es_kind (sec_at 7) = SKMetadata /\ es_kind (sec_at 10) = SKUnknown /\
  ef_section_by_name ex_f (str ".debug_info") = Ok (Some (6, sec_at 6)) /\ ef_section_by_name ex_f (str ".nothing") = Ok None /\
  map (fun p => (ey_kind (snd p), ey_section (ef_symbols ex_f) (fst p) (snd p), ey_scope (snd p), ey_definition (ef_symbols ex_f) (snd p))) (numbered (ef_symbols ex_f)) =
    [(YUnknown, RSection 1, ScCompilation, true); (YText, RSection 1, ScLinkage, true); (YUnknown, RUndefined, ScUnknown, false)] /\
  comdat_next Little ex_elf (ef_comdats ex_f) = (Ok (Some (sec_at 5, [1])), skipn 6 (stab_sections (ef_sections ex_f))) /\
  comdat_name ex_f (sec_at 5, [1]) = Ok (str "CD").
Proof. vm_compute. repeat split. Qed.
Example C62_ex_reloc : ~ reloc_section (sec_at 1) /\ zget (stab_sections (ef_sections ex_f)) 1 = Some (sec_at 1) /\ es_reloc_index ex_f 1 = Ok None /\
  forall h0, zget (stab_sections (ef_sections ex_f)) 0 = Some h0 -> ~ reloc_section h0.
Proof. split; [vm_compute; intuition discriminate|]. split; [reflexivity|]. split; [reflexivity|]. intros h0 E. vm_compute in E. injection E as <-. vm_compute. intuition discriminate. Qed.
Example C63_ex : ef_build_id ex_f ex_elf = Ok (Some [171; 205]) /\ ef_debuglink ex_f ex_elf = Ok (Some (str "a.dbg", 305419896)) /\
  ef_debugaltlink ex_f ex_elf = Ok (Some (str "alt", [1; 2; 3])) /\ ef_has_debug ex_f = true.
Proof. vm_compute. repeat split. Qed.
Example C64_ex : ex_vs <> None /\
  (let '(a, i) := import_next ex_vs (ef_dynsyms ex_f) 1 in (a, i) =
     (Ok (Some {| im_library := str "E"; im_name := str "CD"; im_weak := true; im_info := 34; im_other := 0; im_version := Some (str "F") |}), 3)) /\
  fst (import_next ex_vs (ef_dynsyms ex_f) 3) = Err /\ fst (import_next ex_vs (ef_dynsyms ex_f) 4) = Ok None /\
  export_next ex_vs (ef_dynsyms ex_f) 1 = (Ok (Some {| ex_name := str "AB"; ex_target := XAddress 4660; ex_weak := false; ex_info := 17; ex_other := 0;
    ex_version := Some (str "CD"); ex_hidden := true |}), 2) /\
  export_next ex_vs (ef_dynsyms ex_f) 2 = (Ok (Some {| ex_name := str "F"; ex_target := XResolver 4096; ex_weak := false; ex_info := 26; ex_other := 0;
    ex_version := Some (str "AB"); ex_hidden := false |}), 5).
Proof. vm_compute. repeat split. discriminate. Qed.
Example C65_ex : es_compressed_data true ex_f ex_elf (sec_at 6) = Ok (CFZlib, [120; 156], 100) /\
  es_compressed_data true ex_f ex_elf (sec_at 13) = Ok (CFZlib, [120; 156; 3], 50) /\
  es_compressed_data true ex_f ex_elf (sec_at 1) = Ok (CFNone, [144; 195], 2) /\
  to_str (Ok [226; 130; 172]) = Ok [226; 130; 172] /\ to_str (Ok [192; 128]) = Err /\ to_str (Ok [237; 160; 128]) = Err.
Proof. vm_compute. repeat split. Qed.
