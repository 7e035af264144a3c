(** Property theorems C25 (ELF header and extended numbering), C26 (ELF symbols), C37 (ELF sections). *)
From Verif Require Import Core_proofs Str_proofs Elf_spec Elf_proofs.

(** * C25 *)
(** The file header written by the encoder is recognised as the right class and byte order and read back: all fields,
    and the table offsets, counts and string table index, even when they overflow the 16-bit fields. *)
Theorem C25_header_roundtrip : forall is64 e h l F, fhdr_ok is64 h -> layout_ok is64 l -> zlen F < 2 ^ 64 -> has_header is64 e F h l ->
  exists raw, eh_parse is64 F = Ok raw /\ eh_parse (negb is64) F = Err /\ eh_endian raw = Ok e /\
    fhdr_from_raw is64 e raw = h /\ layout_from_raw is64 e raw F = Ok l /\
    phnum is64 e raw F = Ok (ly_segment_num l) /\ shnum is64 e raw F = Ok (ly_section_num l) /\
    shstrndx is64 e raw F = (if ly_shstrtab_index l =? 0 then Err else Ok (ly_shstrtab_index l)).
Proof. exact header_roundtrip. Qed.
Print Assumptions C25_header_roundtrip.
(** Writing fails exactly if the number of program headers overflows and there is no section header to hold it. *)
Theorem C25_header_error : forall is64 e h l, (exists hb, enc_file_header is64 e h l = Ok hb /\ zlen hb = ehdr_size is64) \/
  enc_file_header is64 e h l = Err /\ ly_segment_num l >= 65535 /\ ly_section_num l = 0.
Proof. exact header_error. Qed.
Print Assumptions C25_header_error.
(** The program header and section header tables are read back exactly. *)
Theorem C25_tables_roundtrip : forall is64 e h l F ps ss, fhdr_ok is64 h -> layout_ok is64 l -> zlen F < 2 ^ 64 -> has_header is64 e F h l ->
  has_tables is64 e F l ps ss -> Forall (phdr_ok is64) ps -> Forall (shdr_ok is64) ss ->
  exists raw, eh_parse is64 F = Ok raw /\ program_headers is64 e raw F = Ok ps /\
    section_headers is64 e raw F = Ok (if ly_section_num l =? 0 then [] else null_shdr l :: ss).
Proof. exact tables_roundtrip. Qed.
Print Assumptions C25_tables_roundtrip.
(** Arbitrary data: nothing panics, and a table that is returned lies inside the file, entry by entry. *)
Theorem C25_total : forall is64 e raw F, bytes_ok F -> bytes_ok raw -> zlen F < 2 ^ 64 ->
  eh_parse is64 F <> Panic /\ phnum is64 e raw F <> Panic /\ shnum is64 e raw F <> Panic /\ shstrndx is64 e raw F <> Panic /\
  eh_sections is64 e raw F <> Panic /\
  match program_headers is64 e raw F with
  | Ok ps => ps = [] \/ e_phoff is64 e raw + zlen ps * phdr_size is64 <= zlen F /\ phnum is64 e raw F = Ok (zlen ps) /\
      forall i p, zget ps i = Some p -> p = phdr_of is64 e (zdrop (e_phoff is64 e raw + i * phdr_size is64) F)
  | Err => True
  | Panic => False
  end /\
  match section_headers is64 e raw F with
  | Ok ss => ss = [] \/ e_shoff is64 e raw + zlen ss * shdr_size is64 <= zlen F /\ shnum is64 e raw F = Ok (zlen ss) /\
      forall i s, zget ss i = Some s -> s = shdr_of is64 e (zdrop (e_shoff is64 e raw + i * shdr_size is64) F)
  | Err => True
  | Panic => False
  end.
Proof. exact tables_total. Qed.
Print Assumptions C25_total.

(** * C37 *)
(** Sections are read back with their headers, names and contents, and are found by name (the first one). *)
Theorem C37_sections_roundtrip : forall is64 e h l F ss tab, fhdr_ok is64 h -> layout_ok is64 l -> zlen F < 2 ^ 64 -> has_header is64 e F h l ->
  ly_section_num l = 1 + zlen ss -> holds F (ly_shoff l) (enc_null_shdr is64 e l ++ concat (map (enc_shdr is64 e) (map sc_hdr ss))) ->
  has_sections is64 e F l ss tab ->
  exists raw t, eh_parse is64 F = Ok raw /\ eh_sections is64 e raw F = Ok t /\ zlen (stab_sections t) = 1 + zlen ss /\
    stab_section t 0 = Err /\
    (forall i s, zget ss (i - 1) = Some s -> stab_section t i = Ok (sc_hdr s) /\ section_name t (sc_hdr s) = Ok (sc_name s) /\
       sh_data (sc_hdr s) F = Ok (sc_data s)) /\
    (forall i, zget ss (i - 1) = None -> stab_section t i = Err) /\
    forall name, name <> [] -> 
      match section_by_name t name with
      | Some (i, s) => exists sec, zget ss (i - 1) = Some sec /\ sc_hdr sec = s /\ sc_name sec = name /\
          forall j sec', zget ss j = Some sec' -> j < i - 1 -> sc_name sec' <> name
      | None => forall sec, In sec ss -> sc_name sec <> name
      end.
Proof. exact sections_roundtrip. Qed.
Print Assumptions C37_sections_roundtrip.
(** Section data on arbitrary files: exactly the range the header gives, or an error if it is not inside the file. *)
Theorem C37_data_exact : forall s F, 0 <= sh_offset s -> 0 <= sh_size s ->
  sh_data s F = if sh_type s =? 8 then Ok [] else if sh_size s =? 0 then Ok [] else
    if sh_offset s + sh_size s <=? zlen F then Ok (zslice (sh_offset s) (sh_size s) F) else Err.
Proof. exact sh_data_exact. Qed.
Print Assumptions C37_data_exact.
(** Segment data, by file range and by address. *)
Theorem C37_segment_range : forall p F a n, 0 <= p_offset p -> 0 < p_filesz p -> 0 <= p_vaddr p -> 0 <= a -> 0 <= n ->
  ph_data_range p F a n =
    if p_offset p + p_filesz p <=? zlen F then
      Ok (if (p_vaddr p <=? a) && (a + n <=? p_vaddr p + p_filesz p) then Some (zslice (p_offset p + (a - p_vaddr p)) n F) else None)
    else Err.
Proof. exact segment_range. Qed.
Print Assumptions C37_segment_range.
Theorem C37_interpreter : forall p F name, p_type p = 3 -> holds F (p_offset p) (name ++ [0]) -> ~ In 0 name -> p_filesz p = zlen name + 1 ->
  ph_interpreter p F = Ok (Some name).
Proof. exact interpreter_roundtrip. Qed.
Print Assumptions C37_interpreter.

(** * C26 *)
(** Each symbol written is [sym_size] bytes and decodes to the same fields. *)
Theorem C26_symbol_fields : forall is64 e s, wsym_ok is64 s ->
  zlen (fst (enc_sym is64 e s)) = sym_size is64 /\ same_sym s (sym_of is64 e (fst (enc_sym is64 e s))).
Proof. exact symbol_fields. Qed.
Print Assumptions C26_symbol_fields.
(** An extended index is returned exactly for the symbols that need one. *)
Theorem C26_symbol_xindex : forall is64 e s, wsym_ok is64 s -> snd (enc_sym is64 e s) = xindex_of s.
Proof. exact symbol_xindex. Qed.
Print Assumptions C26_symbol_xindex.
(** A symbol table section of a file, its string table and, if present, the table of extended indices: every symbol
    is read back with its fields, name and section.  [i], [j], [k] are the indices of the three sections; the
    extended table is required only if the encoder returned an extended index for some symbol. *)
Theorem C26_symtab_roundtrip : forall is64 e F t i j hs hstr tab syms xs ty, zlen F < 2 ^ 64 ->
  ty = 2 \/ ty = 11 -> Forall (wsym_ok is64) syms ->
  zget (stab_sections t) i = Some hs -> sh_type hs = ty -> i <> 0 -> sh_link hs = j -> j <> 0 ->
  content F hs (concat (map (fun s => fst (enc_sym is64 e s)) syms)) ->
  zget (stab_sections t) j = Some hstr -> sh_type hstr = 3 -> content F hstr tab -> 
  (forall i' h, zget (stab_sections t) i' = Some h -> sh_type h = ty -> i <= i') ->
  (forall h, In h (stab_sections t) -> sh_type h = 18 -> sh_link h = i -> content F h (concat (map (write_u e 4) xs)) ) ->
  (exists h, In h (stab_sections t) /\ sh_type h = 18 /\ sh_link h = i) /\ shndx_for is64 e syms xs \/
    (forall s, In s syms -> snd (enc_sym is64 e s) = None) /\ Forall u32_ok xs ->
  exists st, stab_symbols is64 e F t ty = Ok st /\ symtab_by_index is64 e F t i = Ok st /\
    smt_section st = i /\ smt_string_section st = j /\
    zlen (smt_symbols st) = zlen syms /\
    forall n s, zget syms n = Some s -> exists r, zget (smt_symbols st) n = Some r /\ same_sym s r /\
      (n <> 0 -> symtab_symbol st n = Ok r) /\
      symbol_section st r n = Ok (section_of s) /\
      (forall name, string_at tab (ws_name s) name -> symbol_name st r = Ok name).
Proof. exact symtab_roundtrip. Qed.
Print Assumptions C26_symtab_roundtrip.
(** Arbitrary sections: no panic. *)
Theorem C26_total : forall is64 e F t ty i n s st, (ty = 2 \/ ty = 11) ->
  stab_symbols is64 e F t ty <> Panic /\ symtab_by_index is64 e F t i <> Panic /\ symbol_section st s n <> Panic /\
  symtab_symbol st n <> Panic /\ symbol_name st s <> Panic.
Proof. exact symtab_total. Qed.
Print Assumptions C26_total.

(** Numbers that overflow the header fields (big endian, 32 bit). *)
Definition ex_fh : fhdr := {| fh_os_abi := 3; fh_abi_version := 1; fh_type := 2; fh_machine := 8; fh_entry := 4096; fh_flags := 7 |}.
Definition ex_ly : layout := {| ly_phoff := 52; ly_segment_num := 70000; ly_shoff := 60; ly_section_num := 65300; ly_shstrtab_index := 65299 |}.
Definition ex_big : bytes := match enc_file_header false Big ex_fh ex_ly with Ok b => b | _ => [] end ++ zeros 8 ++ enc_null_shdr false Big ex_ly.
Example C25_ex_hyps : fhdr_ok false ex_fh /\ layout_ok false ex_ly /\ zlen ex_big < 2 ^ 64 /\ has_header false Big ex_big ex_fh ex_ly.
Proof.
  split; [unfold fhdr_ok, u16_ok, u32_ok, word_ok, ex_fh; cbn; lia|]. split; [unfold layout_ok, word_ok, u32_ok, ex_ly; cbn; lia|]. split; [reflexivity|].
  eexists. split; [vm_compute; reflexivity|]. split; [exists [], (zeros 8 ++ enc_null_shdr false Big ex_ly); split; vm_compute; reflexivity|].
  intros _. exists (ztake 60 ex_big), []. split; vm_compute; reflexivity.
Qed.
Example C25_ex : match eh_parse false ex_big with
  | Ok raw => e_phnum false Big raw = 65535 /\ e_shnum false Big raw = 0 /\ e_shstrndx false Big raw = 65535 /\
      phnum false Big raw ex_big = Ok 70000 /\ shnum false Big raw ex_big = Ok 65300 /\ shstrndx false Big raw ex_big = Ok 65299
  | _ => False end.
Proof. vm_compute. repeat split. Qed.

(** A file with two program headers, [.text], [.shstrtab], a symbol table, and a table of extended indices. *)
Definition mk_sh name ty off size link : shdr :=
  {| sh_name := name; sh_type := ty; sh_flags := 2; sh_addr := 0; sh_offset := off; sh_size := size; sh_link := link; sh_info := 0; sh_addralign := 1; sh_entsize := 0 |}.
Definition ex_tab : bytes := [0; 46; 116; 0; 46; 115; 0; 97; 98; 0].
Definition ex_syms : list wsym :=
  [{| ws_section := None; ws_name := 0; ws_info := 0; ws_other := 0; ws_shndx := 0; ws_value := 0; ws_size := 0 |};
   {| ws_section := Some 70001; ws_name := 7; ws_info := 18; ws_other := 2; ws_shndx := 0; ws_value := 16; ws_size := 9 |};
   {| ws_section := None; ws_name := 8; ws_info := 17; ws_other := 0; ws_shndx := 65521; ws_value := 17; ws_size := 1 |};
   {| ws_section := Some 1; ws_name := 2; ws_info := 3; ws_other := 0; ws_shndx := 0; ws_value := 18; ws_size := 0 |}].
Definition ex_symdata : bytes := concat (map (fun s => fst (enc_sym true Little s)) ex_syms).
Definition ex_shndx : list Z := [0; 70001; 0; 0].
Definition ex_ps : list phdr :=
  [{| p_type := 1; p_flags := 5; p_offset := 176; p_vaddr := 4096; p_paddr := 0; p_filesz := 4; p_memsz := 4; p_align := 1 |};
   {| p_type := 3; p_flags := 4; p_offset := 184; p_vaddr := 0; p_paddr := 0; p_filesz := 3; p_memsz := 3; p_align := 1 |}].
Definition ex_secs : list section :=
  [{| sc_hdr := mk_sh 1 1 176 4 0; sc_name := [46; 116]; sc_data := [1; 2; 3; 4] |};
   {| sc_hdr := mk_sh 4 3 180 10 0; sc_name := [46; 115]; sc_data := ex_tab |};
   {| sc_hdr := mk_sh 7 2 190 96 2; sc_name := [97; 98]; sc_data := ex_symdata |};
   {| sc_hdr := mk_sh 8 18 286 16 3; sc_name := [98]; sc_data := words Little ex_shndx |};
   {| sc_hdr := mk_sh 4 8 999 999 0; sc_name := [46; 115]; sc_data := [] |}].
Definition ex_ly2 : layout := {| ly_phoff := 64; ly_segment_num := 2; ly_shoff := 302; ly_section_num := 6; ly_shstrtab_index := 2 |}.
Definition ex_file : bytes :=
  match enc_file_header true Little ex_fh ex_ly2 with Ok b => b | _ => [] end ++ concat (map (enc_phdr true Little) ex_ps) ++
  [1; 2; 3; 4] ++ ex_tab ++ ex_symdata ++ words Little ex_shndx ++ enc_null_shdr true Little ex_ly2 ++
  concat (map (enc_shdr true Little) (map sc_hdr ex_secs)).
Lemma holds_compute F o b : 0 <= o -> (let n := zlen b in o + n <=? zlen F) = true -> bytes_eqb (zslice o (zlen b) F) b = true -> holds F o b.
Proof. intros H1 H2 H3. apply bytes_eqb_eq in H3. apply File_proofs.holds_iff. cbn zeta in H2. split; [exact H1|]. split; [lia|exact H3]. Qed.
Ltac hc := apply holds_compute; [first [lia|vm_compute; discriminate]|vm_compute; reflexivity|vm_compute; reflexivity].
Example C37_ex_hyps : fhdr_ok true ex_fh /\ layout_ok true ex_ly2 /\ zlen ex_file < 2 ^ 64 /\ has_header true Little ex_file ex_fh ex_ly2 /\
  has_tables true Little ex_file ex_ly2 ex_ps (map sc_hdr ex_secs) /\ Forall (phdr_ok true) ex_ps /\ Forall (shdr_ok true) (map sc_hdr ex_secs) /\
  ly_section_num ex_ly2 = 1 + zlen ex_secs /\ has_sections true Little ex_file ex_ly2 ex_secs ex_tab.
Proof.
  split; [unfold fhdr_ok, u16_ok, u32_ok, word_ok, ex_fh; cbn; lia|]. split; [unfold layout_ok, word_ok, u32_ok, ex_ly2; cbn; lia|]. split; [reflexivity|].
  split. { eexists. split; [vm_compute; reflexivity|]. split; [hc|]. intros _. hc. }
  assert (S : Forall (shdr_ok true) (map sc_hdr ex_secs)) by (repeat constructor; cbn; lia).
  split. { split; [reflexivity|]. split; [hc|]. right. split; [reflexivity|hc]. }
  split; [repeat constructor; cbn; lia|]. split; [exact S|]. split; [reflexivity|].
  split; [|split; [eexists; split; [reflexivity|split; [reflexivity|discriminate]]|split; [hc|intros []]]].
  rewrite Forall_map in S. repeat (apply Forall_cons; [split; [exact (Forall_inv S)|split; [split; [hc|cbn; lia]|]]; [cbv [content sc_hdr mk_sh sh_type Z.eqb Pos.eqb sh_size sh_offset sc_data]; first [split; [reflexivity|hc]|reflexivity]]|apply Forall_inv_tail in S]).
  constructor.
Qed.
Definition ex_t : sectab := match eh_parse true ex_file with Ok raw => match eh_sections true Little raw ex_file with Ok t => t | _ => {| stab_sections := []; stab_strings := strtab_default |} end | _ => {| stab_sections := []; stab_strings := strtab_default |} end.
Example C37_ex : section_by_name ex_t [46; 115] = Some (2, mk_sh 4 3 180 10 0) /\ section_by_name ex_t [98] = Some (4, mk_sh 8 18 286 16 3) /\
  section_by_name ex_t [97] = None /\ sh_data (mk_sh 4 8 999 999 0) ex_file = Ok [] /\ sh_data (mk_sh 4 1 999 999 0) ex_file = Err.
Proof. vm_compute. repeat split. Qed.
(** the hypotheses of [C26_symtab_roundtrip] for this file *)
Example C26_ex_hyps : Forall (wsym_ok true) ex_syms /\ zget (stab_sections ex_t) 3 = Some (mk_sh 7 2 190 96 2) /\
  content ex_file (mk_sh 7 2 190 96 2) ex_symdata /\ zget (stab_sections ex_t) 2 = Some (mk_sh 4 3 180 10 0) /\
  content ex_file (mk_sh 4 3 180 10 0) ex_tab /\
  (forall i' h, zget (stab_sections ex_t) i' = Some h -> sh_type h = 2 -> 3 <= i') /\
  (forall h, In h (stab_sections ex_t) -> sh_type h = 18 -> sh_link h = 3 -> content ex_file h (concat (map (write_u Little 4) ex_shndx))) /\
  (exists h, In h (stab_sections ex_t) /\ sh_type h = 18 /\ sh_link h = 3) /\ shndx_for true Little ex_syms ex_shndx.
Proof.
  assert (E : stab_sections ex_t = null_shdr ex_ly2 :: map sc_hdr ex_secs) by (vm_compute; reflexivity).
  split; [repeat constructor; cbn; lia|]. split; [reflexivity|]. split; [split; [reflexivity|hc]|]. split; [reflexivity|]. split; [split; [reflexivity|hc]|].
  split; [|split; [|split]].
  - intros i' h H Ht. destruct (Z_lt_dec i' 3); [|lia]. pose proof (zget_Some_lt _ _ _ H). assert (i' = 0 \/ i' = 1 \/ i' = 2) as [->|[->| ->]] by lia;
      vm_compute in H; inversion H; subst h; discriminate.
  - rewrite E. cbn [In map ex_secs sc_hdr]. intros h [<-|[<-|[<-|[<-|[<-|[<-|[]]]]]]]; cbn [mk_sh sh_type null_shdr]; try discriminate.
    intros _ _. split; [reflexivity|hc].
  - exists (mk_sh 8 18 286 16 3). rewrite E. split; [cbn; tauto|split; reflexivity].
  - repeat constructor; cbn; lia.
Qed.
Example C26_ex : match stab_symbols true Little ex_file ex_t 2 with
  | Ok st => map (fun n => match symtab_symbol st n with Ok r => (symbol_section st r n, symbol_name st r) | _ => (Err, Err) end) [0; 1; 2; 3; 4] =
      [(Err, Err); (Ok (Some 70001), Ok [97; 98]); (Ok None, Ok [98]); (Ok (Some 1), Ok [116]); (Err, Err)]
  | _ => False end.
Proof. vm_compute. repeat split. Qed.
Example C37_ex_segment : match ex_ps with
  | [p; q] => ph_data_range p ex_file 4097 2 = Ok (Some [2; 3]) /\ ph_data_range p ex_file 4097 4 = Ok None /\ ph_interpreter q ex_file = Ok (Some [46; 115]) 
  | _ => False end.
Proof. vm_compute. repeat split. Qed.
