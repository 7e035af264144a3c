(** Property theorems C38 (relocation and dynamic entries), C39 (relocation sections), C40 (writer's section headers). *)
From Verif Require Import Core_proofs Str_proofs Elf_props ElfR_spec ElfR_proofs.

(** * C38 *)
(** A relocation entry has the size and the layout of the ELF specification. *)
Theorem C38_rel_layout : forall is64 is_rela e mips r, rel_ok is64 is_rela r -> (mips = true -> e = Little) ->
  enc_rel is64 is_rela e mips r = rel_layout is64 is_rela e mips r /\ zlen (enc_rel is64 is_rela e mips r) = rel_size is64 is_rela.
Proof. exact (fun is64 is_rela e mips r H M => conj (rel_layout_eq is64 is_rela e mips r H M) (zlen_enc_rel is64 is_rela e mips r)). Qed.
Print Assumptions C38_rel_layout.
(** It is decoded to the same relocation, including the scrambled [r_info] of 64-bit little endian MIPS. *)
Theorem C38_rel_roundtrip : forall is64 is_rela e mips r, rel_ok is64 is_rela r ->
  rel_of is64 is_rela e mips (enc_rel is64 is_rela e mips r) = r.
Proof. exact rel_roundtrip. Qed.
Print Assumptions C38_rel_roundtrip.
(** Conversely every entry of a file decodes to values that can be encoded, and encoding restores its bytes. *)
Theorem C38_rel_reencode : forall is64 is_rela e mips b, bytes_ok b -> zlen b = rel_size is64 is_rela ->
  rel_ok is64 is_rela (rel_of is64 is_rela e mips b) /\ enc_rel is64 is_rela e mips (rel_of is64 is_rela e mips b) = b.
Proof. exact rel_reencode. Qed.
Print Assumptions C38_rel_reencode.
(** Dynamic entries. *)
Theorem C38_dyn_roundtrip : forall is64 e d, dyn_ok is64 d ->
  enc_dyn is64 e d = Ok (dyn_layout is64 e d) /\ dyn_of is64 e (dyn_layout is64 e d) = d /\ zlen (dyn_layout is64 e d) = dyn_size is64.
Proof. exact dyn_roundtrip. Qed.
Print Assumptions C38_dyn_roundtrip.
(** The writer reports a dynamic entry that does not fit 32-bit ELF; it never truncates it. *)
Theorem C38_dyn_overflow : forall e d, 0 <= d_val d -> (enc_dyn false e d = Err <-> ~ dyn_ok false d).
Proof. exact dyn_overflow. Qed.
Print Assumptions C38_dyn_overflow.
(** Iteration over the dynamic entries stops at [DT_NULL], and the import libraries are the [DT_NEEDED] ones. *)
Theorem C38_dyn_iterate : forall l tl, Forall (fun d => d_tag d <> 0) l -> tl = [] \/ (exists d tl', tl = d :: tl' /\ d_tag d = 0) ->
  runs dyn_next (l ++ tl) l false [].
Proof. exact dyn_runs. Qed.
Print Assumptions C38_dyn_iterate.
Theorem C38_import_libraries : forall t l tl names, tl = [] \/ (exists d tl', tl = d :: tl' /\ d_tag d = 0) -> Forall (fun d => d_tag d <> 0) l ->
  Forall2 (fun d n => dyn_string t d = Ok n) (filter (fun d => d_tag d =? 1) l) names ->
  runs (implib_next t) (l ++ tl) names false [].
Proof. exact implib_runs. Qed.
Print Assumptions C38_import_libraries.
(** Arbitrary data: no panic. *)
Theorem C38_total : forall is64 e mips F t h d l, stab_dynamic is64 e F t <> Panic /\ sh_rel is64 e F h <> Panic /\ sh_rela is64 e mips F h <> Panic /\
  sh_relr is64 e F h <> Panic /\ sh_group e F h <> Panic /\ dyn_string l d <> Panic.
Proof. exact elfr_total. Qed.
Print Assumptions C38_total.

Definition ex_rel : crel := {| cr_offset := 4096; cr_sym := 16909060; cr_type := 84281096; cr_addend := - 5 |}.
Example C38_ex : rel_ok true true ex_rel /\
  enc_rel true true Little true ex_rel = [0; 16; 0; 0; 0; 0; 0; 0; 4; 3; 2; 1; 5; 6; 7; 8; 251; 255; 255; 255; 255; 255; 255; 255] /\
  rel_of true true Little true (enc_rel true true Little true ex_rel) = ex_rel /\
  rel_of false false Big false [0; 0; 0; 8; 0; 0; 5; 2] = {| cr_offset := 8; cr_sym := 5; cr_type := 2; cr_addend := 0 |}.
Proof. split; [unfold rel_ok; cbn; lia|]. vm_compute. repeat split. Qed.
Example C38_ex_dyn : dyn_ok false {| d_tag := 1; d_val := 7 |} /\ enc_dyn false Big {| d_tag := 1; d_val := 7 |} = Ok [0; 0; 0; 1; 0; 0; 0; 7] /\
  enc_dyn false Big {| d_tag := 1; d_val := 2 ^ 32 |} = Err /\
  fst (implib_next {| stb_data := Some [0; 97; 98; 0]; stb_start := 0; stb_end := 4 |} [{| d_tag := 5; d_val := 2 |}; {| d_tag := 1; d_val := 1 |}; {| d_tag := 0; d_val := 0 |}]) = Ok (Some [97; 98]).
Proof. vm_compute. repeat split; congruence. Qed.

(** * C39 *)
(** Building the table of relocation sections fails exactly if some relocation section (for this symbol table) has a
    target that does not exist or is itself a relocation section; it never panics. *)
Theorem C39_parse : forall t symsec, relsec_parse t symsec <> Panic /\ (relsec_parse t symsec = Err <-> bad_target t symsec).
Proof. exact relsec_parse_iff. Qed.
Print Assumptions C39_parse.
(** Following the table from section [i] gives exactly the sections that relocate it, in file order, and ends. *)
Theorem C39_chain : forall t symsec r i h, relsec_parse t symsec = Ok r ->
  (forall h0, zget (stab_sections t) 0 = Some h0 -> ~ reloc_section h0) ->
  zget (stab_sections t) i = Some h -> i <> 0 -> ~ reloc_section h ->
  follows (relsec_get r) i (filter (relocates t symsec i) (indices t)).
Proof. exact chain_exact. Qed.
Print Assumptions C39_chain.
(** The relocation iterator of section [i] yields exactly the relocations of these sections, in order.  Sections that
    cannot be decoded contribute nothing. *)
Theorem C39_section_relocations : forall is64 e mips F t symsec r i h l, bytes_ok F -> zlen F < 2 ^ 64 -> Forall (shdr_ok is64) (stab_sections t) ->
  relsec_parse t symsec = Ok r -> (forall h0, zget (stab_sections t) 0 = Some h0 -> ~ reloc_section h0) ->
  zget (stab_sections t) i = Some h -> i <> 0 -> ~ reloc_section h ->
  all_relocs is64 e mips F t (filter (relocates t symsec i) (indices t)) l ->
  exists st', runs (secrel_next is64 e mips F t r) (secrel_new i) (map reloc_view l) false st'.
Proof. exact section_relocs. Qed.
Print Assumptions C39_section_relocations.
(** Dynamic relocations: those of all sections linked to the dynamic symbol table. *)
Theorem C39_dynamic_relocations : forall is64 e mips F t dynsym l, bytes_ok F -> zlen F < 2 ^ 64 -> Forall (shdr_ok is64) (stab_sections t) ->
  all_relocs is64 e mips F t (filter (dyn_relocates t dynsym) (indices t)) l ->
  exists st', runs (dynrel_next is64 e mips F t dynsym) dynrel_new (map reloc_view l) false st'.
Proof. exact dynamic_relocs. Qed.
Print Assumptions C39_dynamic_relocations.
(** Arbitrary files, any start: the iterators end, without error or panic. *)
Theorem C39_total : forall is64 e mips F t symsec r i dynsym, bytes_ok F -> relsec_parse t symsec = Ok r ->
  (exists l st', runs (secrel_next is64 e mips F t r) (secrel_new i) l false st') /\
  (exists l st', runs (dynrel_next is64 e mips F t dynsym) dynrel_new l false st').
Proof. exact (fun is64 e mips F t symsec r i dynsym H R => conj (section_relocs_total is64 e mips F t symsec r i H R) (dynamic_relocs_total is64 e mips F t dynsym H)). Qed.
Print Assumptions C39_total.

(** Section 1 is relocated by 2 (REL) and 4 (RELA); 3 is not relevant. *)
Definition ex_r1 : crel := {| cr_offset := 4; cr_sym := 1; cr_type := 2; cr_addend := 0 |}.
Definition ex_r2 : crel := {| cr_offset := 8; cr_sym := 0; cr_type := 3; cr_addend := - 1 |}.
Definition ex_F : bytes := enc_rel false false Little false ex_r1 ++ enc_rel false true Little false ex_r2.
Definition mk_rs ty off size link info : shdr :=
  {| sh_name := 0; sh_type := ty; sh_flags := 0; sh_addr := 0; sh_offset := off; sh_size := size; sh_link := link; sh_info := info; sh_addralign := 1; sh_entsize := 0 |}.
Definition ex_t : sectab := {| stab_sections := [shdr_default; mk_rs 1 0 0 0 0; mk_rs 9 0 8 7 1; mk_rs 9 0 8 6 1; mk_rs 4 8 12 7 1]; stab_strings := strtab_default |}.
Example C39_ex : relsec_parse ex_t 7 = Ok [0; 2; 4; 0; 0] /\ filter (relocates ex_t 7 1) (indices ex_t) = [2; 4] /\
  relsec_parse {| stab_sections := [shdr_default; mk_rs 4 0 0 7 2; mk_rs 9 0 8 7 1]; stab_strings := strtab_default |} 7 = Err /\
  (let n := secrel_next false Little false ex_F ex_t [0; 2; 4; 0; 0] in
   let a := n (secrel_new 1) in let b := n (snd a) in let c := n (snd b) in
   fst a = Ok (Some (4, {| rl_sym := Some 1; rl_addend := 0; rl_implicit := true; rl_type := 2 |})) /\
   fst b = Ok (Some (8, {| rl_sym := None; rl_addend := - 1; rl_implicit := false; rl_type := 3 |})) /\ fst c = Ok None).
Proof. vm_compute. repeat split. Qed.
Example C39_ex_hyps : bytes_ok ex_F /\ zlen ex_F < 2 ^ 64 /\ Forall (shdr_ok false) (stab_sections ex_t) /\ ~ bad_target ex_t 7 /\
  all_relocs false Little false ex_F ex_t (filter (relocates ex_t 7 1) (indices ex_t)) [(ex_r1, true); (ex_r2, false)].
Proof.
  split; [apply bytes_ok_forallb; vm_compute; reflexivity|]. split; [reflexivity|]. split.
  { repeat constructor; unfold u32_ok; cbn; lia. }
  split. { intros B. apply (proj2 (C39_parse ex_t 7)) in B. vm_compute in B. discriminate. }
  exists [[(ex_r1, true)]; [(ex_r2, false)]]. split; [reflexivity|].
  replace (filter (relocates ex_t 7 1) (indices ex_t)) with [2; 4] by (vm_compute; reflexivity).
  constructor; [|constructor; [|constructor]].
  - eexists. split; [reflexivity|]. apply (sr_rel false Little false ex_F _ [ex_r1]); [reflexivity| |].
    + repeat constructor; cbn; lia.
    + split; [reflexivity|]. hc.
  - eexists. split; [reflexivity|]. apply (sr_rela false Little false ex_F _ [ex_r2]); [reflexivity| |discriminate|].
    + repeat constructor; cbn; lia.
    + split; [reflexivity|]. hc.
Qed.

(** * C40 *)
(** A relocation section header made by the writer for a table of relocations makes the reader return them. *)
Theorem C40_reloc_header : forall is64 (is_rela : bool) e mips F name sec symtab off l, zlen F < 2 ^ 64 -> Forall (rel_ok is64 is_rela) l ->
  holds F off (concat (map (enc_rel is64 is_rela e mips) l)) ->
  let h := wr_reloc_header is64 is_rela name sec symtab off (zlen l) in
  sh_rel is64 e F h = Ok (if is_rela then None else Some (l, symtab)) /\
  sh_rela is64 e mips F h = Ok (if is_rela then Some (l, symtab) else None).
Proof. exact reloc_header_read. Qed.
Print Assumptions C40_reloc_header.
(** A COMDAT group: flag word 1 ([GRP_COMDAT]) and the member sections. *)
Theorem C40_group_header : forall e F name symtab symbol off members, zlen F < 2 ^ 64 -> Forall u32_ok members ->
  holds F off (wr_group_data e members) ->
  sh_group e F (wr_group_header name symtab symbol off (zlen members)) = Ok (Some (1, members)).
Proof. exact group_header_read. Qed.
Print Assumptions C40_group_header.
(** The dynamic section and its string table. *)
Theorem C40_dynamic_header : forall is64 e F t name addr off l i j hstr tab, zlen F < 2 ^ 64 -> Forall (dyn_ok is64) l -> 
  holds F off (concat (map (dyn_layout is64 e) l)) ->
  zget (stab_sections t) i = Some (wr_dyn_header is64 name addr off (zlen l) j) ->
  (forall i' h, zget (stab_sections t) i' = Some h -> sh_type h = 6 -> i <= i') ->
  zget (stab_sections t) j = Some hstr -> j <> 0 -> sh_type hstr = 3 -> content F hstr tab ->
  exists dt, stab_dynamic is64 e F t = Ok dt /\ dt_dynamics dt = l /\
    forall d s, string_at tab (d_val d) s -> d_val d < 2 ^ 32 -> dyn_string (dt_strings dt) d = Ok s.
Proof. exact dyn_header_read. Qed.
Print Assumptions C40_dynamic_header.
(** Finding: the header that the writer makes for a relative relocation (RELR) section is not recognised by the
    reader: [relr] returns nothing whatever the section holds, because the writer sets [SHT_RELA].  Instead [rela]
    decodes the RELR words as RELA entries. *)
Theorem C40_relr_refuted : forall is64 e F name off size, sh_relr is64 e F (wr_relr_header is64 name off size) = Ok None.
Proof. exact relr_header_unread. Qed.
Print Assumptions C40_relr_refuted.
Theorem C40_relr_as_rela_refuted : exists F words, Forall u64_ok words /\ holds F 0 (concat (map (write_u Little 8) words)) /\
  exists l, sh_rela true Little false F (wr_relr_header true 0 0 (8 * zlen words)) = Ok (Some (l, 0)) /\ l <> [].
Proof. exact relr_header_wrong. Qed.
Print Assumptions C40_relr_as_rela_refuted.
Example C40_ex : holds ex_F 8 (concat (map (enc_rel false true Little false) [ex_r2])) /\
  sh_rela false Little false ex_F (wr_reloc_header false true 0 1 7 8 1) = Ok (Some ([ex_r2], 7)) /\
  sh_group Big (wr_group_data Big [3; 70000]) (wr_group_header 0 0 0 0 2) = Ok (Some (1, [3; 70000])).
Proof. split; [hc|]. vm_compute. repeat split. Qed.
