(** Proofs about the unified ELF reader: facts about a parsed file. *)
From Verif Require Import Core_proofs Str_proofs Util_proofs Hash_proofs Rel_proofs Note_proofs Ver_proofs File_proofs Elf_proofs ElfR_proofs Pod_proofs.
From Verif Require PeI_proofs PeX_proofs Ar_spec Ar_proofs ArSym_proofs CoffR_proofs CoffI_proofs CoffW_proofs Trie_proofs MachW_proofs.
From Verif Require Import Obj_model ElfF_spec ElfF_proofs ElfG_proofs.

Lemma slice_all_inv d n cs : 0 < n -> slice_from_all_bytes d n = Ok cs -> d = concat cs /\ Forall (fun c => zlen c = n) cs.
Proof.
  intros Hn H. unfold slice_from_all_bytes, slice_from_bytes in H. destruct (cmul 64 (zlen d / n) n) as [m|] eqn:M; cbn [of_opt bind] in H; [|discriminate].
  assert (m = zlen d / n * n) as -> by (unfold cmul in M; destruct (Z.ltb_spec (zlen d / n * n) (2 ^ 64)); congruence).
  pose proof (zlen_nonneg d). assert (0 <= zlen d / n) by (apply Z.div_pos; lia). assert (zlen d / n * n <= zlen d) by (rewrite Z.mul_comm; apply Z.mul_div_le; lia).
  unfold get_from in H. destruct ((0 <=? zlen d / n * n) && (zlen d / n * n <=? zlen d)) eqn:B; cbn [of_opt bind] in H; [|discriminate].
  destruct (zdrop (zlen d / n * n) d) as [|x r] eqn:D; [|discriminate].
  assert (L : zlen (zdrop (zlen d / n * n) d) = 0) by (rewrite D; reflexivity). rewrite zlen_zdrop in L by lia.
  assert (cs = chunks n (Z.to_nat (zlen d / n)) d) as -> by congruence.
  split; [symmetry; apply CoffW_proofs.chunks_cat|apply CoffW_proofs.chunks_len]; rewrite ?Z2Nat.id by lia; lia.
Qed.
Lemma slice_all_ok d n cs : 0 < n -> bytes_ok d -> slice_from_all_bytes d n = Ok cs -> Forall (fun c => zlen c = n /\ bytes_ok c) cs.
Proof.
  intros Hn K H. apply slice_all_inv in H as (-> & L); [|exact Hn]. apply Forall_concat in K. apply Forall_forall. intros c I. rewrite Forall_forall in K, L. split; [apply L|apply K]; exact I.
Qed.
Lemma sh_data_bytes s F d : bytes_ok F -> sh_data s F = Ok d -> bytes_ok d.
Proof. intros K. unfold sh_data. destruct (sh_file_range s) as [[o n]|]; [apply rr_read_bytes_at_ok; exact K|]. intros [= <-]. constructor. Qed.
Lemma word_fld (is64 : bool) e o n b : bytes_ok b -> 0 <= o -> 0 <= n -> 8 * n <= (if is64 then 64 else 32) -> word_ok is64 (fld e o n b).
Proof.
  intros K Ho Hn L. pose proof (fld_bound e o n b K Ho Hn) as [H1 H2]. unfold word_ok. split; [lia|]. eapply Z.lt_le_trans; [exact H2|]. destruct is64; apply Z.pow_le_mono_r; lia.
Qed.
Lemma u_fld e o n m b : bytes_ok b -> 0 <= o -> 0 <= n -> m = 8 * n -> 0 <= fld e o n b < 2 ^ m.
Proof. intros K Ho Hn ->. apply fld_bound; assumption. Qed.
Lemma shdr_of_ok is64 e b : bytes_ok b -> shdr_ok is64 (shdr_of is64 e b).
Proof.
  intros K. unfold shdr_ok, shdr_of. destruct is64; cbn [sh_name sh_type sh_flags sh_addr sh_offset sh_size sh_link sh_info sh_addralign sh_entsize];
  (repeat match goal with |- _ /\ _ => split end); first [apply word_fld; try lia; exact K|apply u_fld; try lia; exact K].
Qed.
Lemma phdr_of_ok is64 e b : bytes_ok b -> phdr_ok is64 (phdr_of is64 e b).
Proof.
  intros K. unfold phdr_ok, phdr_of. destruct is64; cbn [p_type p_flags p_offset p_vaddr p_paddr p_filesz p_memsz p_align];
  (repeat match goal with |- _ /\ _ => split end); first [apply word_fld; try lia; exact K|apply u_fld; try lia; exact K].
Qed.
Lemma sym_of_ok is64 e b : bytes_ok b -> sym_ok (sym_of is64 e b) /\ u32_ok (st_name (sym_of is64 e b)).
Proof.
  intros K. unfold sym_ok, sym_of, u16_ok, u32_ok. destruct is64; cbn [st_name st_info st_other st_shndx];
  repeat match goal with |- context [fld ?e ?o ?n b] => let H := fresh in pose proof (u_fld e o n (8 * n) b K ltac:(lia) ltac:(lia) eq_refl) as H; generalize dependent (fld e o n b); intros ? H end; lia.
Qed.
(** a string table in [F] *)
Definition strtab_in (F : bytes) (s : strtab) : Prop := match stb_data s with Some d => d = F | None => True end.
Record facts (is64 : bool) (F : bytes) (f : efile) : Prop := {
  fa_raw : eh_parse is64 F = Ok (ef_raw f);
  fa_endian : eh_endian (ef_raw f) = Ok (ef_endian f);
  fa_segs : program_headers is64 (ef_endian f) (ef_raw f) F = Ok (ef_segments f);
  fa_secs : eh_sections is64 (ef_endian f) (ef_raw f) F = Ok (ef_sections f);
  fa_syms : stab_symbols is64 (ef_endian f) F (ef_sections f) SHT_SYMTAB = Ok (ef_symbols f);
  fa_dyns : stab_symbols is64 (ef_endian f) F (ef_sections f) SHT_DYNSYM = Ok (ef_dynsyms f);
  fa_rels : relsec_parse (ef_sections f) (smt_section (ef_symbols f)) = Ok (ef_relocs f) }.
Lemma parse_iff is64 F f : efile_parse is64 F = Ok f <-> facts is64 F f.
Proof.
  split.
  - intros P. unfold efile_parse in P. destruct (eh_parse is64 F) as [raw| |] eqn:E1; try discriminate. cbn [bind] in P. destruct (eh_endian raw) as [e| |] eqn:E2; try discriminate. cbn [bind] in P.
    destruct (program_headers is64 e raw F) as [ps| |] eqn:E3; try discriminate. cbn [bind] in P. destruct (eh_sections is64 e raw F) as [t| |] eqn:E4; try discriminate. cbn [bind] in P.
    destruct (stab_symbols is64 e F t SHT_SYMTAB) as [sy| |] eqn:E5; try discriminate. cbn [bind] in P. destruct (stab_symbols is64 e F t SHT_DYNSYM) as [dy| |] eqn:E6; try discriminate. cbn [bind] in P.
    destruct (relsec_parse t (smt_section sy)) as [r| |] eqn:E; try discriminate. cbn [bind] in P. injection P as <-. constructor; assumption.
  - intros [A B C D E G H]. unfold efile_parse. rewrite A. cbn [bind]. rewrite B. cbn [bind]. rewrite C. cbn [bind]. rewrite D. cbn [bind]. rewrite E. cbn [bind]. rewrite G. cbn [bind]. rewrite H. cbn [bind].
    destruct f; reflexivity.
Qed.
Lemma raw_ok is64 F raw : bytes_ok F -> eh_parse is64 F = Ok raw -> bytes_ok raw /\ raw = zslice 0 (ehdr_size is64) F /\ ehdr_size is64 <= zlen F /\ eh_supported is64 raw = true.
Proof.
  intros K. unfold eh_parse. rewrite rr_read_at_eq by (destruct is64; cbn; lia). destruct (Z.leb_spec (0 + ehdr_size is64) (zlen F)); cbn [bind]; [|discriminate].
  destruct (eh_supported is64 _) eqn:S; [|discriminate]. intros [= <-]. split; [apply bytes_ok_zslice; exact K|]. split; [reflexivity|]. split; [lia|exact S].
Qed.
Lemma all_zget {A} (P : A -> Prop) l : (forall i x, zget l i = Some x -> P x) -> Forall P l.
Proof. intros H. apply Forall_forall. intros x I. apply In_zget in I as (i & E). exact (H i x E). Qed.
Lemma section_headers_ok is64 e raw F l : bytes_ok F -> bytes_ok raw -> zlen F < 2 ^ 64 -> section_headers is64 e raw F = Ok l -> Forall (shdr_ok is64) l.
Proof.
  intros K Kr HF E. destruct (tables_total is64 e raw F K Kr HF) as (_ & _ & _ & _ & _ & _ & H). rewrite E in H. destruct H as [->|(_ & _ & H)]; [constructor|].
  apply all_zget. intros i s Z1. rewrite (H i s Z1). apply shdr_of_ok, bytes_ok_zdrop, K.
Qed.
Lemma program_headers_ok is64 e raw F l : bytes_ok F -> bytes_ok raw -> zlen F < 2 ^ 64 -> program_headers is64 e raw F = Ok l -> Forall (phdr_ok is64) l.
Proof.
  intros K Kr HF E. destruct (tables_total is64 e raw F K Kr HF) as (_ & _ & _ & _ & _ & H & _). rewrite E in H. destruct H as [->|(_ & _ & H)]; [constructor|].
  apply all_zget. intros i s Z1. rewrite (H i s Z1). apply phdr_of_ok, bytes_ok_zdrop, K.
Qed.
Lemma sections_ok is64 e raw F t : bytes_ok F -> bytes_ok raw -> zlen F < 2 ^ 64 -> eh_sections is64 e raw F = Ok t -> Forall (shdr_ok is64) (stab_sections t) /\ strtab_in F (stab_strings t).
Proof.
  intros K Kr HF. unfold eh_sections. destruct (section_headers is64 e raw F) as [l| |] eqn:E; cbn [bind]; try discriminate.
  destruct (section_strings is64 e raw F l) as [s| |] eqn:S; cbn [bind]; try discriminate. intros [= <-]. cbn [stab_sections stab_strings]. split; [exact (section_headers_ok _ _ _ _ _ K Kr HF E)|].
  unfold section_strings in S. destruct l as [|h l]; [injection S as <-; exact I|]. destruct (shstrndx is64 e raw F) as [i| |]; cbn [bind] in S; try discriminate.
  destruct (zget (h :: l) i) as [x|]; cbn [of_opt bind] in S; try discriminate. destruct (sh_file_range x) as [[o n]|]; [|injection S as <-; exact I].
  destruct (cadd 64 o n); cbn [of_opt bind] in S; try discriminate. injection S as <-. reflexivity.
Qed.
Lemma symtab_ok is64 e F t i h st : bytes_ok F -> symtab_parse is64 e F t i h = Ok st ->
  Forall (fun s => sym_ok s /\ u32_ok (st_name s)) (smt_symbols st) /\ strtab_in F (smt_strings st).
Proof.
  intros K. unfold symtab_parse. destruct (negb _); [discriminate|]. unfold sh_data_as_array. destruct (sh_data h F) as [d| |] eqn:D; cbn [bind]; try discriminate.
  destruct (slice_from_all_bytes d (sym_size is64)) as [cs| |] eqn:C; cbn [bind]; try discriminate. destruct (stab_strings_at t F (sh_link h)) as [ss| |] eqn:S; cbn [bind]; try discriminate.
  destruct (find_shndx _ _ _ _ _) as [x| |]; cbn [bind]; try discriminate. intros [= <-]. cbn [smt_symbols smt_strings]. split.
  - apply slice_all_ok in C; [|destruct is64; cbn; lia|exact (sh_data_bytes _ _ _ K D)]. rewrite Forall_map. eapply Forall_impl; [|exact C]. intros c (_ & Kc). apply sym_of_ok. exact Kc.
  - unfold stab_strings_at in S. destruct (sh_link h =? 0); [injection S as <-; exact I|]. destruct (stab_section t (sh_link h)) as [h2| |]; cbn [bind] in S; try discriminate.
    unfold sh_strings in S. destruct (negb _); [discriminate|]. destruct (cadd 64 _ _); cbn [of_opt bind] in S; try discriminate. injection S as <-. reflexivity.
Qed.
Lemma symbols_ok is64 e F t ty st : bytes_ok F -> stab_symbols is64 e F t ty = Ok st ->
  Forall (fun s => sym_ok s /\ u32_ok (st_name s)) (smt_symbols st) /\ strtab_in F (smt_strings st).
Proof.
  intros K. unfold stab_symbols. destruct (negb _); [discriminate|]. destruct (find _ _) as [[i h]|]; [apply symtab_ok; exact K|]. intros [= <-]. split; [constructor|exact I].
Qed.
Lemma stb_get_bytes F s o b : bytes_ok F -> strtab_in F s -> stb_get s o = Ok b -> bytes_ok b /\ ~ In 0 b.
Proof.
  intros K S. unfold stb_get, strtab_get, strtab_in in *. destruct (stb_data s) as [d|]; [|discriminate]. subst d. destruct (cadd 64 _ o); cbn [of_opt bind]; [|discriminate].
  unfold rr_read_bytes_at_until, get_range. destruct (_ && _); cbn [of_opt bind]; [|discriminate]. destruct (memchr 0 _) as [n|] eqn:M; [|discriminate].
  intros H. unfold get_to in H. destruct (_ && _); [|discriminate]. cbn [of_opt] in H. assert (b = ztake n (zslice z (stb_end s - z) F)) as ->.
  { congruence. }
  split; [apply bytes_ok_ztake, bytes_ok_zslice, K|]. apply memchr_Some in M as (_ & _ & N). exact N.
Qed.
