(** Proofs for ELF headers, sections and symbols. *)
From Verif Require Import Core_proofs Str_proofs Util_proofs Hash_proofs Pod_proofs File_proofs Rel_proofs Map_proofs.
From Verif Require Export Elf_spec.

Lemma fld_app_l e o n a c : 0 <= o -> 0 <= n -> o + n <= zlen a -> fld e o n (a ++ c) = fld e o n a.
Proof. intros. unfold fld. rewrite zslice_app1 by lia. reflexivity. Qed.
Lemma fld_byte e o a : 0 <= o -> fld e o 1 a = match zget a o with Some b => b | None => 0 end.
Proof.
  intros Ho. unfold fld. destruct (zget a o) as [b|] eqn:E.
  - apply zget_split in E as (x & y & -> & <-). rewrite zslice_app2 by lia. rewrite Z.sub_diag. change (zslice 0 1 (b :: y)) with [b]. destruct e; cbn -[Z.mul Z.add]; lia.
  - apply zget_None in E. unfold zslice. rewrite zdrop_all by lia. destruct e; reflexivity.
Qed.
Lemma enc_word_eq is64 e v : word_ok is64 v -> enc_word is64 e v = write_u e (if is64 : bool then 8 else 4) v.
Proof. unfold word_ok, enc_word. destruct is64; intro H; [reflexivity|]. rewrite wrap_u_id by (exact H). reflexivity. Qed.
Lemma zlen_enc_word is64 e v : zlen (enc_word is64 e v) = if is64 then 8 else 4.
Proof. unfold enc_word. destruct is64; rewrite zlen_write_u; reflexivity. Qed.

(** * Structs *)
Lemma zlen_enc_phdr is64 e p : zlen (enc_phdr is64 e p) = phdr_size is64.
Proof. destruct is64; unfold enc_phdr, phdr_size; rewrite !zlen_app, !zlen_write_u; reflexivity. Qed.
Lemma zlen_enc_shdr is64 e p : zlen (enc_shdr is64 e p) = shdr_size is64.
Proof. unfold enc_shdr. rewrite !zlen_app, !zlen_enc_word, !zlen_write_u. destruct is64; reflexivity. Qed.
Lemma phdr_of_enc is64 e p : phdr_ok is64 p -> phdr_of is64 e (enc_phdr is64 e p) = p.
Proof.
  unfold phdr_ok, word_ok, u32_ok. intros (H1 & H2 & H3 & H4 & H5 & H6 & H7 & H8).
  destruct is64; unfold phdr_of, enc_phdr; [|rewrite !wrap_u_id by assumption]; fld_norm; destruct p; reflexivity.
Qed.
Lemma shdr_of_enc is64 e s : shdr_ok is64 s -> shdr_of is64 e (enc_shdr is64 e s) = s.
Proof.
  unfold shdr_ok. intros (H1 & H2 & H3 & H4 & H5 & H6 & H7 & H8 & H9 & H10).
  unfold enc_shdr. rewrite !enc_word_eq by assumption. unfold word_ok, u32_ok in *.
  destruct is64; unfold shdr_of; fld_norm; destruct s; reflexivity.
Qed.
Lemma symsec_new_ok n : u32_ok n -> u16_ok (symsec_new n).
Proof.
  unfold u32_ok, u16_ok, symsec_new, SHN_XINDEX, SHN_LORESERVE. intro H. destruct (Z.leb_spec 65280 n); [lia|].
  rewrite wrap_u_id by lia. lia.
Qed.
Lemma symbol_fields is64 e s : wsym_ok is64 s ->
  zlen (fst (enc_sym is64 e s)) = sym_size is64 /\ same_sym s (sym_of is64 e (fst (enc_sym is64 e s))).
Proof.
  unfold wsym_ok. intros (H1 & H2 & H3 & H4 & H5 & H6 & H7).
  assert (Hx : u16_ok (match ws_section s with Some n => symsec_new n | None => ws_shndx s end))
    by (destruct (ws_section s); [apply symsec_new_ok|]; assumption).
  split.
  { destruct is64; unfold enc_sym, sym_size; cbn [fst]; rewrite !zlen_app, !zlen_write_u; reflexivity. }
  unfold same_sym, enc_sym, u16_ok, u32_ok, word_ok in *. cbn [fst].
  destruct is64; [|rewrite !wrap_u_id by assumption]; unfold sym_of; fld_norm; cbn [st_name st_info st_other st_shndx st_value st_size];
    (split; [reflexivity|]); (split; [reflexivity|]); (split; [reflexivity|]); (split; [reflexivity|]); (split; [reflexivity|]); intros ->; reflexivity.
Qed.

Lemma symbol_xindex is64 e s : wsym_ok is64 s -> snd (enc_sym is64 e s) = xindex_of s.
Proof.
  unfold wsym_ok. intros (_ & _ & _ & _ & _ & _ & H7). unfold enc_sym, xindex_of, symsec_new. cbn [snd].
  change SHN_LORESERVE with 65280. change SHN_XINDEX with 65535.
  destruct (ws_section s) as [n|]; [|reflexivity]. destruct (65280 <=? n) eqn:E; [reflexivity|].
  unfold u32_ok in H7. rewrite wrap_u_id by lia. destruct (n =? 65535) eqn:E2; [lia|reflexivity].
Qed.

(** * File header *)
Definition pn_field (l : layout) : Z := if 65535 <=? ly_segment_num l then 65535 else ly_segment_num l.
Definition sn_field (l : layout) : Z := if 65280 <=? ly_section_num l then 0 else ly_section_num l.
Lemma header_error is64 e h l : (exists hb, enc_file_header is64 e h l = Ok hb /\ zlen hb = ehdr_size is64) \/
  enc_file_header is64 e h l = Err /\ ly_segment_num l >= 65535 /\ ly_section_num l = 0.
Proof.
  unfold enc_file_header, PN_XNUM. destruct (Z.leb_spec 65535 (ly_segment_num l)).
  - destruct (Z.eqb_spec (ly_section_num l) 0); cbn [bind].
    + right. split; [reflexivity|]. split; [lia|assumption].
    + left. eexists. split; [reflexivity|]. rewrite !zlen_app, !zlen_enc_word, !zlen_write_u. destruct is64; reflexivity.
  - cbn [bind]. left. eexists. split; [reflexivity|]. rewrite !zlen_app, !zlen_enc_word, !zlen_write_u. destruct is64; reflexivity.
Qed.
Lemma header_fields is64 e h l hb c : fhdr_ok is64 h -> layout_ok is64 l -> enc_file_header is64 e h l = Ok hb ->
  zlen hb = ehdr_size is64 /\ zslice 0 4 (hb ++ c) = ELFMAG /\ ei_class (hb ++ c) = (if is64 then 2 else 1) /\
  ei_data (hb ++ c) = (match e with Little => 1 | Big => 2 end) /\ ei_version (hb ++ c) = 1 /\ fhdr_from_raw is64 e hb = h /\
  e_phoff is64 e hb = ly_phoff l /\ e_shoff is64 e hb = ly_shoff l /\
  e_phentsize is64 e hb = (if ly_segment_num l =? 0 then 0 else phdr_size is64) /\ e_phnum is64 e hb = pn_field l /\
  e_shentsize is64 e hb = (if ly_section_num l =? 0 then 0 else shdr_size is64) /\ e_shnum is64 e hb = sn_field l /\
  e_shstrndx is64 e hb = symsec_new (ly_shstrtab_index l).
Proof.
  intros (H1 & H2 & H3 & H4 & H5 & H6) (L1 & L2 & L3 & L4 & L5 & L6 & L7).
  pose proof (symsec_new_ok _ L5) as Hx.
  assert (Hsn : wrap_u 16 (sn_field l) = sn_field l /\ 0 <= sn_field l < 65536).
  { unfold sn_field, u32_ok in *. destruct (Z.leb_spec 65280 (ly_section_num l)); [split; [reflexivity|lia]|]. rewrite wrap_u_id by lia. split; [reflexivity|lia]. }
  assert (Hpn : 0 <= pn_field l < 65536).
  { unfold pn_field, u32_ok in *. destruct (Z.leb_spec 65535 (ly_segment_num l)); lia. }
  unfold enc_file_header, PN_XNUM, SHN_LORESERVE.
  assert (Es : (if 65280 <=? ly_section_num l then 0 else wrap_u 16 (ly_section_num l)) = sn_field l).
  { destruct Hsn as [E _]. revert E. unfold sn_field. destruct (Z.leb_spec 65280 (ly_section_num l)); intro; auto. }
  rewrite Es. clear Es. intro E.
  assert (Ehb : hb = enc_ident is64 e h ++ write_u e 2 (fh_type h) ++ write_u e 2 (fh_machine h) ++ write_u e 4 1 ++
      enc_word is64 e (fh_entry h) ++ enc_word is64 e (ly_phoff l) ++ enc_word is64 e (ly_shoff l) ++ write_u e 4 (fh_flags h) ++
      write_u e 2 (ehdr_size is64) ++ write_u e 2 (if ly_segment_num l =? 0 then 0 else phdr_size is64) ++ write_u e 2 (pn_field l) ++
      write_u e 2 (if ly_section_num l =? 0 then 0 else shdr_size is64) ++ write_u e 2 (sn_field l) ++
      write_u e 2 (symsec_new (ly_shstrtab_index l))).
  { revert E. unfold pn_field, u32_ok in *. destruct (Z.leb_spec 65535 (ly_segment_num l)).
    - destruct (ly_section_num l =? 0); cbn [bind]; intro E; inversion E; reflexivity.
    - cbn [bind]. rewrite wrap_u_id by lia. intro E; inversion E; reflexivity. }
  clear E. rewrite !enc_word_eq in Ehb by assumption.
  assert (B1 : 0 <= (if ly_segment_num l =? 0 then 0 else phdr_size is64) < 65536) by (destruct is64, (ly_segment_num l =? 0); cbn; lia).
  assert (B2 : 0 <= (if ly_section_num l =? 0 then 0 else shdr_size is64) < 65536) by (destruct is64, (ly_section_num l =? 0); cbn; lia).
  assert (B3 : 0 <= ehdr_size is64 < 65536) by (destruct is64; cbn; lia).
  destruct Hsn as [_ Hsn].
  set (v1 := if ly_segment_num l =? 0 then 0 else phdr_size is64) in *. set (v2 := if ly_section_num l =? 0 then 0 else shdr_size is64) in *.
  set (v3 := symsec_new (ly_shstrtab_index l)) in *. set (v4 := ehdr_size is64) in *.
  assert (Hi : zlen (enc_ident is64 e h) = 16) by reflexivity.
  assert (Elen : zlen hb = v4).
  { rewrite Ehb, !zlen_app, Hi, !zlen_write_u. subst v4. destruct is64; reflexivity. }
  split; [exact Elen|]. rewrite Ehb. rewrite <- !app_assoc.
  split; [reflexivity|]. split; [unfold ei_class; rewrite fld_byte by lia; rewrite zget_app1 by (rewrite Hi; lia); reflexivity|].
  split; [unfold ei_data; rewrite fld_byte by lia; rewrite zget_app1 by (rewrite Hi; lia); reflexivity|]. split; [unfold ei_version; rewrite fld_byte by lia; rewrite zget_app1 by (rewrite Hi; lia); reflexivity|].
  clearbody v1 v2 v3 v4. unfold word_ok, u32_ok, u16_ok in *.
  assert (Eh : forall r, fld Little 7 1 (enc_ident is64 e h ++ r) = fh_os_abi h) by (intro; rewrite fld_byte by lia; rewrite zget_app1 by (rewrite Hi; lia); reflexivity).
  assert (Eh' : forall r, fld Little 8 1 (enc_ident is64 e h ++ r) = fh_abi_version h) by (intro; rewrite fld_byte by lia; rewrite zget_app1 by (rewrite Hi; lia); reflexivity).
  unfold fhdr_from_raw, ei_osabi, ei_abiversion, e_type, e_machine, e_entry, e_flags, e_phoff, e_shoff, e_phentsize, e_phnum, e_shentsize, e_shnum, e_shstrndx.
  rewrite Eh, Eh'. clear Eh Eh' Ehb. generalize dependent (enc_ident is64 e h). intros id Hi.
  assert (Sk : forall off n r, 16 <= off -> fld e off n (id ++ r) = fld e (off - 16) n r) by (intros; apply fld_skip_app; [exact Hi|lia]).
  destruct is64; rewrite !Sk by lia; cbn [Z.sub Z.add Z.opp Z.pos_sub Pos.pred_double Z.pred_double Z.succ_double Z.double];
    fld_norm; (split; [destruct h; reflexivity|]); repeat (split; [reflexivity|]); reflexivity.
Qed.
Lemma null_shdr_ok is64 l : u32_ok (ly_segment_num l) -> u32_ok (ly_section_num l) -> u32_ok (ly_shstrtab_index l) -> shdr_ok is64 (null_shdr l).
Proof.
  unfold shdr_ok, null_shdr, word_ok, u32_ok, SHN_LORESERVE, PN_XNUM. intros. cbn [sh_name sh_type sh_flags sh_addr sh_offset sh_size sh_link sh_info sh_addralign sh_entsize].
  destruct (65280 <=? ly_section_num l), (65280 <=? ly_shstrtab_index l), (65535 <=? ly_segment_num l), is64; lia.
Qed.
Lemma holds_0 F b : holds F 0 b -> exists c, F = b ++ c.
Proof. intros (a & c & -> & H). destruct a; [|rewrite zlen_cons in H; pose proof (zlen_nonneg a); lia]. exists c. reflexivity. Qed.
Lemma eh_parse_ok is64 e h l hb F : fhdr_ok is64 h -> layout_ok is64 l -> zlen F < 2 ^ 64 -> enc_file_header is64 e h l = Ok hb -> holds F 0 hb ->
  eh_parse is64 F = Ok hb.
Proof.
  intros Hh Hl HF E H. destruct (header_fields is64 e h l hb [] Hh Hl E) as (A1 & A2 & A3 & A4 & A5 & _).
  rewrite app_nil_r in *. unfold eh_parse. rewrite (holds_read_at F 0 hb) by auto. cbn [bind].
  unfold eh_supported. rewrite A2, A3, A4, A5, bytes_eqb_refl. destruct is64, e; reflexivity.
Qed.
Lemma eh_parse_other is64 e h l hb F : fhdr_ok is64 h -> layout_ok is64 l -> enc_file_header is64 e h l = Ok hb -> holds F 0 hb ->
  eh_parse (negb is64) F = Err.
Proof.
  intros Hh Hl E H. apply holds_0 in H as [c ->]. destruct (header_fields is64 e h l hb c Hh Hl E) as (A1 & A2 & A3 & A4 & A5 & _).
  unfold eh_parse. rewrite rr_read_at_eq by (destruct is64; cbn; lia). destruct (_ <=? _) eqn:B; [|reflexivity]. cbn [bind].
  assert (Hc : ei_class (zslice 0 (ehdr_size (negb is64)) (hb ++ c)) = ei_class (hb ++ c)).
  { unfold ei_class. rewrite !fld_byte by lia. unfold zslice. rewrite zdrop_0. rewrite zget_ztake by (destruct is64; cbn; lia). reflexivity. }
  unfold eh_supported. rewrite Hc, A3. destruct is64; cbn [negb orb andb Z.eqb Pos.eqb]; rewrite ?andb_false_r; reflexivity.
Qed.
Lemma section_0_ok is64 e h l hb F : fhdr_ok is64 h -> layout_ok is64 l -> zlen F < 2 ^ 64 -> enc_file_header is64 e h l = Ok hb ->
  (ly_section_num l > 0 -> holds F (ly_shoff l) (enc_null_shdr is64 e l)) ->
  section_0 is64 e hb F = Ok (if ly_section_num l =? 0 then None else Some (null_shdr l)).
Proof.
  intros Hh Hl HF E H. destruct (header_fields is64 e h l hb [] Hh Hl E) as (A1 & A2 & A3 & A4 & A5 & A6 & A7 & A8 & A9 & A10 & A11 & A12 & A13).
  destruct Hl as (L1 & L2 & L3 & L4 & L5 & L6 & L7). unfold section_0. rewrite A8, A11.
  destruct (Z.eqb_spec (ly_section_num l) 0) as [E0|E0].
  - destruct L7 as [-> _]. reflexivity.
  - destruct (Z.eqb_spec (ly_shoff l) 0); [lia|]. rewrite Z.eqb_refl. cbn [negb].
    unfold u32_ok in *. rewrite (holds_read_at F (ly_shoff l) (enc_null_shdr is64 e l)); [|apply H; lia|symmetry; apply zlen_enc_shdr|assumption].
    cbn [bind]. unfold enc_null_shdr. rewrite shdr_of_enc by (apply null_shdr_ok; assumption). reflexivity.
Qed.
Lemma header_roundtrip is64 e h l F : fhdr_ok is64 h -> layout_ok is64 l -> zlen F < 2 ^ 64 -> has_header is64 e F h l ->
  exists raw, eh_parse is64 F = Ok raw /\ eh_parse (negb is64) F = Err /\ eh_endian raw = Ok e /\
    fhdr_from_raw is64 e raw = h /\ layout_from_raw is64 e raw F = Ok l /\
    phnum is64 e raw F = Ok (ly_segment_num l) /\ shnum is64 e raw F = Ok (ly_section_num l) /\
    shstrndx is64 e raw F = (if ly_shstrtab_index l =? 0 then Err else Ok (ly_shstrtab_index l)).
Proof.
  intros Hh Hl HF (hb & E & Hhd & Hn). exists hb.
  destruct (header_fields is64 e h l hb [] Hh Hl E) as (A1 & A2 & A3 & A4 & A5 & A6 & A7 & A8 & A9 & A10 & A11 & A12 & A13).
  pose proof (section_0_ok is64 e h l hb F Hh Hl HF E Hn) as S0. rewrite app_nil_r in *.
  split; [eapply eh_parse_ok; eassumption|]. split; [eapply eh_parse_other; eassumption|].
  split; [unfold eh_endian; rewrite A4; destruct e; reflexivity|]. split; [exact A6|].
  destruct Hl as (L1 & L2 & L3 & L4 & L5 & L6 & L7). unfold u32_ok in *.
  assert (P : phnum is64 e hb F = Ok (ly_segment_num l)).
  { unfold phnum. rewrite A10. unfold pn_field, PN_XNUM. destruct (Z.leb_spec 65535 (ly_segment_num l)).
    - destruct (Z.ltb_spec 65535 65535); [lia|]. rewrite S0. cbn [bind].
      destruct (Z.eqb_spec (ly_section_num l) 0) as [E0|E0].
      + destruct (header_error is64 e h l) as [(?&?&?)|(EE&?&?)]; [|congruence]. exfalso. unfold enc_file_header, PN_XNUM in E.
        destruct (Z.leb_spec 65535 (ly_segment_num l)); [|lia]. destruct (Z.eqb_spec (ly_section_num l) 0); [discriminate|lia].
      + unfold null_shdr, PN_XNUM. cbn [sh_info]. destruct (Z.leb_spec 65535 (ly_segment_num l)); [reflexivity|lia].
    - destruct (Z.ltb_spec (ly_segment_num l) 65535); [reflexivity|lia]. }
  assert (Sn : shnum is64 e hb F = Ok (ly_section_num l)).
  { unfold shnum. rewrite A12. unfold sn_field. destruct (Z.leb_spec 65280 (ly_section_num l)).
    - destruct (Z.ltb_spec 0 0); [lia|]. rewrite S0. cbn [bind]. destruct (Z.eqb_spec (ly_section_num l) 0); [lia|].
      unfold null_shdr, SHN_LORESERVE. cbn [sh_size]. destruct (Z.leb_spec 65280 (ly_section_num l)); [|lia].
      destruct (Z.ltb_spec (ly_section_num l) (2 ^ 32)); [reflexivity|lia].
    - destruct (Z.ltb_spec 0 (ly_section_num l)); [reflexivity|]. assert (E0 : ly_section_num l = 0) by lia.
      rewrite S0, E0. reflexivity. }
  assert (X : shstrndx is64 e hb F = (if ly_shstrtab_index l =? 0 then Err else Ok (ly_shstrtab_index l))).
  { unfold shstrndx. rewrite A13. unfold symsec_new, symsec_index, SHN_LORESERVE, SHN_XINDEX.
    destruct (Z.leb_spec 65280 (ly_shstrtab_index l)).
    - destruct ((65535 =? 0) || (65280 <=? 65535)) eqn:B; [|lia]. rewrite Z.eqb_refl, S0. cbn [bind].
      destruct (Z.eqb_spec (ly_section_num l) 0) as [E0|E0]; [lia|].
      unfold null_shdr, SHN_LORESERVE. cbn [sh_link]. destruct (Z.leb_spec 65280 (ly_shstrtab_index l)); [|lia].
      destruct (Z.eqb_spec (ly_shstrtab_index l) 0); [lia|reflexivity].
    - rewrite wrap_u_id by lia. destruct (Z.eqb_spec (ly_shstrtab_index l) 0) as [E0|E0].
      + rewrite E0. reflexivity.
      + destruct (false || (65280 <=? ly_shstrtab_index l)) eqn:B; [lia|reflexivity]. }
  split; [|split; [exact P|split; [exact Sn|exact X]]].
  unfold layout_from_raw. rewrite P, Sn, X, A13, A7, A8. cbn [bind].
  unfold symsec_new, SHN_LORESERVE, SHN_XINDEX. destruct (Z.leb_spec 65280 (ly_shstrtab_index l)).
  - change (65535 =? 0) with false. destruct (Z.eqb_spec (ly_shstrtab_index l) 0); [lia|]. destruct l; reflexivity.
  - rewrite wrap_u_id by lia. destruct (Z.eqb_spec (ly_shstrtab_index l) 0) as [E0|E0]; cbn [bind]; destruct l; cbn in E0 |- *; [rewrite E0|]; reflexivity.
Qed.
Lemma map_id_Forall {A} (f : A -> A) (P : A -> Prop) l : (forall x, P x -> f x = x) -> Forall P l -> map f l = l.
Proof. intros H. induction 1; cbn; [reflexivity|]. rewrite H, IHForall by assumption. reflexivity. Qed.
Lemma tables_roundtrip is64 e h l F ps ss : fhdr_ok is64 h -> layout_ok is64 l -> zlen F < 2 ^ 64 -> has_header is64 e F h l ->
  has_tables is64 e F l ps ss -> Forall (phdr_ok is64) ps -> Forall (shdr_ok is64) ss ->
  exists raw, eh_parse is64 F = Ok raw /\ program_headers is64 e raw F = Ok ps /\
    section_headers is64 e raw F = Ok (if ly_section_num l =? 0 then [] else null_shdr l :: ss).
Proof.
  intros Hh Hl HF Hd (T1 & T2 & T3) Hp Hs. destruct (header_roundtrip is64 e h l F Hh Hl HF Hd) as (hb' & R1 & _ & _ & _ & _ & R2 & R3 & _).
  destruct Hd as (hb & E & Hhd & Hn). rewrite (eh_parse_ok is64 e h l hb F Hh Hl HF E Hhd) in R1. inversion R1; subst hb'.
  exists hb. split; [eapply eh_parse_ok; eassumption|].
  destruct (header_fields is64 e h l hb [] Hh Hl E) as (A1 & A2 & A3 & A4 & A5 & A6 & A7 & A8 & A9 & A10 & A11 & A12 & A13).
  destruct Hl as (L1 & L2 & L3 & L4 & L5 & L6 & L7). unfold u32_ok in *. split.
  - unfold program_headers. rewrite A7, R2, A9. cbn [bind].
    destruct (Z.eqb_spec (ly_phoff l) 0).
    { destruct ps; [reflexivity|]. rewrite zlen_cons in T1. pose proof (zlen_nonneg ps). lia. }
    destruct (Z.eqb_spec (ly_segment_num l) 0) as [E0|E0].
    { destruct ps; [reflexivity|]. rewrite zlen_cons in T1. pose proof (zlen_nonneg ps). lia. }
    rewrite Z.eqb_refl. cbn [negb].
    rewrite (holds_slice_at F (ly_phoff l) (map (enc_phdr is64 e) ps)); [|assumption| |destruct is64; cbn; lia|rewrite zlen_map; exact T1|assumption].
    2: { rewrite Forall_map. apply Forall_forall. intros. apply zlen_enc_phdr. }
    cbn [bind]. rewrite map_map. f_equal. apply (map_id_Forall _ (phdr_ok is64)); [|assumption]. intros. apply phdr_of_enc. assumption.
  - unfold section_headers. rewrite A8, R3, A11. cbn [bind].
    destruct (Z.eqb_spec (ly_section_num l) 0) as [E0|E0].
    { destruct L7 as [-> _]. reflexivity. }
    destruct (Z.eqb_spec (ly_shoff l) 0); [lia|]. rewrite Z.eqb_refl. cbn [negb].
    destruct T3 as [[? ?]|[T3 T4]]; [lia|].
    rewrite (holds_slice_at F (ly_shoff l) (map (enc_shdr is64 e) (null_shdr l :: ss))); [| | |destruct is64; cbn; lia| |assumption].
    + cbn [bind]. rewrite map_map. f_equal. apply (map_id_Forall _ (shdr_ok is64)); [intros; apply shdr_of_enc; assumption|].
      constructor; [apply null_shdr_ok; assumption|assumption].
    + exact T4.
    + rewrite Forall_map. apply Forall_forall. intros. apply zlen_enc_shdr.
    + rewrite zlen_map, zlen_cons. exact T3.
Qed.

(** * Arbitrary data *)
Lemma section_0_no_panic is64 e h F : section_0 is64 e h F <> Panic.
Proof.
  unfold section_0. destruct (_ =? 0); [discriminate|]. destruct (negb _); [discriminate|].
  pose proof (rr_read_at_no_panic F (e_shoff is64 e h) (shdr_size is64)). destruct (rr_read_at _ _ _); cbn [bind]; congruence.
Qed.
Lemma phnum_no_panic is64 e h F : phnum is64 e h F <> Panic.
Proof.
  unfold phnum. destruct (_ <? _); [discriminate|]. pose proof (section_0_no_panic is64 e h F).
  destruct (section_0 _ _ _ _) as [[]| |]; cbn [bind]; congruence.
Qed.
Lemma shnum_no_panic is64 e h F : shnum is64 e h F <> Panic.
Proof.
  unfold shnum. destruct (_ <? _); [discriminate|]. pose proof (section_0_no_panic is64 e h F).
  destruct (section_0 _ _ _ _) as [[]| |]; cbn [bind]; [destruct (_ <? _)|..]; congruence.
Qed.
Lemma shstrndx_no_panic is64 e h F : shstrndx is64 e h F <> Panic.
Proof.
  unfold shstrndx. destruct (symsec_index _); [discriminate|]. destruct (_ =? _); [|discriminate]. pose proof (section_0_no_panic is64 e h F).
  destruct (section_0 _ _ _ _) as [[]| |]; cbn [bind]; congruence.
Qed.
Lemma fld_zslice e o n b a k : 0 <= o -> 0 <= n -> o + n <= k -> 0 <= a -> fld e o n (zslice a k b) = fld e o n (zdrop a b).
Proof.
  intros. unfold fld. f_equal. rewrite zslice_zslice by lia. unfold zslice. rewrite zdrop_zdrop by lia. do 2 f_equal. lia.
Qed.
Lemma phdr_of_zslice is64 e a b : 0 <= a -> phdr_of is64 e (zslice a (phdr_size is64) b) = phdr_of is64 e (zdrop a b).
Proof. intro. unfold phdr_of, phdr_size. destruct is64; rewrite !fld_zslice by lia; reflexivity. Qed.
Lemma shdr_of_zslice is64 e a b : 0 <= a -> shdr_of is64 e (zslice a (shdr_size is64) b) = shdr_of is64 e (zdrop a b).
Proof. intro. unfold shdr_of, shdr_size. destruct is64; rewrite !fld_zslice by lia; reflexivity. Qed.
Lemma section_0_ok_bound is64 e h F s : section_0 is64 e h F = Ok (Some s) -> bytes_ok F -> 0 <= e_shoff is64 e h -> 0 <= sh_size s /\ 0 <= sh_info s.
Proof.
  unfold section_0. destruct (_ =? 0); [discriminate|]. destruct (negb _); [discriminate|]. intros H Hb Ho.
  rewrite rr_read_at_eq in H by (try assumption; destruct is64; cbn; lia). destruct (_ <=? _); cbn [bind] in H; [|discriminate].
  inversion H; subst. rewrite shdr_of_zslice by assumption.
  assert (B : bytes_ok (zdrop (e_shoff is64 e h) F)) by (apply bytes_ok_zdrop; assumption).
  destruct is64; cbn [shdr_of sh_size sh_info]; split; apply (fld_bound e _ _ _ B); lia.
Qed.
Lemma tables_total is64 e raw F : bytes_ok F -> bytes_ok raw -> zlen F < 2 ^ 64 ->
  eh_parse is64 F <> Panic /\ phnum is64 e raw F <> Panic /\ shnum is64 e raw F <> Panic /\ shstrndx is64 e raw F <> Panic /\
  eh_sections is64 e raw F <> Panic /\
  match program_headers is64 e raw F with
  | Ok ps => ps = [] \/ e_phoff is64 e raw + zlen ps * phdr_size is64 <= zlen F /\ phnum is64 e raw F = Ok (zlen ps) /\
      forall i p, zget ps i = Some p -> p = phdr_of is64 e (zdrop (e_phoff is64 e raw + i * phdr_size is64) F)
  | Err => True
  | Panic => False
  end /\
  match section_headers is64 e raw F with
  | Ok ss => ss = [] \/ e_shoff is64 e raw + zlen ss * shdr_size is64 <= zlen F /\ shnum is64 e raw F = Ok (zlen ss) /\
      forall i s, zget ss i = Some s -> s = shdr_of is64 e (zdrop (e_shoff is64 e raw + i * shdr_size is64) F)
  | Err => True
  | Panic => False
  end.
Proof.
  intros Hb Hr HF.
  assert (O1 : 0 <= e_phoff is64 e raw) by (unfold e_phoff; destruct is64; apply (fld_bound e _ _ _ Hr); lia).
  assert (O2 : 0 <= e_shoff is64 e raw) by (unfold e_shoff; destruct is64; apply (fld_bound e _ _ _ Hr); lia).
  assert (N1 : forall n, phnum is64 e raw F = Ok n -> 0 <= n).
  { intros n. unfold phnum. destruct (_ <? _). { intro H; inversion H; subst. unfold e_phnum; destruct is64; apply (fld_bound e _ _ _ Hr); lia. }
    destruct (section_0 is64 e raw F) as [[s|]| |] eqn:E; cbn [bind]; intro H; inversion H; subst. apply (section_0_ok_bound _ _ _ _ _ E Hb O2). }
  assert (N2 : forall n, shnum is64 e raw F = Ok n -> 0 <= n).
  { intros n. unfold shnum. destruct (Z.ltb_spec 0 (e_shnum is64 e raw)). { intro H'; inversion H'; subst. lia. }
    destruct (section_0 is64 e raw F) as [[s|]| |] eqn:E; cbn [bind]; try discriminate.
    - destruct (_ <? _); intro H'; inversion H'; subst. apply (section_0_ok_bound _ _ _ _ _ E Hb O2).
    - intro H'; inversion H'. lia. }
  assert (P1 : 0 < phdr_size is64) by (destruct is64; cbn; lia). assert (P2 : 0 < shdr_size is64) by (destruct is64; cbn; lia).
  assert (T2 : match section_headers is64 e raw F with
  | Ok ss => ss = [] \/ e_shoff is64 e raw + zlen ss * shdr_size is64 <= zlen F /\ shnum is64 e raw F = Ok (zlen ss) /\
      forall i s, zget ss i = Some s -> s = shdr_of is64 e (zdrop (e_shoff is64 e raw + i * shdr_size is64) F)
  | Err => True
  | Panic => False
  end).
  { unfold section_headers. destruct (_ =? 0); [left; reflexivity|]. pose proof (shnum_no_panic is64 e raw F) as NP.
    destruct (shnum is64 e raw F) as [n| |]; cbn [bind]; [|exact I|contradiction]. specialize (N2 n eq_refl).
    destruct (Z.eqb_spec n 0); [left; reflexivity|]. destruct (negb _); [exact I|].
    rewrite rr_read_slice_at_eq by lia. destruct (Z.leb_spec (e_shoff is64 e raw + n * shdr_size is64) (zlen F)); cbn [bind]; [|exact I].
    right. rewrite zlen_map, zlen_chunks, Z2Nat.id by lia. split; [assumption|]. split; [reflexivity|].
    intros i s. rewrite zget_map. destruct (zget (chunks _ _ _) i) as [c|] eqn:Eg; [|discriminate].
    pose proof (zget_Some_lt _ _ _ Eg) as Hi. rewrite zlen_chunks in Hi. rewrite zget_chunks in Eg by lia. inversion Eg; subst c.
    cbn [option_map]. intro H'; inversion H'; subst s. rewrite shdr_of_zslice by nia. rewrite zdrop_zdrop by nia. do 2 f_equal. lia. }
  split. { unfold eh_parse. pose proof (rr_read_at_no_panic F 0 (ehdr_size is64)). destruct (rr_read_at _ _ _); cbn [bind]; [destruct (eh_supported _ _)|..]; congruence. }
  split; [apply phnum_no_panic|]. split; [apply shnum_no_panic|]. split; [apply shstrndx_no_panic|]. split; [|split; [|exact T2]].
  { unfold eh_sections. destruct (section_headers is64 e raw F) as [l| |]; cbn [bind]; [|discriminate|contradiction].
    unfold section_strings. destruct l; [discriminate|]. pose proof (shstrndx_no_panic is64 e raw F).
    destruct (shstrndx _ _ _ _) as [i| |]; cbn [bind]; [|discriminate|contradiction]. destruct (zget (s :: l) i); cbn [of_opt bind]; [|discriminate].
    destruct (sh_file_range _) as [[]|]; cbn [bind]; [|discriminate]. destruct (cadd _ _ _); cbn [of_opt bind]; discriminate. }
  unfold program_headers. destruct (_ =? 0); [left; reflexivity|]. pose proof (phnum_no_panic is64 e raw F) as NP.
  destruct (phnum is64 e raw F) as [n| |]; cbn [bind]; [|exact I|contradiction]. specialize (N1 n eq_refl).
  destruct (Z.eqb_spec n 0); [left; reflexivity|]. destruct (negb _); [exact I|].
  rewrite rr_read_slice_at_eq by lia. destruct (Z.leb_spec (e_phoff is64 e raw + n * phdr_size is64) (zlen F)); cbn [bind]; [|exact I].
  right. rewrite zlen_map, zlen_chunks, Z2Nat.id by lia. split; [assumption|]. split; [reflexivity|].
  intros i s. rewrite zget_map. destruct (zget (chunks _ _ _) i) as [c|] eqn:Eg; [|discriminate].
  pose proof (zget_Some_lt _ _ _ Eg) as Hi. rewrite zlen_chunks in Hi. rewrite zget_chunks in Eg by lia. inversion Eg; subst c.
  cbn [option_map]. intro H'; inversion H'; subst s. rewrite phdr_of_zslice by nia. rewrite zdrop_zdrop by nia. do 2 f_equal. lia.
Qed.

(** * Sections *)
Lemma sh_data_exact s F : 0 <= sh_offset s -> 0 <= sh_size s ->
  sh_data s F = if sh_type s =? 8 then Ok [] else if sh_size s =? 0 then Ok [] else
    if sh_offset s + sh_size s <=? zlen F then Ok (zslice (sh_offset s) (sh_size s) F) else Err.
Proof.
  intros. unfold sh_data, sh_file_range, SHT_NOBITS. destruct (_ =? 8); [reflexivity|]. apply rr_read_bytes_at_eq; assumption.
Qed.
Lemma content_data F s d : content F s d -> sh_data s F = Ok d.
Proof.
  unfold content, sh_data, sh_file_range, SHT_NOBITS. destruct (_ =? 8); [intros ->; reflexivity|]. intros [E H].
  apply holds_read_bytes_at; assumption.
Qed.
Lemma zget_cons_pred {A} (x : A) l i : i <> 0 -> zget (x :: l) i = zget l (i - 1).
Proof.
  intro. destruct (Z_lt_dec 0 i); [apply zget_S; lia|]. rewrite !(proj2 (zget_None _ _)); [reflexivity|lia|lia].
Qed.
Lemma enumerate_cons {A} (x : A) l : enumerate (x :: l) = (0, x) :: map (fun p => (fst p + 1, snd p)) (enumerate l).
Proof.
  unfold enumerate, seqZ. cbn [length]. rewrite <- cons_seq. cbn [map combine]. f_equal. rewrite <- seq_shift, map_map.
  generalize (seq 0 (length l)). revert l. induction l as [|y l IH]; intros [|z s]; try reflexivity. cbn [map combine fst snd]. f_equal; [f_equal; lia|apply IH].
Qed.
Lemma find_enumerate {A} (P : A -> bool) l :
  match find (fun p => P (snd p)) (enumerate l) with
  | Some (i, x) => zget l i = Some x /\ P x = true /\ forall j y, zget l j = Some y -> j < i -> P y = false
  | None => forall x, In x l -> P x = false
  end.
Proof.
  induction l as [|x l IH]; [intros ? []|]. rewrite enumerate_cons. cbn [find snd]. destruct (P x) eqn:Ex.
  - split; [reflexivity|]. split; [assumption|]. intros j y H Hj. pose proof (zget_Some_lt _ _ _ H). lia.
  - replace (find (fun p => P (snd p)) (map (fun p : Z * A => (fst p + 1, snd p)) (enumerate l)))
      with (option_map (fun p : Z * A => (fst p + 1, snd p)) (find (fun p => P (snd p)) (enumerate l))).
    2: { clear. induction (enumerate l) as [|q s IH]; [reflexivity|]. cbn [map find fst snd]. destruct (P (snd q)); [reflexivity|exact IH]. }
    destruct (find _ (enumerate l)) as [[i y]|]; cbn [option_map fst snd].
    + destruct IH as (I1 & I2 & I3). pose proof (zget_Some_lt _ _ _ I1). rewrite zget_S by lia. split; [rewrite <- I1; f_equal; lia|].
      split; [assumption|]. intros j z Hz Hj. destruct (Z.eq_dec j 0) as [->|].
      * rewrite zget_0 in Hz. congruence.
      * rewrite zget_cons_pred in Hz by assumption. apply (I3 (j - 1)); [assumption|lia].
    + intros z [<-|Hz]; auto.
Qed.
Lemma sections_roundtrip is64 e h l F ss tab : fhdr_ok is64 h -> layout_ok is64 l -> zlen F < 2 ^ 64 -> has_header is64 e F h l ->
  ly_section_num l = 1 + zlen ss -> holds F (ly_shoff l) (enc_null_shdr is64 e l ++ concat (map (enc_shdr is64 e) (map sc_hdr ss))) ->
  has_sections is64 e F l ss tab ->
  exists raw t, eh_parse is64 F = Ok raw /\ eh_sections is64 e raw F = Ok t /\ zlen (stab_sections t) = 1 + zlen ss /\
    stab_section t 0 = Err /\
    (forall i s, zget ss (i - 1) = Some s -> stab_section t i = Ok (sc_hdr s) /\ section_name t (sc_hdr s) = Ok (sc_name s) /\
       sh_data (sc_hdr s) F = Ok (sc_data s)) /\
    (forall i, zget ss (i - 1) = None -> stab_section t i = Err) /\
    forall name, name <> [] -> 
      match section_by_name t name with
      | Some (i, s) => exists sec, zget ss (i - 1) = Some sec /\ sc_hdr sec = s /\ sc_name sec = name /\
          forall j sec', zget ss j = Some sec' -> j < i - 1 -> sc_name sec' <> name
      | None => forall sec, In sec ss -> sc_name sec <> name
      end.
Proof.
  intros Hh Hl HF Hd Hn Ht (Hs & (str & G1 & G2 & G3) & H0).
  destruct (header_roundtrip is64 e h l F Hh Hl HF Hd) as (hb' & R1 & _ & _ & _ & _ & _ & R3 & R4).
  pose proof (zlen_nonneg ss). destruct (Z.eqb_spec (ly_section_num l) 0) as [|N0]; [lia|].
  assert (SH : section_headers is64 e hb' F = Ok (null_shdr l :: map sc_hdr ss)).
  { destruct Hd as (hb & E & Hhd & Hnn). rewrite (eh_parse_ok is64 e h l hb F Hh Hl HF E Hhd) in R1. inversion R1; subst hb'.
    destruct (header_fields is64 e h l hb [] Hh Hl E) as (A1 & A2 & A3 & A4 & A5 & A6 & A7 & A8 & A9 & A10 & A11 & A12 & A13).
    destruct Hl as (L1 & L2 & L3 & L4 & L5 & L6 & L7).
    unfold section_headers. rewrite A8, R3, A11. cbn [bind]. 
    destruct (Z.eqb_spec (ly_section_num l) 0); [lia|]. destruct (Z.eqb_spec (ly_shoff l) 0); [lia|]. rewrite Z.eqb_refl. cbn [negb].
    rewrite (holds_slice_at F (ly_shoff l) (map (enc_shdr is64 e) (null_shdr l :: map sc_hdr ss))); [| | |destruct is64; cbn; lia| |assumption].
    - cbn [bind]. rewrite map_map. f_equal. apply (map_id_Forall _ (shdr_ok is64)); [intros; apply shdr_of_enc; assumption|].
      constructor; [apply null_shdr_ok; assumption|]. rewrite Forall_map. eapply Forall_impl; [|exact Hs]. cbn. tauto.
    - exact Ht.
    - rewrite Forall_map. apply Forall_forall. intros. apply zlen_enc_shdr.
    - rewrite zlen_map, zlen_cons, zlen_map. lia. }
  assert (Hstr : content F (sc_hdr str) tab /\ shdr_ok is64 (sc_hdr str)).
  { rewrite Forall_forall in Hs. destruct (Hs str (zget_In _ _ _ G1)) as (? & ? & ?). rewrite <- G2. auto. }
  destruct Hstr as [Hc Hok]. unfold content in Hc. destruct (Z.eqb_spec (sh_type (sc_hdr str)) 8); [contradiction|]. destruct Hc as [Hc1 Hc2].
  pose proof (zget_Some_lt _ _ _ G1) as Hi. destruct (Z.eqb_spec (ly_shstrtab_index l) 0) as [|I0]; [lia|].
  set (tb := {| stb_data := Some F; stb_start := sh_offset (sc_hdr str); stb_end := sh_offset (sc_hdr str) + zlen tab |}).
  assert (SS : section_strings is64 e hb' F (null_shdr l :: map sc_hdr ss) = Ok tb).
  { unfold section_strings. rewrite R4. cbn [bind]. rewrite zget_cons_pred by assumption. rewrite zget_map, G1. cbn [option_map of_opt bind].
    unfold sh_file_range, SHT_NOBITS. destruct (Z.eqb_spec (sh_type (sc_hdr str)) 8); [contradiction|]. unfold cadd. rewrite Hc1.
    pose proof (holds_bounds _ _ _ Hc2). destruct (Z.ltb_spec (sh_offset (sc_hdr str) + zlen tab) (2 ^ 64)); [|lia]. reflexivity. }
  exists hb', {| stab_sections := null_shdr l :: map sc_hdr ss; stab_strings := tb |}.
  split; [exact R1|]. split; [unfold eh_sections; rewrite SH; cbn [bind]; rewrite SS; reflexivity|].
  split; [cbn [stab_sections]; rewrite zlen_cons, zlen_map; reflexivity|]. split; [reflexivity|].
  assert (Nm : forall off name, string_at tab off name -> stb_get tb off = Ok name).
  { intros off name Hsn. unfold stb_get, tb. cbn [stb_data stb_start stb_end]. eapply string_at_get; [exact Hc2|exact Hsn|assumption|reflexivity]. }
  assert (Names : forall s, In s ss -> section_name {| stab_sections := null_shdr l :: map sc_hdr ss; stab_strings := tb |} (sc_hdr s) = Ok (sc_name s)).
  { intros s Hin. rewrite Forall_forall in Hs. destruct (Hs s Hin) as (? & ? & ?). unfold section_name. cbn [stab_strings]. apply Nm. assumption. }
  split; [|split].
  - intros i s Hg. pose proof (zget_Some_lt _ _ _ Hg). pose proof (zget_In _ _ _ Hg) as Hin. split.
    + unfold stab_section. destruct (Z.eqb_spec i 0); [lia|]. cbn [stab_sections]. rewrite zget_cons_pred by assumption. rewrite zget_map, Hg. reflexivity.
    + split; [apply Names; assumption|]. rewrite Forall_forall in Hs. destruct (Hs s Hin) as (? & ? & ?). apply content_data. assumption.
  - intros i Hg. unfold stab_section. destruct (Z.eqb_spec i 0); [reflexivity|]. cbn [stab_sections]. rewrite zget_cons_pred by assumption. rewrite zget_map, Hg. reflexivity.
  - intros name Hnm. unfold section_by_name. cbn [stab_sections].
    set (t := {| stab_sections := null_shdr l :: map sc_hdr ss; stab_strings := tb |}) in *.
    pose proof (find_enumerate (fun s => match section_name t s with Ok n => bytes_eqb n name | _ => false end) (null_shdr l :: map sc_hdr ss)) as FE.
    assert (Q : (match section_name t (null_shdr l) with Ok n => bytes_eqb n name | _ => false end) = false).
    { unfold section_name. cbn [stab_strings t null_shdr sh_name]. rewrite (Nm 0 []) by assumption. apply bytes_eqb_neq. congruence. }
    destruct (find _ _) as [[i s]|].
    + destruct FE as (F1 & F2 & F3). destruct (Z.eq_dec i 0) as [->|].
      { rewrite zget_0 in F1. inversion F1; subst s. congruence. }
      rewrite zget_cons_pred, zget_map in F1 by assumption. destruct (zget ss (i - 1)) as [sec|] eqn:Eg; [|discriminate]. cbn [option_map] in F1.
      inversion F1; subst s. exists sec. split; [reflexivity|]. split; [reflexivity|]. rewrite (Names sec (zget_In _ _ _ Eg)) in F2.
      split; [apply bytes_eqb_eq; assumption|]. intros j sec' Hj Hlt. pose proof (zget_Some_lt _ _ _ Hj).
      specialize (F3 (j + 1) (sc_hdr sec')). rewrite zget_cons_pred, zget_map, Z.add_simpl_r, Hj in F3 by lia.
      specialize (F3 eq_refl ltac:(lia)). rewrite (Names sec' (zget_In _ _ _ Hj)) in F3. apply bytes_eqb_neq. assumption.
    + intros sec Hin. specialize (FE (sc_hdr sec)). rewrite (Names sec Hin) in FE. apply bytes_eqb_neq. apply FE. right. apply in_map. assumption.
Qed.

(** * Segments *)
Lemma segment_range p F a n : 0 <= p_offset p -> 0 < p_filesz p -> 0 <= p_vaddr p -> 0 <= a -> 0 <= n ->
  ph_data_range p F a n =
    if p_offset p + p_filesz p <=? zlen F then
      Ok (if (p_vaddr p <=? a) && (a + n <=? p_vaddr p + p_filesz p) then Some (zslice (p_offset p + (a - p_vaddr p)) n F) else None)
    else Err.
Proof.
  intros. unfold ph_data_range, ph_data. rewrite rr_read_bytes_at_eq by lia. destruct (Z.eqb_spec (p_filesz p) 0); [lia|].
  destruct (Z.leb_spec (p_offset p + p_filesz p) (zlen F)); [|reflexivity]. cbn [bind]. f_equal.
  unfold data_range, csub. destruct (Z.leb_spec (p_vaddr p) a); cbn [andb]; [|reflexivity].
  rewrite get_from_eq, zlen_zslice by lia.
  destruct (Z.leb_spec (a - p_vaddr p) (p_filesz p)).
  - destruct (Z.leb_spec 0 (a - p_vaddr p)); [|lia]. cbn [andb]. unfold get_to. rewrite zlen_zdrop by (rewrite zlen_zslice; lia). rewrite zlen_zslice by lia.
    destruct (Z.leb_spec 0 n); [|lia]. destruct (Z.leb_spec (a + n) (p_vaddr p + p_filesz p)); destruct (Z.leb_spec n (p_filesz p - (a - p_vaddr p))); try lia; [|reflexivity].
    cbn [andb]. f_equal. apply (zslice_zslice (p_offset p) (p_filesz p) (a - p_vaddr p) n F); lia.
  - rewrite andb_false_r. destruct (Z.leb_spec (a + n) (p_vaddr p + p_filesz p)); [lia|reflexivity].
Qed.
Lemma interpreter_roundtrip p F name : p_type p = 3 -> holds F (p_offset p) (name ++ [0]) -> ~ In 0 name -> p_filesz p = zlen name + 1 ->
  ph_interpreter p F = Ok (Some name).
Proof.
  intros Ht H Hn Hs. unfold ph_interpreter, PT_INTERP. rewrite Ht. cbn [negb Z.eqb Pos.eqb]. unfold ph_data.
  rewrite (holds_read_bytes_at F _ (name ++ [0])) by (try assumption; rewrite zlen_app; exact Hs). cbn [bind].
  rewrite memchr_app by assumption. cbn [of_opt bind]. unfold get_to. rewrite zlen_app. pose proof (zlen_nonneg name).
  change (zlen [0]) with 1. destruct ((0 <=? zlen name) && (zlen name <=? zlen name + 1)) eqn:E; [|lia]. cbn [unwrap bind].
  rewrite ztake_app. reflexivity.
Qed.

(** * Symbols *)
Lemma content_array F s cs n : content F s (concat cs) -> 0 < n -> Forall (fun c => zlen c = n) cs -> zlen F < 2 ^ 64 ->
  sh_data_as_array n s F = Ok cs.
Proof.
  intros H Hn Hc HF. unfold sh_data_as_array. rewrite (content_data _ _ _ H). cbn [bind]. apply slice_from_all_bytes_concat; try assumption.
  unfold content in H. destruct (_ =? 8).
  - rewrite H. change (zlen (@nil Z)) with 0. lia.
  - destruct H as [_ H]. apply holds_bounds in H. lia.
Qed.
Lemma find_shndx_spec e F i xs l acc : zlen F < 2 ^ 64 -> Forall u32_ok xs ->
  (forall h, In h (map snd l) -> sh_type h = 18 -> sh_link h = i -> content F h (concat (map (write_u e 4) xs))) ->
  exists k, find_shndx e F i l acc = Ok (k, if existsb (fun p => (sh_type (snd p) =? 18) && (sh_link (snd p) =? i)) l then xs else snd acc).
Proof.
  intros HF Hx. revert acc. induction l as [|[k h] l IH]; intros acc H.
  - exists (fst acc). destruct acc. reflexivity.
  - cbn [find_shndx existsb snd]. unfold SHT_SYMTAB_SHNDX. destruct ((sh_type h =? 18) && (sh_link h =? i)) eqn:B.
    + rewrite (content_array F h (map (write_u e 4) xs)); [|apply H; [left; reflexivity|lia|lia]|lia|apply (Forall_write_u e 4)|assumption].
      cbn [bind orb]. rewrite map_read_write_u by exact Hx.
      destruct (IH (k, xs)) as [k' E]; [intros; apply H; [right|..]; assumption|]. exists k'. rewrite E. cbn [snd]. destruct (existsb _ _); reflexivity.
    + cbn [orb]. apply IH. intros; apply H; [right|..]; assumption.
Qed.
Lemma map_snd_enumerate {A} (l : list A) : map snd (enumerate l) = l.
Proof. induction l as [|x l IH]; [reflexivity|]. rewrite enumerate_cons. cbn [map snd]. rewrite map_map. cbn [snd]. f_equal. exact IH. Qed.
Lemma map_fst_enumerate {A} (l : list A) : Forall (fun p => zget l (fst p) = Some (snd p)) (enumerate l).
Proof.
  induction l as [|x l IH]; [constructor|]. rewrite enumerate_cons. constructor; [reflexivity|]. rewrite Forall_map. eapply Forall_impl; [|exact IH].
  cbn [fst snd]. intros [i y] H. cbn [fst snd] in *. pose proof (zget_Some_lt _ _ _ H). rewrite zget_S by lia. rewrite Z.add_simpl_r. exact H.
Qed.
Lemma symtab_roundtrip is64 e F t i j hs hstr tab syms xs ty : zlen F < 2 ^ 64 ->
  ty = 2 \/ ty = 11 -> Forall (wsym_ok is64) syms ->
  zget (stab_sections t) i = Some hs -> sh_type hs = ty -> i <> 0 -> sh_link hs = j -> j <> 0 ->
  content F hs (concat (map (fun s => fst (enc_sym is64 e s)) syms)) ->
  zget (stab_sections t) j = Some hstr -> sh_type hstr = 3 -> content F hstr tab -> 
  (forall i' h, zget (stab_sections t) i' = Some h -> sh_type h = ty -> i <= i') ->
  (forall h, In h (stab_sections t) -> sh_type h = 18 -> sh_link h = i -> content F h (concat (map (write_u e 4) xs)) ) ->
  (exists h, In h (stab_sections t) /\ sh_type h = 18 /\ sh_link h = i) /\ shndx_for is64 e syms xs \/
    (forall s, In s syms -> snd (enc_sym is64 e s) = None) /\ Forall u32_ok xs ->
  exists st, stab_symbols is64 e F t ty = Ok st /\ symtab_by_index is64 e F t i = Ok st /\
    smt_section st = i /\ smt_string_section st = j /\
    zlen (smt_symbols st) = zlen syms /\
    forall n s, zget syms n = Some s -> exists r, zget (smt_symbols st) n = Some r /\ same_sym s r /\
      (n <> 0 -> symtab_symbol st n = Ok r) /\
      symbol_section st r n = Ok (section_of s) /\
      (forall name, string_at tab (ws_name s) name -> symbol_name st r = Ok name).
Proof.
  intros HF Hty Hsy Hi Ht Hi0 Hj Hj0 Hc Gj Tj Cj Hfirst Hsh Hx.
  assert (Hxs : Forall u32_ok xs).
  { destruct Hx as [[_ Hx]|[_ Hx]]; [|exact Hx]. clear -Hx. unfold shndx_for in Hx. induction Hx; constructor; tauto. }
  destruct (find_shndx_spec e F i xs (enumerate (stab_sections t)) (0, nil) HF Hxs) as [k Ek]; [rewrite map_snd_enumerate; exact Hsh|].
  cbn [snd] in Ek. set (xb := if existsb _ _ then xs else []) in Ek.
  unfold content in Cj. rewrite Tj in Cj. cbn [Z.eqb Pos.eqb] in Cj. destruct Cj as [Cj1 Cj2].
  set (tb := {| stb_data := Some F; stb_start := sh_offset hstr; stb_end := sh_offset hstr + zlen tab |}).
  set (st := {| smt_section := i; smt_string_section := j; smt_shndx_section := k;
                smt_symbols := map (fun s => sym_of is64 e (fst (enc_sym is64 e s))) syms; smt_strings := tb; smt_shndx := xb |}).
  assert (P : symtab_parse is64 e F t i hs = Ok st).
  { unfold symtab_parse, SHT_DYNSYM, SHT_SYMTAB. rewrite Ht. destruct ((ty =? 11) || (ty =? 2)) eqn:B; [|lia]. cbn [negb].
    rewrite (content_array F hs (map (fun s => fst (enc_sym is64 e s)) syms)); [|assumption|destruct is64; cbn; lia| |assumption].
    2: { rewrite Forall_map. eapply Forall_impl; [|exact Hsy]. intros s Hs. apply (symbol_fields is64 e s Hs). }
    cbn [bind]. unfold stab_strings_at. rewrite Hj. destruct (Z.eqb_spec j 0); [contradiction|]. unfold stab_section.
    destruct (Z.eqb_spec j 0); [contradiction|]. rewrite Gj. cbn [of_opt bind]. unfold sh_strings, SHT_STRTAB. rewrite Tj, Z.eqb_refl. cbn [negb].
    unfold cadd. rewrite Cj1. pose proof (holds_bounds _ _ _ Cj2). destruct (Z.ltb_spec (sh_offset hstr + zlen tab) (2 ^ 64)); [|lia].
    cbn [of_opt bind]. rewrite Ek. cbn [bind fst snd]. rewrite map_map. reflexivity. }
  exists st. split; [|split; [|split; [reflexivity|split; [reflexivity|split; [apply zlen_map|]]]]].
  - unfold stab_symbols, SHT_DYNSYM, SHT_SYMTAB. destruct ((ty =? 11) || (ty =? 2)) eqn:B; [|lia]. cbn [negb].
    pose proof (find_enumerate (fun s => sh_type s =? ty) (stab_sections t)) as FE. destruct (find _ _) as [[i' h]|].
    + destruct FE as (F1 & F2 & F3). assert (i' = i); [|subst i'; congruence].
      pose proof (Hfirst i' h F1 ltac:(lia)). destruct (Z_lt_dec i i'); [|lia]. specialize (F3 i hs Hi l). lia.
    + specialize (FE hs (zget_In _ _ _ Hi)). lia.
  - unfold symtab_by_index, stab_section, SHT_DYNSYM, SHT_SYMTAB. destruct (Z.eqb_spec i 0); [contradiction|]. rewrite Hi. cbn [of_opt bind]. rewrite Ht.
    destruct ((ty =? 11) || (ty =? 2)) eqn:B; [|lia]. exact P.
  - intros n s Hn. pose proof (zget_In _ _ _ Hn) as Hin. rewrite Forall_forall in Hsy. pose proof (Hsy s Hin) as Hok.
    destruct (symbol_fields is64 e s Hok) as [_ Hsame].
    exists (sym_of is64 e (fst (enc_sym is64 e s))).
    assert (Hg : zget (smt_symbols st) n = Some (sym_of is64 e (fst (enc_sym is64 e s)))) by (cbn [smt_symbols st]; rewrite zget_map, Hn; reflexivity).
    split; [exact Hg|]. split; [exact Hsame|]. split; [|split].
    + intro. unfold symtab_symbol. destruct (Z.eqb_spec n 0); [contradiction|]. rewrite Hg. reflexivity.
    + set (r := sym_of is64 e (fst (enc_sym is64 e s))) in *.
      assert (Er : st_shndx r = match ws_section s with Some n => symsec_new n | None => ws_shndx s end).
      { subst r. destruct Hok as (K1 & K2 & K3 & K4 & K5 & K6 & K7).
        assert (Hu : u16_ok (match ws_section s with Some n => symsec_new n | None => ws_shndx s end))
          by (destruct (ws_section s); [apply symsec_new_ok|]; assumption).
        unfold enc_sym, u16_ok, u32_ok, word_ok in *. cbn [fst].
        destruct is64; [|rewrite !wrap_u_id by assumption]; unfold sym_of; cbn [st_shndx]; fld_norm; reflexivity. }
      assert (Hext : st_shndx r = 65535 -> symtab_shndx st n = Some (match ws_section s with Some n => n | None => 0 end)).
      { intro E. assert (Es : snd (enc_sym is64 e s) = Some (match ws_section s with Some n => n | None => 0 end)).
        { unfold enc_sym. cbn [snd]. rewrite <- Er, E. reflexivity. }
        destruct Hx as [[(h & X1 & X2 & X3) Hx]|[Hx _]]; [|specialize (Hx s Hin); congruence].
        unfold symtab_shndx. cbn [smt_shndx st]. subst xb.
        assert (Ex : existsb (fun p : Z * shdr => (sh_type (snd p) =? 18) && (sh_link (snd p) =? i)) (enumerate (stab_sections t)) = true).
        { apply existsb_exists. rewrite <- (map_snd_enumerate (stab_sections t)) in X1. apply in_map_iff in X1 as ([q h'] & <- & X1). cbn [snd] in *.
          exists (q, h'). split; [exact X1|]. cbn [snd]. lia. }
        rewrite Ex. clear -Hx Hn Es. revert n Hn. unfold shndx_for in Hx. induction Hx as [|s' x' l l' Hp Hx IH]; intros n Hn; [apply zget_Some_lt in Hn; cbn in Hn; lia|].
        destruct (Z.eq_dec n 0) as [->|].
        - rewrite zget_0 in *. inversion Hn; subst s'. rewrite Es in Hp. destruct Hp as [_ ->]. reflexivity.
        - rewrite zget_cons_pred in Hn by assumption. rewrite zget_cons_pred by assumption. apply IH. exact Hn. }
      unfold symbol_section, section_of, symsec_index, SHN_LORESERVE, SHN_XINDEX. destruct Hok as (K1 & K2 & K3 & K4 & K5 & K6 & K7).
      destruct (ws_section s) as [m|] eqn:Em.
      * unfold symsec_new, SHN_LORESERVE, SHN_XINDEX, u32_ok in *. destruct (Z.leb_spec 65280 m) as [Hm|Hm].
        -- rewrite Er in *. destruct ((65535 =? 0) || (65280 <=? 65535)) eqn:B; [|lia]. rewrite Z.eqb_refl, Hext by reflexivity. cbn [of_opt bind].
           destruct (Z.eqb_spec m 0); reflexivity.
        -- rewrite wrap_u_id in Er by lia. rewrite Er. destruct (Z.eqb_spec m 0) as [->|]; [reflexivity|].
           destruct (false || (65280 <=? m)) eqn:B; [lia|reflexivity].
      * rewrite Er. unfold u16_ok in *. destruct ((ws_shndx s =? 0) || (65280 <=? ws_shndx s)) eqn:B; [|reflexivity].
        destruct (Z.eqb_spec (ws_shndx s) 65535) as [E|]; [|reflexivity]. rewrite (Hext (eq_trans Er E)). reflexivity.
    + intros name Hs. destruct Hsame as (S1 & _). unfold symbol_name. rewrite S1. cbn [smt_strings st].
      unfold stb_get, tb. cbn [stb_data stb_start stb_end]. eapply string_at_get; [exact Cj2|exact Hs|assumption|reflexivity].
Qed.
Lemma sh_data_no_panic s F : sh_data s F <> Panic.
Proof. unfold sh_data. destruct (sh_file_range s) as [[]|]; [apply rr_read_bytes_at_no_panic|discriminate]. Qed.
Lemma sh_array_no_panic n s F : sh_data_as_array n s F <> Panic.
Proof.
  unfold sh_data_as_array. pose proof (sh_data_no_panic s F). destruct (sh_data s F); cbn [bind]; [apply slice_from_all_bytes_no_panic|discriminate|contradiction].
Qed.
Lemma symtab_parse_no_panic is64 e F t i s : sh_type s = 2 \/ sh_type s = 11 -> symtab_parse is64 e F t i s <> Panic.
Proof.
  intro H. unfold symtab_parse, SHT_DYNSYM, SHT_SYMTAB. destruct ((sh_type s =? 11) || (sh_type s =? 2)) eqn:B; [|lia]. cbn [negb].
  pose proof (sh_array_no_panic (sym_size is64) s F). destruct (sh_data_as_array (sym_size is64) s F); cbn [bind]; [|discriminate|contradiction].
  assert (N1 : stab_strings_at t F (sh_link s) <> Panic).
  { unfold stab_strings_at, stab_section. destruct (sh_link s =? 0); [discriminate|]. destruct (zget _ _); cbn [of_opt bind]; [|discriminate].
    unfold sh_strings. destruct (negb _); cbn [of_opt bind]; [discriminate|]. destruct (cadd _ _ _); cbn [of_opt bind]; discriminate. }
  destruct (stab_strings_at t F (sh_link s)); cbn [bind]; [|discriminate|contradiction].
  assert (N2 : forall l acc, find_shndx e F i l acc <> Panic).
  { induction l as [|[k h] l IH]; intro acc; cbn [find_shndx]; [discriminate|]. destruct (_ && _); [|apply IH].
    pose proof (sh_array_no_panic 4 h F). destruct (sh_data_as_array 4 h F); cbn [bind]; [apply IH|discriminate|contradiction]. }
  specialize (N2 (enumerate (stab_sections t)) (0, nil)). destruct (find_shndx _ _ _ _ _); cbn [bind]; [discriminate|discriminate|contradiction].
Qed.
Lemma symtab_total is64 e F t ty i n s st : (ty = 2 \/ ty = 11) ->
  stab_symbols is64 e F t ty <> Panic /\ symtab_by_index is64 e F t i <> Panic /\ symbol_section st s n <> Panic /\
  symtab_symbol st n <> Panic /\ symbol_name st s <> Panic.
Proof.
  intro H. split; [|split; [|split; [|split]]].
  - unfold stab_symbols, SHT_DYNSYM, SHT_SYMTAB. destruct ((ty =? 11) || (ty =? 2)) eqn:B; [|lia]. cbn [negb].
    pose proof (find_enumerate (fun s => sh_type s =? ty) (stab_sections t)) as FE. destruct (find _ _) as [[i' h]|]; [|discriminate].
    apply symtab_parse_no_panic. lia.
  - unfold symtab_by_index, stab_section, SHT_DYNSYM, SHT_SYMTAB. destruct (i =? 0); [discriminate|]. destruct (zget _ _); cbn [of_opt bind]; [|discriminate].
    destruct ((sh_type s0 =? 11) || (sh_type s0 =? 2)) eqn:B; [|discriminate]. apply symtab_parse_no_panic. lia.
  - unfold symbol_section. destruct (symsec_index _); [discriminate|]. destruct (_ =? _); [|discriminate]. destruct (symtab_shndx st n); cbn [of_opt bind]; [|discriminate].
    destruct (_ =? _); discriminate.
  - unfold symtab_symbol. destruct (_ =? _); [discriminate|]. destruct (zget _ _); discriminate.
  - unfold symbol_name, stb_get. apply strtab_get_no_panic.
Qed.
