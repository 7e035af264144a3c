(** Reading back what the COFF writer wrote. *)
From Verif Require Import Coff_proofs Core_proofs Util_proofs File_proofs Str_proofs Pod_proofs Map_proofs Hash_proofs Rel_proofs ElfR_proofs Obj_proofs Ar_proofs ArSym_proofs Kind_proofs Ver_proofs.
From Verif Require Import Coff_spec CoffW_proofs.

Lemma machine_bound a sub e m : coff_machine a sub e = Some m -> 0 <= m < 2 ^ 16.
Proof. unfold coff_machine. destruct sub as [[]|], a, e; intro H; inversion H; lia. Qed.
Lemma read_slice_ok F o cs n k : holds F o (concat cs) -> Forall (fun c => zlen c = n) cs -> 0 <= n -> k = zlen cs -> zlen F < 2 ^ 63 ->
  rr_read_slice F o n k = (Ok cs, o + k * n).
Proof.
  intros H Hc Hn Hk HF. pose proof (holds_slice_at F o cs n k H Hc Hn Hk ltac:(lia)) as E. unfold rr_read_slice_at in E.
  pose proof (holds_bounds _ _ _ H) as [B1 B2]. rewrite (zlen_concat_const n) in B2 by exact Hc. rewrite <- Hk in B2. pose proof (zlen_nonneg cs).
  unfold rr_read_slice in *. unfold cmul in *. destruct (Z.ltb_spec (k * n) (2 ^ 64)); [|nia].
  rewrite rr_read_bytes_eq in * by nia. destruct (Z.leb_spec (o + k * n) (zlen F)); [|lia]. cbn [fst] in E. rewrite E. reflexivity.
Qed.
Lemma fld_zslice0 b e n : fld e 0 n b = read_u e (zslice 0 n b). Proof. reflexivity. Qed.

(** ** Flags *)
Lemma fl_has_bit v k : 0 <= k -> fl_has v (2 ^ k) = Z.testbit v k.
Proof.
  intro Hk. unfold fl_has.
  assert (E : Z.land v (2 ^ k) = if Z.testbit v k then 2 ^ k else 0).
  { apply Z.bits_inj'. intros n Hn. rewrite Z.land_spec, (Z.pow2_bits_eqb k n) by lia. destruct (Z.eqb_spec k n) as [->|Hne].
    - rewrite andb_true_r. destruct (Z.testbit v n); [rewrite Z.pow2_bits_true by lia; reflexivity|rewrite Z.bits_0; reflexivity].
    - rewrite andb_false_r. destruct (Z.testbit v k); [rewrite Z.pow2_bits_false by lia; reflexivity|rewrite Z.bits_0; reflexivity]. }
  rewrite E. pose proof (Z.pow_pos_nonneg 2 k). destruct (Z.testbit v k); [apply Z.eqb_refl|]. apply Z.eqb_neq. lia.
Qed.
Lemma mask_bit n : 0 <= n -> Z.testbit SCN_ALIGN_MASK n = (20 <=? n) && (n <=? 23).
Proof.
  intro Hn. change SCN_ALIGN_MASK with (Z.shiftl (Z.ones 4) 20). rewrite Z.shiftl_spec by lia.
  destruct (Z.leb_spec 20 n); cbn [andb].
  - destruct (Z.leb_spec n 23); [apply Z.ones_spec_low; lia|apply Z.ones_spec_high; lia].
  - apply Z.testbit_neg_r. lia.
Qed.
Lemma align_flag_spec al a : align_flag al = Some a -> 1 <= a <= 14 /\ al = 2 ^ (a - 1).
Proof.
  unfold align_flag. intro H.
  repeat match type of H with match ?x with _ => _ end = _ => destruct x; try discriminate end; injection H as <-; split; try lia; reflexivity.
Qed.
Lemma with_align_bit c x n : 0 <= n -> Z.testbit (with_align c x) n = if (20 <=? n) && (n <=? 23) then Z.testbit x n else Z.testbit c n.
Proof.
  intro Hn. unfold with_align. rewrite Z.lor_spec, Z.ldiff_spec, Z.land_spec, mask_bit by exact Hn.
  destruct ((20 <=? n) && (n <=? 23)); cbn [negb]; rewrite ?andb_false_r, ?andb_true_r, ?orb_false_r; reflexivity.
Qed.
Lemma align_read s c a sel : align_flag (se_align s) = Some a -> forall x, c_flags x = hdr_flags s c a sel -> coff_alignment x = se_align s.
Proof.
  intros Ha x Hx. destruct (align_flag_spec _ _ Ha) as [B E]. unfold coff_alignment.
  assert (Ek : Z.shiftr (Z.land (c_flags x) SCN_ALIGN_MASK) 20 = a).
  { rewrite Hx. unfold hdr_flags. apply Z.bits_inj'. intros n Hn. rewrite Z.shiftr_spec, Z.land_spec, mask_bit, with_align_bit, Z.shiftl_spec by lia.
    replace (n + 20 - 20) with n by lia. destruct (Z.leb_spec 20 (n + 20)); [|lia]. cbn [andb]. destruct (Z.leb_spec (n + 20) 23); [rewrite andb_true_r; reflexivity|].
    rewrite andb_false_r. symmetry. apply Z.bits_above_log2; [lia|]. apply Z.log2_lt_pow2; [lia|]. apply Z.lt_le_trans with (2 ^ 4); [lia|]. apply Z.pow_le_mono_r; lia. }
  rewrite Ek. destruct (Z.leb_spec 1 a); [|lia]. destruct (Z.leb_spec a 14); [|lia]. cbn [andb]. symmetry. exact E.
Qed.
Lemma hdr_flags_bit s c a sel n : 0 <= n -> (n <? 20) || (23 <? n) = true ->
  Z.testbit (hdr_flags s c a sel) n = Z.testbit c n || ((n =? 12) && negb (sel =? 0)) || ((n =? 24) && (65535 <? zlen (se_relocs s))).
Proof.
  intros Hn Hr. unfold hdr_flags. rewrite with_align_bit by exact Hn. replace ((20 <=? n) && (n <=? 23)) with false by lia.
  change SCN_COMDAT with (2 ^ 12). change SCN_OVFL with (2 ^ 24).
  destruct (negb (sel =? 0)), (65535 <? zlen (se_relocs s)); rewrite ?Z.lor_spec, ?Z.pow2_bits_eqb by lia; 
    rewrite ?andb_true_r, ?andb_false_r, ?orb_false_r; rewrite (Z.eqb_sym n 12), (Z.eqb_sym n 24) || rewrite (Z.eqb_sym n 12) || rewrite (Z.eqb_sym n 24) || idtac; reflexivity.
Qed.
Lemma bits_bound x : 0 <= x -> (forall n, 32 <= n -> Z.testbit x n = false) -> x < 2 ^ 32.
Proof.
  intros H0 H. destruct (Z_lt_dec x (2 ^ 32)); [assumption|]. exfalso. assert (Hp : 0 < x) by lia. pose proof (Z.bit_log2 x Hp) as Hb.
  rewrite H in Hb; [discriminate|]. apply Z.log2_le_pow2; lia.
Qed.
Lemma hdr_flags_bound s c a sel : 0 <= c < 2 ^ 32 -> 0 <= hdr_flags s c a sel < 2 ^ 32.
Proof.
  intro Hc. assert (H0 : 0 <= hdr_flags s c a sel).
  { unfold hdr_flags, with_align. apply Z.lor_nonneg. split; [|apply Z.land_nonneg; right; unfold SCN_ALIGN_MASK; lia].
    apply Z.ldiff_nonneg. left. destruct (65535 <? _), (negb _); rewrite ?Z.lor_nonneg; unfold SCN_OVFL, SCN_COMDAT; lia. }
  split; [exact H0|]. apply bits_bound; [exact H0|]. intros n Hn. rewrite hdr_flags_bit by lia.
  replace (n =? 12) with false by lia. replace (n =? 24) with false by lia. cbn [andb]. rewrite !orb_false_r.
  destruct (Z.eq_dec c 0) as [->|]; [apply Z.bits_0|]. apply Z.bits_above_log2; [lia|]. apply Z.log2_lt_pow2; [lia|]. apply Z.lt_le_trans with (2 ^ 32); [lia|]. apply Z.pow_le_mono_r; lia.
Qed.
Lemma char_bound o s c : sec_ok o s -> sec_characteristics s = Ok c -> 0 <= c < 2 ^ 32 /\ Z.testbit c 24 = false /\ Z.testbit c 7 = no_data s.
Proof.
  intros (_ & _ & _ & Hf & _) E. unfold sec_characteristics in E. unfold no_data. destruct (se_flags s) eqn:Es; try discriminate.
  - destruct (se_kind s); cbn in E; try discriminate; injection E as <-; repeat split; try reflexivity; lia.
  - injection E as <-. destruct (Hf _ eq_refl). repeat split; try lia; assumption.
Qed.

Section image.
Context (crc : bytes -> Z) (o : obj) (fl : Z) (F : bytes) (machine so : Z) (t : strtab) (tab : bytes) (ys : list (option soff * soff))
  (sels : list (Z * Z)) (hs : list bytes) (blks : list (list bytes)).
Context (HF : zlen F < 2 ^ 32) (Hok : coff_ok o fl) (IM : image crc o fl F machine so t tab ys sels hs blks) (Hm : 0 <= machine < 2 ^ 16).
Local Notation nsec := (zlen (o_sections o)).
Local Notation nsym := (total (o_symbols o)).
Definition read_file : cfile :=
  {| cf_big := false; cf_header := file_header machine nsec so nsym fl; cf_sections := map csec_of hs;
     cf_symbols := {| ct_big := false; ct_entries := concat blks; ct_strings := (Some F, so + nsym * 18, zlen F) |}; cf_data := F |}.
Lemma bounds : 20 <= so < 2 ^ 32 /\ 0 <= nsym < 2 ^ 32 /\ 0 <= nsec <= 65279 /\ 0 <= fl < 2 ^ 16.
Proof.
  destruct IM. pose proof (total_nonneg (o_symbols o)). pose proof (zlen_nonneg tab). pose proof (zlen_nonneg (o_sections o)).
  destruct Hok as (A & B & _).  lia.
Qed.
Lemma parse_ok : coff_parse false F = Ok read_file.
Proof.
  pose proof bounds as (B1 & B2 & B3 & B4). destruct IM. 
  unfold coff_parse, coff_header_parse. change (coff_header_size false) with 20.
  assert (H20 : zlen (file_header machine (zlen (o_sections o)) so (total (o_symbols o)) fl) = 20) by (unfold file_header; rewrite !zlen_app, !zlen_write_u; reflexivity).
  pose proof (holds_bounds _ _ _ im_header) as [_ Hb]. pose proof (holds_slice _ _ _ im_header) as Hsl. rewrite H20 in Hb, Hsl.
  rewrite rr_read_eq by lia. destruct (Z.leb_spec (0 + 20) (zlen F)); [|lia]. rewrite Hsl. cbv beta iota.
  assert (Eo : ch_opt (file_header machine (zlen (o_sections o)) so (total (o_symbols o)) fl) = 0) by (unfold ch_opt, file_header; fld_norm; reflexivity).
  assert (En : ch_nsections false (file_header machine (zlen (o_sections o)) so (total (o_symbols o)) fl) = zlen (o_sections o)) by (unfold ch_nsections, file_header; fld_norm; reflexivity).
  assert (Es : ch_symptr false (file_header machine (zlen (o_sections o)) so (total (o_symbols o)) fl) = so) by (unfold ch_symptr, file_header; fld_norm; reflexivity).
  assert (Ey : ch_nsyms false (file_header machine (zlen (o_sections o)) so (total (o_symbols o)) fl) = total (o_symbols o)) by (unfold ch_nsyms, file_header; fld_norm; reflexivity).
  rewrite Eo. unfold cadd. change (0 + 20 + 0 <? 2 ^ 64) with true. cbn [of_opt bind]. change (0 + 20 + 0) with 20.
  unfold coff_sections_parse. rewrite En, (holds_slice_at F 20 hs) by (try assumption; try (unfold coff_sec_size; lia); lia). cbn [bind].
  unfold coff_symbols_parse. rewrite Es, Ey. destruct (Z.eqb_spec so 0); [lia|]. change (coff_sym_size false) with 18.
  rewrite (read_slice_ok F so (concat blks)) by (try assumption; lia).
  destruct im_tablen as [D ED]. pose proof im_tab as Ht. rewrite ED in Ht. apply holds_app in Ht as [Ht _].
  pose proof (zlen_nonneg tab). assert (Hl4 : 4 <= zlen tab) by (rewrite ED, zlen_app, zlen_write_u; pose proof (zlen_nonneg D); lia).
  rewrite (holds_read_at _ _ _ 4 Ht) by (rewrite ?zlen_write_u; lia). cbn [bind]. rewrite fld_hd1 by lia.
  unfold cadd. rewrite im_end. destruct (Z.ltb_spec (zlen F) (2 ^ 64)); [|lia]. reflexivity.
Qed.
Lemma string_ok off n : string_at tab off n -> strings_get (ct_strings (cf_symbols read_file)) off = Ok n.
Proof.
  destruct IM. intro H. cbn [strings_get read_file cf_symbols ct_strings]. apply (string_at_get F _ tab); [exact im_tab|exact H|lia|].  lia.
Qed.

(** ** Names *)
Lemma until_null_pad n k : ~ In 0 n -> until_null (n ++ zeros k) = n.
Proof.
  intro H. unfold until_null. destruct (Z_le_dec k 0).
  - replace (zeros k) with (@nil Z) by (unfold zeros; replace (Z.to_nat k) with 0%nat by lia; reflexivity). rewrite app_nil_r.
    rewrite (proj2 (memchr_None 0 n) H). reflexivity.
  - replace (zeros k) with (0 :: zeros (k - 1)) by (unfold zeros; replace (Z.to_nat k) with (S (Z.to_nat (k - 1))) by lia; reflexivity).
    rewrite memchr_app by exact H. apply ztake_app.
Qed.
Lemma sec_name_ok n c f x : named t n c -> sec_field t c f -> c_name x = f -> str_ok n -> (forall tl, n <> 47 :: tl) ->
  cs_name read_file x = Ok n.
Proof.
  intros Hn Hf Hx Hs Hsl. unfold cs_name, coff_section_name. destruct Hn as [[-> Hl]|(id & -> & Hl & Hg)]; cbn [sec_field] in Hf.
  - subst f. assert (H0 : exists b0, zget (c_name x) 0 = Some b0 /\ b0 <> 47).
    { rewrite Hx. destruct n as [|b n].
      - exists 0. split; [reflexivity|lia].
      - exists b. split; [reflexivity|]. intros ->. apply (Hsl n). reflexivity. }
    destruct H0 as (b0 & E0 & Hb0). unfold coff_name_offset. rewrite E0. cbn [unwrap bind]. destruct (Z.eqb_spec b0 47); [lia|]. cbn [negb bind].
    f_equal. unfold coff_raw_name. rewrite Hx. apply until_null_pad. apply Hs.
  - destruct Hf as (off & Eo & ->). destruct (im_stored _ _ _ _ _ _ _ _ _ _ _ _ IM _ _ Hg) as (off' & Eo' & Hb & Hst). assert (off' = off) by congruence. subst off'.
    destruct (sec_name_field_spec off Hb) as (_ & _ & Hr). rewrite (Hr x Hx). cbn [bind]. apply string_ok. exact Hst.
Qed.
Lemma sym_name_ok n c f x : named t n c -> sym_field t c f -> y_name x = f -> str_ok n -> n <> [] ->
  coff_symbol_name (ct_strings (cf_symbols read_file)) x = Ok n.
Proof.
  intros Hn Hf Hx Hs Hne. unfold coff_symbol_name. destruct Hn as [[-> Hl]|(id & -> & Hl & Hg)]; cbn [sym_field] in Hf.
  - rewrite Hx, Hf. destruct n as [|b n]; [congruence|]. rewrite <- app_comm_cons, zget_0. cbn [unwrap bind].
    destruct (Z.eqb_spec b 0) as [->|]; [exfalso; apply Hs; left; reflexivity|]. f_equal. rewrite app_comm_cons. apply until_null_pad. apply Hs.
  - destruct Hf as (off & Eo & Hf). destruct (im_stored _ _ _ _ _ _ _ _ _ _ _ _ IM _ _ Hg) as (off' & Eo' & Hb & Hst). assert (off' = off) by congruence. subst off'.
    rewrite Hx, Hf. change (zget (zeros 4 ++ write_u Little 4 off) 0) with (Some 0). cbn [unwrap bind]. change (0 =? 0) with true. cbn iota.
    change (read_u Little (zslice 4 4 (zeros 4 ++ write_u Little 4 off))) with (fld Little 4 4 (zeros 4 ++ write_u Little 4 off)).
    rewrite (fld_skip_app _ _ _ 4) by (reflexivity || lia). change (4 - 4) with 0. rewrite fld_hd1 by (reflexivity || lia). apply string_ok. exact Hst.
Qed.
(** ** Structures *)
Lemma csec_hdr f rs rp rlp n fg : zlen f = 8 -> 0 <= rs < 2 ^ 32 -> 0 <= rp < 2 ^ 32 -> 0 <= rlp < 2 ^ 32 -> 0 <= n -> 0 <= fg < 2 ^ 32 ->
  csec_of (hdr_bytes f rs rp rlp n fg) =
  {| c_name := f; c_vsize := 0; c_vaddr := 0; c_rawsize := rs; c_rawptr := rp; c_relptr := rlp; c_lnptr := 0; c_nrel := Z.min 65535 n; c_nln := 0; c_flags := fg |}.
Proof.
  intros Hf H1 H2 H3 H4 H5. set (m := if 65535 <? n then 65535 else n). assert (Hmm : m = Z.min 65535 n) by (subst m; destruct (Z.ltb_spec 65535 n); lia).
  assert (0 <= m < 2 ^ 16) by lia. unfold csec_of, hdr_bytes. fold m. rewrite <- Hmm.
  rewrite zslice_app1 by lia. rewrite zslice_all by lia.
  rewrite !(fld_skip_app _ _ _ 8 f) by (assumption || lia). clearbody m. fld_norm. reflexivity.
Qed.
Lemma csym_bytes f v n typ class naux : zlen f = 8 -> 0 <= v < 2 ^ 32 -> -2 <= n <= 65279 -> 0 <= typ < 2 ^ 16 -> 0 <= class < 256 -> 0 <= naux < 256 ->
  csym_of false (sym_bytes f v n typ class naux) = {| y_name := f; y_value := v; y_secnum := n; y_typ := typ; y_class := class; y_naux := naux |}.
Proof.
  intros Hf H1 H2 H3 H4 H5. unfold csym_of, sym_bytes. rewrite zslice_app1 by lia. rewrite zslice_all by lia.
  rewrite !(fld_skip_app _ _ _ 8 f) by (assumption || lia).
  assert (E1 : [class] = write_u Little 1 class) by (cbn; rewrite Z.mod_small by lia; reflexivity).
  assert (E2 : [naux] = write_u Little 1 naux) by (cbn; rewrite Z.mod_small by lia; reflexivity).
  rewrite E1, E2. assert (0 <= wrap_u 16 n < 2 ^ 16) by (apply Z.mod_pos_bound; lia). set (m := wrap_u 16 n) in *.
  assert (Hn : (if IMAGE_SYM_SECTION_MAX <? m then wrap_s 16 m else m) = n).
  { subst m. unfold IMAGE_SYM_SECTION_MAX, wrap_s, wrap_u in *. destruct (Z.ltb_spec 65279 (n mod 2 ^ 16)); cbn; Z.to_euclidean_division_equations; lia. }
  clearbody m. change (8 - 8) with 0. fld_norm. rewrite Hn. reflexivity.
Qed.
(** ** Sections *)
Lemma crel_enc c : 0 <= cr_va c < 2 ^ 32 -> 0 <= cr_sym c < 2 ^ 32 -> 0 <= cr_typ c < 2 ^ 16 -> crel_of (enc_rel c) = c.
Proof. destruct c as [va sy ty]. cbn [cr_va cr_sym cr_typ]. intros. unfold crel_of, enc_rel. cbn [cr_va cr_sym cr_typ]. fld_norm. reflexivity. Qed.
Lemma sym_index_of i y wk s : zget (o_symbols o) i = Some y -> reserved o y (total (ztake i (o_symbols o))) wk s t -> so_index s = sym_index o i.
Proof. intros Hi (R & _). unfold sym_index. rewrite Hi, R. reflexivity. Qed.
Lemma sym_index_bound i y : zget (o_symbols o) i = Some y -> 0 <= sym_index o i < nsym /\ total (ztake i (o_symbols o)) + entries y <= nsym.
Proof.
  intro Hi. unfold sym_index. rewrite Hi. pose proof (entries_pos y). unfold weak1 in *. pose proof (total_nonneg (ztake i (o_symbols o))).
  pose proof (total_take (o_symbols o) (i + 1)) as Ht. rewrite (ztake_step _ _ _ Hi), total_app, total_one in Ht. destruct (sy_weak y); lia.
Qed.
Lemma rels_ok s cs : sec_ok o s -> Forall2 (rel_of (map snd ys)) (se_relocs s) cs ->
  map crel_of (map enc_rel cs) = map (expected_rel o) (se_relocs s).
Proof.
  intros (_ & _ & _ & _ & Hr). induction 1 as [|r c l l' (ty & y & Ef & Ey & ->) HR IH]; [reflexivity|].
  pose proof (Forall_inv Hr) as [Hb Hty]. cbn [map]. f_equal; [|apply IH; exact (Forall_inv_tail Hr)].
  destruct (zget_lt_Some (o_symbols o) (ol_symbol r) Hb) as [y0 Hy0]. destruct (im_sym _ _ _ _ _ _ _ _ _ _ _ _ IM _ _ Hy0) as (wk & s0 & blk & G & R & _).
  rewrite zget_map, G in Ey. cbn [option_map snd] in Ey. injection Ey as <-. rewrite (sym_index_of _ _ _ _ Hy0 R).
  unfold expected_rel, rel_type. rewrite Ef. destruct (sym_index_bound _ _ Hy0) as [Hsi _]. pose proof bounds as (_ & B2 & _). specialize (Hty _ Ef).
  apply crel_enc; cbn [cr_va cr_sym cr_typ]; [apply Z.mod_pos_bound; lia|lia|exact Hty].
Qed.
Lemma section_ok i s : zget (o_sections o) i = Some s -> reads_section o read_file i s.
Proof.
  intro Hi. destruct Hok as (Hns & _ & Hsec & _). pose proof (Forall_zget _ _ _ _ Hsec Hi) as Hs. cbn beta in Hs.
  destruct (im_sec _ _ _ _ _ _ _ _ _ _ _ _ IM _ _ Hi) as (nm & f & c & a & a0 & e0 & cs & sel & assoc & Hsel & Hnm & Hf & Hc & Ha & Hh & Hd & Hr & HR & Hov).
  pose proof (holds_bounds _ _ _ Hd) as [Bd1 Bd2]. pose proof (holds_bounds _ _ _ Hr) as [Br1 Br2].
  assert (Hcs : zlen cs = zlen (se_relocs s)) by exact (Forall2_zlen _ _ _ HR).
  rewrite zlen_app, zlen_concat_rel, Hcs in Br2. pose proof (zlen_nonneg (overflow_rel s)). pose proof (zlen_nonneg (se_relocs s)). pose proof (zlen_nonneg (se_data s)).
  destruct (char_bound _ _ _ Hs Hc) as (Hcb & Hc24 & Hc7).
  assert (Hfl : zlen f = 8) by exact (sec_field_len _ _ _ _ _ (im_stored _ _ _ _ _ _ _ _ _ _ _ _ IM) Hnm Hf).
  pose proof (hdr_flags_bound s c a sel Hcb) as Hfb.
  set (fg := hdr_flags s c a sel) in *. set (rp := match se_data s with [] => 0 | _ => a0 end) in *. set (rlp := match se_relocs s with [] => 0 | _ => e0 end) in *.
  assert (Hrp : 0 <= rp < 2 ^ 32) by (subst rp; destruct (se_data s); lia).
  assert (Hrlp : 0 <= rlp < 2 ^ 32) by (subst rlp; destruct (se_relocs s); lia).
  assert (Hsz : 0 <= wrap_u 32 (se_size s) < 2 ^ 32) by (apply Z.mod_pos_bound; lia).
  pose proof (csec_hdr f _ _ _ _ _ Hfl Hsz Hrp Hrlp H0 Hfb) as Ex.
  eexists. split; [cbn [cf_sections read_file]; rewrite zget_map, Hh; reflexivity|]. rewrite Ex. cbn [c_vaddr c_rawsize c_flags cf_data read_file].
  split; [eapply sec_name_ok; [exact Hnm|exact Hf|reflexivity|apply Hs|apply Hs]|]. split; [reflexivity|]. split; [reflexivity|].
  split; [apply (align_read s c a sel Ha); reflexivity|].
  assert (H7 : Z.testbit fg 7 = no_data s).
  { subst fg. rewrite hdr_flags_bit by (lia || reflexivity). change (7 =? 12) with false. change (7 =? 24) with false. cbn [andb]. rewrite !orb_false_r. exact Hc7. }
  assert (H24 : Z.testbit fg 24 = (65535 <? zlen (se_relocs s))).
  { subst fg. rewrite hdr_flags_bit by (lia || reflexivity). change (24 =? 12) with false. change (24 =? 24) with true. cbn [andb]. rewrite orb_false_r, Hc24. reflexivity. }
  split; [|split; [|split]].
  - intros c' n Ec Hn Hcf. unfold computed_flag in Hcf. subst fg. rewrite hdr_flags_bit by lia.
    unfold sec_characteristics in Hc. rewrite Ec in Hc. injection Hc as ->.
    replace (n =? 12) with false by lia. replace (n =? 24) with false by lia. cbn [andb]. rewrite !orb_false_r. reflexivity.
  - unfold coff_relocations. cbn [c_nrel c_relptr c_flags]. change SCN_OVFL with (2 ^ 24). rewrite fl_has_bit, H24 by lia.
    rewrite <- (rels_ok s cs Hs HR). destruct (Z.ltb_spec 65535 (zlen (se_relocs s))) as [Hb|Hb].
    + replace (Z.min 65535 (zlen (se_relocs s)) =? 65535) with true by lia. cbn [andb].
      assert (Erl : rlp = e0) by (subst rlp; destruct (se_relocs s); [change (zlen (@nil orel)) with 0 in Hb; lia|reflexivity]). rewrite Erl.
      specialize (Hov Hb). unfold overflow_rel in Hr. destruct (Z.ltb_spec 65535 (zlen (se_relocs s))); [|lia].
      rewrite wrap_u_id in Hr by lia. apply holds_app in Hr as [Hr1 Hr2]. rewrite (holds_read_at _ _ _ coff_rel_size Hr1) by (rewrite ?zlen_enc_rel; (reflexivity || lia)).
      cbn [bind]. unfold enc_rel at 1 2. cbn [cr_va]. rewrite fld_hd by lia. destruct (Z.eqb_spec (zlen (se_relocs s) + 1) 0); [lia|].
      unfold padd, coff_rel_size. rewrite zlen_enc_rel in Hr2. pose proof (holds_bounds _ _ _ Hr2). destruct (Z.ltb_spec (e0 + 10) (2 ^ 64)); [|lia]. cbn [bind]. unfold psub. destruct (Z.leb_spec 1 (zlen (se_relocs s) + 1)); [|lia]. cbn [bind].
      rewrite (holds_slice_at F (e0 + 10) (map enc_rel cs)); [reflexivity|exact Hr2| |lia| |lia].
      * apply Forall_map. apply Forall_forall. intros ? _. apply zlen_enc_rel.
      * unfold zlen in *. rewrite map_length. lia.
    + rewrite andb_false_r. cbn [bind]. rewrite Z.min_r by lia. unfold overflow_rel in Hr. destruct (Z.ltb_spec 65535 (zlen (se_relocs s))); [lia|]. cbn [app] in Hr.
      destruct (se_relocs s) as [|r0 rs] eqn:Er.
      * inversion HR. subst cs. change (zlen (@nil orel)) with 0. unfold rlp. 
        rewrite (holds_slice_at F 0 []); [reflexivity|apply holds_nil; lia|constructor|unfold coff_rel_size; lia|reflexivity|lia].
      * unfold rlp. rewrite (holds_slice_at F e0 (map enc_rel cs)); [reflexivity|exact Hr| |unfold coff_rel_size; lia| |lia].
        -- apply Forall_map. apply Forall_forall. intros ? _. apply zlen_enc_rel.
        -- unfold zlen in *. rewrite map_length. lia.
  - intro Hu. unfold coff_data, coff_file_range. cbn [c_flags]. change SCN_UNINIT with (2 ^ 7). rewrite fl_has_bit, H7, Hu by lia. reflexivity.
  - intros Hu Hsd. unfold coff_data, coff_file_range. cbn [c_flags c_rawptr c_rawsize]. change SCN_UNINIT with (2 ^ 7). rewrite fl_has_bit, H7, Hu by lia.
    rewrite Hsd, wrap_u_id by lia. destruct (se_data s) as [|d0 d] eqn:Ed.
    + apply rr_read_bytes_at_eq; lia.
    + subst rp. apply holds_read_bytes_at; [exact Hd|reflexivity].
Qed.
(** ** Symbols *)
Lemma concat_split l : forall (bl : list (list bytes)) i y blk,
  (forall i y, zget l i = Some y -> exists b, zget bl i = Some b /\ zlen b = entries y) -> zget l i = Some y -> zget bl i = Some blk ->
  exists P Q, concat bl = P ++ blk ++ Q /\ zlen P = total (ztake i l).
Proof.
  induction l as [|y0 l IH]; intros bl i y blk H Hi Hb; [apply zget_Some_lt in Hi; change (zlen (@nil osym)) with 0 in Hi; lia|].
  destruct bl as [|b0 bl]; [apply zget_Some_lt in Hb; change (zlen (@nil (list bytes))) with 0 in Hb; lia|].
  destruct (Z.eq_dec i 0) as [->|Hne].
  - rewrite zget_0 in Hb. injection Hb as <-. exists [], (concat bl). split; reflexivity.
  - apply zget_Some_lt in Hi as Hib. rewrite zget_S in Hi by lia. rewrite zget_S in Hb by lia.
    destruct (IH bl (i - 1) y blk) as (P & Q & E & L); [|exact Hi|exact Hb|].
    + intros j z Hj. apply zget_Some_lt in Hj as Hjb. destruct (H (j + 1) z) as (b & G & Lb); [rewrite zget_S by lia; replace (j + 1 - 1) with j by lia; exact Hj|].
      rewrite zget_S in G by lia. replace (j + 1 - 1) with j in G by lia. exists b. auto.
    + exists (b0 ++ P), Q. split; [cbn [concat]; rewrite E, <- app_assoc; reflexivity|].
      destruct (H 0 y0 (zget_0 _ _)) as (b & G & Lb). rewrite zget_0 in G. injection G as <-. rewrite zlen_app, Lb, L.
      replace i with (1 + (i - 1)) at 2 by lia. change (y0 :: l) with ([y0] ++ l). rewrite ztake_app_ge by (change (zlen [y0]) with 1; lia).
      change (zlen [y0]) with 1. replace (1 + (i - 1) - 1) with (i - 1) by lia. rewrite total_app, total_one. reflexivity.
Qed.
Lemma blk_split i y blk : zget (o_symbols o) i = Some y -> zget blks i = Some blk -> exists P Q, concat blks = P ++ blk ++ Q /\ zlen P = total (ztake i (o_symbols o)).
Proof.
  intros Hi Hb. apply (concat_split (o_symbols o) blks i y blk); [|exact Hi|exact Hb].
  intros j z Hj. destruct (im_sym _ _ _ _ _ _ _ _ _ _ _ _ IM _ _ Hj) as (wk & s & b & _ & _ & G & L & _). exists b. auto.
Qed.
Lemma get_entry k b n : zget (concat blks) k = Some b -> n <= 18 -> 0 < n -> 0 <= k -> forall d, 0 <= k - d -> 0 <= d -> coff_get (cf_symbols read_file) (k - d) d n = Ok (ztake n b).
Proof.
  intros Hb Hn Hn0 Hk d Hd Hd0. unfold coff_get. cbn [cf_symbols read_file ct_entries]. pose proof bounds as (_ & B2 & _). apply zget_Some_lt in Hb as Hkb.
  destruct IM. rewrite im_slen in Hkb. unfold cadd. replace (k - d + d) with k by lia. destruct (Z.ltb_spec k (2 ^ 64)); [|lia]. cbn [of_opt bind]. rewrite Hb. cbn [of_opt bind].
  pose proof (Forall_zget _ _ _ _ im_s18 Hb) as L. cbn beta in L. unfold b_read, from_bytes. 
  rewrite get_from_eq by lia. replace (0 <=? n) with true by lia. replace (n <=? zlen b) with true by lia. reflexivity.
Qed.
Lemma sym_entry_ok k f v n typ class naux : zget (concat blks) k = Some (sym_bytes f v n typ class naux) -> 0 <= k -> zlen f = 8 -> 0 <= v < 2 ^ 32 -> -2 <= n <= 65279 ->
  0 <= typ < 2 ^ 16 -> 0 <= class < 256 -> 0 <= naux < 256 ->
  coff_symbol (cf_symbols read_file) k = Ok {| y_name := f; y_value := v; y_secnum := n; y_typ := typ; y_class := class; y_naux := naux |}.
Proof.
  intros Hb Hk Hf Hv Hn Ht Hc Ha. unfold coff_symbol. cbn [cf_symbols read_file ct_big]. change (coff_sym_size false) with 18.
  pose proof (get_entry k _ 18 Hb) as G. replace k with (k - 0) at 1 by lia. rewrite G by lia. cbn [bind]. rewrite ztake_all by (rewrite zlen_sym_bytes by exact Hf; lia).
  rewrite csym_bytes by assumption. reflexivity.
Qed.
Lemma sec_number_ok id n : 0 <= id < 65279 -> sec_number id = Ok n -> n = id + 1.
Proof.
  intros Hi. unfold sec_number. replace (wrap_s 32 id) with id by (unfold wrap_s; rewrite Z.mod_small by lia; destruct (Z.ltb_spec id (2 ^ (32 - 1))); lia).
  destruct (_ <? _); congruence.
Qed.
Lemma flags_bound y typ class : sym_ok o y -> sym_flags y = Ok (typ, class) ->
  0 <= typ < 2 ^ 16 /\ 0 <= class < 256 /\ (class = 103 <-> sy_kind y = YFile /\ sy_weak y = false) /\
  (forall t c, sy_flags y = Some (YFCoff t c) -> typ = t /\ class = c).
Proof.
  intros (_ & _ & _ & _ & Hf) E. unfold sym_flags in E. destruct (sy_flags y) as [[]|]; try discriminate.
  - injection E as <- <-. destruct (Hf _ _ eq_refl) as (A & B & C). repeat split; try assumption; try tauto; intros; congruence.
  - unfold coff_symbol_flags in E. cbv zeta in E. unfold has_section, CLASS_WEAK, CLASS_FILE, CLASS_STATIC, CLASS_SECTION, CLASS_LABEL, CLASS_EXTERNAL in E.
    destruct (sy_weak y).
    + destruct (sy_kind y); cbn in E; injection E as <- <-; repeat split; try lia; intros; intuition congruence.
    + destruct (sy_kind y); cbn in E; try (destruct (sy_section y)); cbn in E; try (destruct (sy_scope y)); cbn in E; try discriminate; injection E as <- <-; repeat split; try lia; intros; intuition congruence.
Qed.
Lemma naux_bound y : sym_ok o y -> 0 <= entries y - 1 - weak1 y < 256.
Proof.
  intros (_ & _ & Hf & _). pose proof (entries_pos y). split; [lia|]. unfold entries, weak1 in *. destruct (sy_weak y); [lia|]. destruct (sy_kind y); try lia.
  all: try (destruct (sy_section y); lia).
  all: try (specialize (Hf eq_refl)); pose proof (zlen_nonneg (sy_name y)); Z.to_euclidean_division_equations; lia.
Qed.
Lemma own_number y n : sym_ok o y -> sy_weak y = false -> own_secnum y n -> n = sym_number y /\ -2 <= n <= 65279.
Proof.
  intros (_ & _ & _ & Hi & _) Hw Hn. unfold own_secnum, sym_number, IMAGE_SYM_DEBUG, IMAGE_SYM_UNDEFINED, IMAGE_SYM_ABSOLUTE in *. rewrite Hw. destruct Hok as (Hns & _).
  destruct (sy_section y); try (subst n; split; [reflexivity|lia]).
  - destruct Hn as [-> _]. split; [reflexivity|lia].
  - specialize (Hi _ eq_refl). rewrite (sec_number_ok id n) by (lia || assumption). split; [reflexivity|lia].
Qed.
Lemma own_value_ok y : sy_weak y = false -> own_value y = sym_value y.
Proof. intro H. unfold own_value, sym_value. rewrite H. destruct (sy_section y); reflexivity. Qed.
Lemma sym_value_bound y : 0 <= sym_value y < 2 ^ 32.
Proof. unfold sym_value. destruct (sy_weak y); [lia|]. destruct (sy_section y); apply Z.mod_pos_bound; lia. Qed.
Lemma file_name_ok k n auxs P Q : concat blks = P ++ auxs ++ Q -> zlen P = k + 1 -> 0 <= k -> concat auxs = sy_name n ++ zeros (zlen auxs * 18 - zlen (sy_name n)) -> ~ In 0 (sy_name n) ->
  coff_aux_file_name (cf_symbols read_file) k (zlen auxs) = Ok (sy_name n).
Proof.
  intros E L Hk Hc Hn. unfold coff_aux_file_name. cbn [cf_symbols read_file ct_entries]. pose proof bounds as (_ & B2 & _).
  pose proof (im_slen _ _ _ _ _ _ _ _ _ _ _ _ IM) as Hlen. rewrite E in *. rewrite !zlen_app in Hlen. pose proof (zlen_nonneg auxs). pose proof (zlen_nonneg Q).
  unfold cadd. destruct (Z.ltb_spec (k + 1) (2 ^ 64)); [|lia]. cbn [of_opt bind]. destruct (Z.ltb_spec (k + 1 + zlen auxs) (2 ^ 64)); [|lia]. cbn [of_opt bind].
  unfold get_range. rewrite !zlen_app. destruct (_ && _) eqn:Eb; [|lia]. cbn [of_opt bind].
  replace (k + 1 + zlen auxs - (k + 1)) with (zlen auxs) by lia. rewrite zslice_app_eq by lia.
  rewrite Hc, until_null_pad by exact Hn. reflexivity.
Qed.
Definition reads_symbol' (i : Z) (y : osym) : Prop :=
  exists x, coff_symbol (cf_symbols read_file) (sym_index o i) = Ok x /\ cy_name read_file (sym_index o i) x = Ok (sy_name y) /\ y_value x = sym_value y /\
    y_secnum x = sym_number y /\ y_naux x = entries y - 1 - (if sy_weak y then 1 else 0) /\ sym_flags y = Ok (y_typ x, y_class x).
Lemma symbol_ok' i y : zget (o_symbols o) i = Some y -> reads_symbol' i y.
Proof.
  intro Hi. assert (Hy : sym_ok o y) by (destruct Hok as (_ & _ & _ & Hs); exact (Forall_zget _ _ _ _ Hs Hi)).
  destruct (im_sym _ _ _ _ _ _ _ _ _ _ _ _ IM _ _ Hi) as (wk & s & blk & G & R & Hb & L & W).
  destruct (blk_split _ _ _ Hi Hb) as (P & Q & E & LP). pose proof (total_nonneg (ztake i (o_symbols o))).
  destruct W as (typ & class & f & Ef & Hf & W). destruct (flags_bound _ _ _ Hy Ef) as (Bt & Bc & Hc103 & Hex). pose proof (naux_bound _ Hy) as Hna.
  destruct R as (R1 & R2 & R3 & R4). pose proof (sym_field_len _ _ _ _ _ (im_stored _ _ _ _ _ _ _ _ _ _ _ _ IM) R3 Hf) as Lf.
  pose proof (sym_value_bound y) as Hv. pose proof Hy as (Hstr & Hne & Hfile & _).
  assert (Eidx : sym_index o i = total (ztake i (o_symbols o)) + weak1 y) by (unfold sym_index; rewrite Hi; reflexivity). unfold weak1 in *.
  unfold reads_symbol'. rewrite Eidx. destruct (sy_weak y) eqn:Ew.
  - destruct W as (d & fd & n & _ & _ & _ & ->).
    assert (Hz : zget (concat blks) (total (ztake i (o_symbols o)) + 1) = Some (sym_bytes f 0 IMAGE_SYM_UNDEFINED typ class (so_aux s))).
    { rewrite E, zget_app2 by lia. replace (total (ztake i (o_symbols o)) + 1 - zlen P) with 1 by lia. cbn [app]. rewrite zget_S by lia. apply zget_0. }
    eexists. split; [apply (sym_entry_ok _ _ _ _ _ _ _ Hz); (assumption || (unfold IMAGE_SYM_UNDEFINED; lia))|]. cbn [y_value y_secnum y_naux y_typ y_class].
    unfold sym_value, sym_number. rewrite Ew. split; [|split; [reflexivity|split; [reflexivity|split; [exact R2|exact Ef]]]].
    unfold cy_name, has_aux_file_name. cbn [y_class y_naux]. replace (class =? CLASS_FILE) with false by (symmetry; apply Z.eqb_neq; intro Hc; apply Hc103 in Hc; destruct Hc; congruence).
    rewrite andb_false_r. assert (En : entry_name y = sy_name y) by (unfold entry_name; rewrite Ew; reflexivity). rewrite En in R3.
    eapply sym_name_ok; [exact R3|exact Hf|reflexivity|exact Hstr|exact Hne].
  - destruct W as (n & auxs & Hn & -> & HA & LA & FA). destruct (own_number _ _ Hy Ew Hn) as [En Bn]. rewrite Z.add_0_r.
    assert (Hz : zget (concat blks) (total (ztake i (o_symbols o))) = Some (sym_bytes f (own_value y) n typ class (so_aux s))).
    { rewrite E, zget_app2 by lia. replace (total (ztake i (o_symbols o)) - zlen P) with 0 by lia. apply zget_0. }
    rewrite own_value_ok in Hz by exact Ew.
    eexists. split; [apply (sym_entry_ok _ _ _ _ _ _ _ Hz); (assumption || lia)|]. cbn [y_value y_secnum y_naux y_typ y_class].
    split; [|split; [reflexivity|split; [exact En|split; [exact R2|exact Ef]]]].
    unfold cy_name, has_aux_file_name. cbn [y_class y_naux]. destruct (Z.eqb_spec class CLASS_FILE) as [Hc|Hc].
    + apply Hc103 in Hc as [Hk _]. unfold aux_of in HA. rewrite Hk in HA. rewrite R2.
      assert (Hpos : 0 < entries y - 1 - 0).
      { unfold entries. rewrite Ew, Hk. destruct (sy_name y) as [|b nm]; [congruence|]. rewrite zlen_cons. pose proof (zlen_nonneg nm). Z.to_euclidean_division_equations; lia. }
      destruct (Z.ltb_spec 0 (entries y - 1 - 0)); [|lia]. cbn [andb]. rewrite <- R2, <- LA.
      apply (file_name_ok _ y auxs (P ++ [sym_bytes f (own_value y) n typ class (so_aux s)]) Q); [rewrite E, <- !app_assoc; reflexivity|rewrite zlen_app; change (zlen [_]) with 1; lia|lia| |apply Hstr].
      rewrite HA, LA. reflexivity.
    + rewrite andb_false_r. assert (Ee : entry_name y = sy_name y).
      { unfold entry_name. rewrite Ew. cbn [negb andb]. destruct (sy_kind y) eqn:Ek; try reflexivity. exfalso. apply Hc. apply Hc103. auto. }
      rewrite Ee in R3. eapply sym_name_ok; [exact R3|exact Hf|reflexivity|exact Hstr|exact Hne].
Qed.

Lemma symbol_ok i y : zget (o_symbols o) i = Some y -> reads_symbol o read_file i y.
Proof.
  intro Hi. destruct (symbol_ok' i y Hi) as (x & A & B & C & D & E & G). exists x. repeat (split; [assumption|]). intros t0 c Hf. unfold sym_flags in G. rewrite Hf in G.
  split; congruence.
Qed.
Lemma wu_ok y : Forall (sym_ok o) (o_symbols o) -> str_ok (sy_name y) -> str_ok (weak_name o y) /\ weak_name o y <> [].
Proof.
  intros HA Hy. unfold weak_name. split; [|discriminate].
  assert (Hu : str_ok (weak_unique o)).
  { assert (Hf : forall (g h : osym -> bool) z, find g (filter h (o_symbols o)) = Some z -> str_ok (sy_name z)).
    { intros g h z Hz. apply find_some in Hz as [Hz _]. apply filter_In in Hz as [Hz _]. rewrite Forall_forall in HA. apply HA in Hz. apply Hz. }
    assert (Hn : str_ok []) by (split; [constructor|intros []]).
    assert (Hff : forall (g h : osym -> bool), str_ok (match find g (filter h (o_symbols o)) with Some z => sy_name z | None => [] end)).
    { intros g h. destruct (find g (filter h (o_symbols o))) eqn:Eg; [exact (Hf _ _ _ Eg)|exact Hn]. }
    unfold weak_unique. match goal with |- str_ok (match ?m with _ => _ end) => destruct m eqn:Em end; [apply Hff|]. rewrite <- Em. apply Hff. }
  assert (Happ : forall a b, str_ok a -> str_ok b -> str_ok (a ++ b)).
  { intros a b [A1 A2] [B1 B2]. split; [apply bytes_ok_app; split; assumption|]. intro H. apply in_app_iff in H. tauto. }
  apply Happ; [split; [apply bytes_ok_forallb; reflexivity|cbn; intuition lia]|]. apply Happ; [exact Hy|].
  destruct (weak_unique o) as [|b u]; [split; [constructor|intros []]|]. change (46 :: b :: u) with ([46] ++ (b :: u)). apply Happ; [|exact Hu].
  split; [repeat constructor; lia|intros [H|[]]; lia].
Qed.
Lemma weak_ok i y : zget (o_symbols o) i = Some y -> sy_weak y = true -> reads_weak o read_file i y.
Proof.
  intros Hi Ew. assert (Hsy : Forall (sym_ok o) (o_symbols o)) by (destruct Hok as (_ & _ & _ & Hs); exact Hs).
  assert (Hy : sym_ok o y) by exact (Forall_zget _ _ _ _ Hsy Hi).
  destruct (im_sym _ _ _ _ _ _ _ _ _ _ _ _ IM _ _ Hi) as (wk & s & blk & G & R & Hb & L & W).
  destruct (blk_split _ _ _ Hi Hb) as (P & Q & E & LP). pose proof (total_nonneg (ztake i (o_symbols o))).
  destruct W as (typ & class & f & Ef & Hf & W). destruct R as (R1 & R2 & R3 & R4). rewrite Ew in *.
  destruct W as (d & fd & n & Ed & Hfd & Hn & ->). destruct R4 as (d' & Ed' & Rd & R4). assert (d' = d) by congruence. subst d'.
  pose proof (sym_field_len _ _ _ _ _ (im_stored _ _ _ _ _ _ _ _ _ _ _ _ IM) R4 Hfd) as Lf.
  assert (Eidx : sym_index o i = total (ztake i (o_symbols o)) + 1) by (unfold sym_index; rewrite Hi, Ew; reflexivity).
  assert (Hidx : sym_index o i - 1 = total (ztake i (o_symbols o))) by lia.
  pose proof Hy as (Hstr & Hne & Hfile & Hsec & _). destruct (wu_ok y Hsy Hstr) as [Hw1 Hw2].
  assert (Hnn : n = (match sy_section y with YSec id => id + 1 | _ => -1 end) /\ -2 <= n <= 65279).
  { unfold def_secnum in Hn. destruct (sy_section y); try contradiction; [subst n; unfold IMAGE_SYM_ABSOLUTE; lia|]. specialize (Hsec _ eq_refl).
    destruct Hok as (Hns & _). rewrite (sec_number_ok id n) by (lia || assumption). lia. }
  assert (Hz : zget (concat blks) (total (ztake i (o_symbols o))) = Some (sym_bytes fd (wrap_u 32 (sy_value y)) n 0 CLASS_EXTERNAL 0)).
  { rewrite E, zget_app2 by lia. replace (total (ztake i (o_symbols o)) - zlen P) with 0 by lia. apply zget_0. }
  assert (Hz2 : zget (concat blks) (total (ztake i (o_symbols o)) + 2) = Some (aux_weak_bytes (so_index d))).
  { rewrite E, zget_app2 by lia. replace (total (ztake i (o_symbols o)) + 2 - zlen P) with 2 by lia. cbn [app]. do 2 rewrite zget_S by lia. apply zget_0. }
  assert (Hv : 0 <= wrap_u 32 (sy_value y) < 2 ^ 32) by (apply Z.mod_pos_bound; lia).
  unfold reads_weak. rewrite Hidx. eexists. exists (weak_name o y). split; [apply (sym_entry_ok _ _ _ _ _ _ _ Hz); (assumption || (unfold CLASS_EXTERNAL; lia))|].
  cbn [y_class y_typ y_naux y_value y_secnum]. split; [|split; [|split; [reflexivity|split; [reflexivity|split; [reflexivity|split; [reflexivity|split; [apply Hnn|]]]]]]].
  - unfold cy_name, has_aux_file_name. cbn [y_class y_naux]. change (0 <? 0) with false. cbn [andb].
    eapply sym_name_ok; [exact R4|exact Hfd|reflexivity|exact Hw1|exact Hw2].
  - exists (match weak_unique o with [] => [] | _ => 46 :: weak_unique o end). reflexivity.
  - rewrite Eidx. unfold coff_aux_weak. pose proof (get_entry _ _ 8 Hz2) as Ge. specialize (Ge ltac:(lia) ltac:(lia) ltac:(lia) 1 ltac:(lia) ltac:(lia)).
    replace (total (ztake i (o_symbols o)) + 2 - 1) with (total (ztake i (o_symbols o)) + 1) in Ge by lia. rewrite Ge. cbn [bind].
    assert (B : 0 <= so_index d < 2 ^ 32).
    { pose proof bounds as (_ & B2 & _). apply zget_Some_lt in Hz. destruct IM. lia. }
    unfold aux_weak_bytes. rewrite app_assoc, ztake_app_eq by (rewrite zlen_app, !zlen_write_u; reflexivity).
    rewrite fld_hd by lia. rewrite (fld_skip_app Little 4 4 4) by (rewrite ?zlen_write_u; lia). change (4 - 4) with 0. rewrite fld_hd1 by lia.
    rewrite Rd. reflexivity.
Qed.
Lemma sel_entry i y id : zget (o_symbols o) i = Some y -> sy_weak y = false -> sy_kind y = YSection -> sy_section y = YSec id ->
  exists s sel assoc, zget (o_sections o) id = Some s /\ zget sels id = Some (sel, assoc) /\
    zget (concat blks) (sym_index o i + 1) = Some (aux_sec_bytes (wrap_u 32 (se_size s)) (wrap_u 32 (zlen (se_relocs s))) (if is_bss (se_kind s) then 0 else crc (se_data s)) assoc sel).
Proof.
  intros Hi Ew Ek Es. destruct (im_sym _ _ _ _ _ _ _ _ _ _ _ _ IM _ _ Hi) as (wk & s & blk & G & R & Hb & L & W).
  destruct (blk_split _ _ _ Hi Hb) as (P & Q & E & LP). pose proof (total_nonneg (ztake i (o_symbols o))).
  destruct W as (typ & class & f & Ef & Hf & W). rewrite Ew in W. destruct W as (n & auxs & Hn & -> & HA & LA & FA).
  unfold aux_of in HA. rewrite Ek, Es in HA. destruct HA as (sc & sel & assoc & H1 & H2 & ->).
  exists sc, sel, assoc. split; [exact H1|]. split; [exact H2|].
  assert (Eidx : sym_index o i = total (ztake i (o_symbols o)) + 0) by (unfold sym_index; rewrite Hi, Ew; reflexivity).
  rewrite E, Eidx, zget_app2 by lia. replace (total (ztake i (o_symbols o)) + 0 + 1 - zlen P) with 1 by lia. cbn [app]. rewrite zget_S by lia. apply zget_0.
Qed.
Lemma aux_entry i y id : zget (o_symbols o) i = Some y -> sy_weak y = false -> sy_kind y = YSection -> sy_section y = YSec id -> (forall b, 0 <= crc b < 2 ^ 32) ->
  (forall sel assoc, zget sels id = Some (sel, assoc) -> 0 <= sel < 256 /\ 0 <= assoc < 2 ^ 16) ->
  exists s sel assoc, zget (o_sections o) id = Some s /\ zget sels id = Some (sel, assoc) /\
    coff_aux_section (cf_symbols read_file) (sym_index o i) = Ok {| x_length := se_size s mod 2 ^ 32; x_nrel := Z.min 65535 (wrap_u 32 (zlen (se_relocs s))); x_nln := 0;
      x_sum := if is_bss (se_kind s) then 0 else crc (se_data s); x_number := assoc; x_sel := sel; x_high := 0 |}.
Proof.
  intros Hi Ew Ek Es Hcrc Hsel. destruct (sel_entry _ _ _ Hi Ew Ek Es) as (s & sel & assoc & H1 & H2 & H3). exists s, sel, assoc. split; [exact H1|]. split; [exact H2|].
  destruct (Hsel _ _ H2) as [Bs Ba].
  assert (Hp : 0 <= sym_index o i). { unfold sym_index. pose proof (total_nonneg (ztake i (o_symbols o))). rewrite Hi. destruct (sy_weak y); lia. }
  unfold coff_aux_section. pose proof (get_entry _ _ 18 H3 ltac:(lia) ltac:(lia) ltac:(lia) 1) as Ge. replace (sym_index o i + 1 - 1) with (sym_index o i) in Ge by lia.
  rewrite Ge by lia. cbn [bind]. rewrite ztake_all by (rewrite zlen_aux_sec; lia). f_equal. unfold caux_of, aux_sec_bytes.
  assert (B1 : 0 <= wrap_u 32 (se_size s) < 2 ^ 32) by (apply Z.mod_pos_bound; lia).
  assert (B2 : 0 <= wrap_u 32 (zlen (se_relocs s)) < 2 ^ 32) by (apply Z.mod_pos_bound; lia).
  set (q := wrap_u 32 (zlen (se_relocs s))) in *. clearbody q. 
  assert (B3 : 0 <= (if is_bss (se_kind s) then 0 else crc (se_data s)) < 2 ^ 32) by (destruct (is_bss _); [lia|apply Hcrc]).
  set (cr := if is_bss (se_kind s) then 0 else crc (se_data s)) in *. clearbody cr.
  assert (E16 : wrap_u 16 assoc = assoc) by (apply wrap_u_id; lia). rewrite E16.
  assert (Esh : Z.shiftr assoc 16 = 0) by (rewrite Z.shiftr_div_pow2 by lia; apply Z.div_small; lia). rewrite Esh. change (wrap_u 16 0) with 0.
  assert (Eq : (if 65535 <? q then 65535 else q) = Z.min 65535 q) by (destruct (Z.ltb_spec 65535 q); lia). rewrite Eq.
  assert (B4 : 0 <= Z.min 65535 q < 2 ^ 16) by lia. set (q' := Z.min 65535 q) in *. clearbody q'.
  unfold wrap_u in B1 |- *. set (sz := se_size s mod 2 ^ 32) in *. clearbody sz.
  assert (Ew1 : [sel] = write_u Little 1 sel) by (change (write_u Little 1 sel) with [sel mod 256]; rewrite Z.mod_small by lia; reflexivity). rewrite Ew1. change [0] with (write_u Little 1 0).
  f_equal; fld_norm; reflexivity.
Qed.
End image.
