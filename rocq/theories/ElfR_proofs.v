(** Proofs for ELF relocations and dynamic entries. *)
From Verif Require Import Core_proofs Str_proofs Util_proofs Hash_proofs Pod_proofs File_proofs Rel_proofs Map_proofs Elf_proofs.
From Verif Require Export ElfR_spec.

(** * Bit fields *)
Lemma lor_add a b k : 0 <= k -> 0 <= b < 2 ^ k -> Z.lor (a * 2 ^ k) b = a * 2 ^ k + b.
Proof.
  intros Hk Hb. assert (Z.land (a * 2 ^ k) b = 0) as H0.
  { apply Z.bits_inj'. intros n Hn. rewrite Z.land_spec, Z.bits_0, <- Z.shiftl_mul_pow2 by lia.
    destruct (Z.lt_ge_cases n k). { rewrite Z.shiftl_spec_low by lia. reflexivity. }
    destruct (Z.eq_dec b 0) as [->|]; [rewrite Z.bits_0; apply andb_false_r|].
    rewrite (Z.bits_above_log2 b n); [apply andb_false_r|lia|]. apply Z.log2_lt_pow2; [lia|].
    apply Z.lt_le_trans with (2 ^ k); [lia|]. apply Z.pow_le_mono_r; lia. }
  pose proof (Z.add_nocarry_lxor _ _ H0) as E. rewrite E. rewrite Z.lxor_lor by exact H0. reflexivity.
Qed.
Lemma lor_add' a b k : 0 <= k -> 0 <= b < 2 ^ k -> Z.lor b (a * 2 ^ k) = b + a * 2 ^ k.
Proof. intros. rewrite Z.lor_comm, lor_add by assumption. lia. Qed.
Lemma land_mask t k : 0 <= k -> Z.land t (255 * 2 ^ k) = (t / 2 ^ k) mod 256 * 2 ^ k.
Proof.
  intros Hk. rewrite <- Z.shiftl_mul_pow2, <- (Z.shiftl_mul_pow2 (_ mod _)) by lia. change 256 with (2 ^ 8). rewrite <- Z.land_ones, <- Z.shiftr_div_pow2 by lia.
  change (Z.ones 8) with 255. apply Z.bits_inj'. intros n Hn. rewrite Z.land_spec.
  destruct (Z.lt_ge_cases n k). { rewrite !Z.shiftl_spec_low by lia. apply andb_false_r. }
  rewrite !Z.shiftl_spec, Z.land_spec, Z.shiftr_spec by lia. do 2 f_equal. lia.
Qed.
Lemma mask_shr t s k : 0 <= s -> 0 <= k -> Z.land (Z.shiftr t s) (255 * 2 ^ k) = (t / 2 ^ (s + k)) mod 256 * 2 ^ k.
Proof. intros. rewrite land_mask by lia. rewrite Z.shiftr_div_pow2, Z.div_div, <- Z.pow_add_r by lia. reflexivity. Qed.

Lemma r32_info_eq sym ty : 0 <= sym < 2 ^ 24 -> 0 <= ty < 2 ^ 8 -> r32_info sym ty = sym * 2 ^ 8 + ty.
Proof.
  intros. unfold r32_info. rewrite Z.shiftl_mul_pow2 by lia. rewrite wrap_u_id by lia. change 255 with (Z.ones 8).
  rewrite Z.land_ones, Z.mod_small by lia. apply lor_add; lia.
Qed.
Lemma r64_info_eq sym ty : 0 <= sym < 2 ^ 32 -> 0 <= ty < 2 ^ 32 -> r64_info sym ty = sym * 2 ^ 32 + ty.
Proof. intros. unfold r64_info. rewrite Z.shiftl_mul_pow2 by lia. rewrite wrap_u_id by lia. apply lor_add; lia. Qed.
Lemma r32_split sym ty : 0 <= sym < 2 ^ 24 -> 0 <= ty < 2 ^ 8 -> r32_sym (sym * 2 ^ 8 + ty) = sym /\ r32_type (sym * 2 ^ 8 + ty) = ty.
Proof.
  intros. unfold r32_sym, r32_type. rewrite Z.shiftr_div_pow2 by lia. change 255 with (Z.ones 8). rewrite Z.land_ones by lia. lia.
Qed.
Lemma r64_split sym ty : 0 <= sym < 2 ^ 32 -> 0 <= ty < 2 ^ 32 -> r64_sym (sym * 2 ^ 32 + ty) = sym /\ r64_type (sym * 2 ^ 32 + ty) = ty.
Proof.
  intros. unfold r64_sym, r64_type. rewrite Z.shiftr_div_pow2 by lia. change 4294967295 with (Z.ones 32). rewrite Z.land_ones by lia.
  rewrite !wrap_u_id by lia. lia.
Qed.
(** the four bytes of the type *)
Definition by0 ty := ty mod 256.
Definition by1 ty := ty / 2 ^ 8 mod 256.
Definition by2 ty := ty / 2 ^ 16 mod 256.
Definition by3 ty := ty / 2 ^ 24 mod 256.
Lemma bytes4 ty : 0 <= ty < 2 ^ 32 -> ty = by0 ty + by1 ty * 2 ^ 8 + by2 ty * 2 ^ 16 + by3 ty * 2 ^ 24 /\
  0 <= by0 ty < 256 /\ 0 <= by1 ty < 256 /\ 0 <= by2 ty < 256 /\ 0 <= by3 ty < 256.
Proof. intros. unfold by0, by1, by2, by3. lia. Qed.
Definition mips_info sym ty := sym + by3 ty * 2 ^ 32 + by2 ty * 2 ^ 40 + by1 ty * 2 ^ 48 + by0 ty * 2 ^ 56.
Lemma rela64_info_eq sym ty : 0 <= sym < 2 ^ 32 -> 0 <= ty < 2 ^ 32 ->
  rela64_info true sym ty = mips_info sym ty.
Proof.
  intros Hs Ht. unfold rela64_info. rewrite r64_info_eq by assumption. set (t := sym * 2 ^ 32 + ty).
  pose proof (bytes4 ty Ht) as (E & B0 & B1 & B2 & B3).
  change 4278190080 with (255 * 2 ^ 24). change 16711680 with (255 * 2 ^ 16). change 65280 with (255 * 2 ^ 8). 
  change (Z.land t 255) with (Z.land t (255 * 2 ^ 0)).
  rewrite !land_mask by lia. rewrite Z.shiftr_div_pow2, !Z.shiftl_mul_pow2 by lia.
  replace (t / 2 ^ 32) with sym by (subst t; lia).
  replace (t / 2 ^ 24 mod 256) with (by3 ty) by (subst t; unfold by3; lia).
  replace (t / 2 ^ 16 mod 256) with (by2 ty) by (subst t; unfold by2; lia).
  replace (t / 2 ^ 8 mod 256) with (by1 ty) by (subst t; unfold by1; lia).
  replace (t / 2 ^ 0 mod 256) with (by0 ty) by (subst t; unfold by0; lia).
  clearbody t. rewrite !wrap_u_id by lia.
  replace (by3 ty * 2 ^ 24 * 2 ^ 8) with (by3 ty * 2 ^ 32) by lia.
  replace (by2 ty * 2 ^ 16 * 2 ^ 24) with (by2 ty * 2 ^ 40) by lia.
  replace (by1 ty * 2 ^ 8 * 2 ^ 40) with (by1 ty * 2 ^ 48) by lia.
  replace (by0 ty * 2 ^ 0 * 2 ^ 56) with (by0 ty * 2 ^ 56) by lia.
  rewrite (lor_add' (by3 ty)) by lia. rewrite (lor_add' (by2 ty)) by lia. rewrite (lor_add' (by1 ty)) by lia. rewrite (lor_add' (by0 ty)) by lia. reflexivity.
Qed.
Lemma get_r_info_eq sym ty : 0 <= sym < 2 ^ 32 -> 0 <= ty < 2 ^ 32 ->
  get_r_info true (mips_info sym ty) = sym * 2 ^ 32 + ty.
Proof.
  intros Hs Ht. unfold get_r_info. pose proof (bytes4 ty Ht) as (E & B0 & B1 & B2 & B3).
  unfold mips_info. set (u := _ + _ + _ + _ + _).
  change 4278190080 with (255 * 2 ^ 24). change 16711680 with (255 * 2 ^ 16). change 65280 with (255 * 2 ^ 8). 
  change (Z.land (Z.shiftr u 56) 255) with (Z.land (Z.shiftr u 56) (255 * 2 ^ 0)).
  rewrite !mask_shr by lia. rewrite Z.shiftl_mul_pow2 by lia.
  replace (wrap_u 64 (u * 2 ^ 32)) with (sym * 2 ^ 32) by (unfold wrap_u; subst u; lia).
  replace (u / 2 ^ (8 + 24) mod 256) with (by3 ty) by (subst u; lia).
  replace (u / 2 ^ (24 + 16) mod 256) with (by2 ty) by (subst u; lia).
  replace (u / 2 ^ (40 + 8) mod 256) with (by1 ty) by (subst u; lia).
  replace (u / 2 ^ (56 + 0) mod 256) with (by0 ty) by (subst u; lia).
  clearbody u.
  rewrite (lor_add sym) by lia.
  replace (sym * 2 ^ 32 + by3 ty * 2 ^ 24) with ((sym * 2 ^ 8 + by3 ty) * 2 ^ 24) by lia. rewrite (lor_add (sym * 2 ^ 8 + by3 ty)) by lia.
  replace ((sym * 2 ^ 8 + by3 ty) * 2 ^ 24 + by2 ty * 2 ^ 16) with ((sym * 2 ^ 16 + by3 ty * 2 ^ 8 + by2 ty) * 2 ^ 16) by lia.
  rewrite (lor_add (sym * 2 ^ 16 + by3 ty * 2 ^ 8 + by2 ty)) by lia.
  replace ((sym * 2 ^ 16 + by3 ty * 2 ^ 8 + by2 ty) * 2 ^ 16 + by1 ty * 2 ^ 8) with ((sym * 2 ^ 24 + by3 ty * 2 ^ 16 + by2 ty * 2 ^ 8 + by1 ty) * 2 ^ 8) by lia.
  rewrite (lor_add (sym * 2 ^ 24 + by3 ty * 2 ^ 16 + by2 ty * 2 ^ 8 + by1 ty)) by lia. lia.
Qed.

(** * Entries *)
Lemma mips_bytes sym ty : 0 <= sym < 2 ^ 32 -> 0 <= ty < 2 ^ 32 ->
  write_u Little 8 (mips_info sym ty) = write_u Little 4 sym ++ write_u Big 4 ty.
Proof.
  intros Hs Ht.
  assert (E : mips_info sym ty = read_u Little (write_u Little 4 sym ++ write_u Big 4 ty)).
  { unfold read_u. cbn [is_big]. rewrite le_val_app. change (le_val (write_u Little 4 sym)) with (read_u Little (write_u Little 4 sym)).
    rewrite read_write_u_small by (cbn; lia). rewrite zlen_write_u.
    unfold write_u, be_bytes. cbn [is_big le_bytes rev app le_val]. rewrite !Z.div_div by lia.
    unfold mips_info, by3, by2, by1, by0. change (256 * (256 * 256)) with (2 ^ 24). change (256 * 256) with (2 ^ 16).
    generalize (ty mod 256) (ty / 2 ^ 16 mod 256) (ty / 2 ^ 24 mod 256). change (2 ^ 8) with 256. generalize (ty / 256 mod 256). clear. intros. change (256 ^ Z.of_nat 4) with (2 ^ 32). lia. }
  rewrite E. apply (write_read_n Little 8); [|rewrite zlen_app, !zlen_write_u; reflexivity]. rewrite bytes_ok_app. split; apply bytes_ok_write_u.
Qed.

Lemma rela64_info_bound mips sym ty : 0 <= sym < 2 ^ 32 -> 0 <= ty < 2 ^ 32 -> 0 <= rela64_info mips sym ty < 2 ^ 64.
Proof.
  intros. destruct mips; [rewrite rela64_info_eq by assumption|unfold rela64_info; rewrite r64_info_eq by assumption; lia].
  pose proof (bytes4 ty ltac:(assumption)) as (E & B0 & B1 & B2 & B3). unfold mips_info. lia.
Qed.
Lemma rela64_get mips sym ty : 0 <= sym < 2 ^ 32 -> 0 <= ty < 2 ^ 32 -> get_r_info mips (rela64_info mips sym ty) = sym * 2 ^ 32 + ty.
Proof.
  intros. destruct mips; [rewrite rela64_info_eq, get_r_info_eq by assumption; reflexivity|]. unfold rela64_info, get_r_info. apply r64_info_eq; assumption.
Qed.
Lemma read_i_eq e n v : (0 < n)%nat -> - 2 ^ (8 * Z.of_nat n - 1) <= v < 2 ^ (8 * Z.of_nat n - 1) -> read_i e (write_i e n v) = v.
Proof. intros. apply read_write_i; assumption. Qed.
Lemma rel_layout_eq is64 is_rela e mips r : rel_ok is64 is_rela r -> (mips = true -> e = Little) ->
  enc_rel is64 is_rela e mips r = rel_layout is64 is_rela e mips r.
Proof.
  unfold rel_ok, enc_rel, rel_layout. destruct is64.
  - intros [(H1 & H2 & H3) H4] Hm. destruct is_rela.
    + rewrite andb_true_r. destruct mips.
      * rewrite (Hm eq_refl). rewrite rela64_info_eq, mips_bytes by assumption. rewrite <- app_assoc. reflexivity.
      * unfold rela64_info. rewrite r64_info_eq by assumption. reflexivity.
    + rewrite andb_false_r, app_nil_r, r64_info_eq by assumption. reflexivity.
  - intros [(H1 & H2 & H3) H4] _. rewrite wrap_u_id, r32_info_eq by assumption. destruct is_rela; [|reflexivity].
    rewrite wrap_s_small by (change (32 - 1) with 31; lia). reflexivity.
Qed.
Lemma zlen_enc_rel is64 is_rela e mips r : zlen (enc_rel is64 is_rela e mips r) = rel_size is64 is_rela.
Proof.
  unfold enc_rel, rel_size, write_i. destruct is64, is_rela; rewrite !zlen_app, !zlen_write_u; reflexivity.
Qed.
Lemma rel_roundtrip is64 is_rela e mips r : rel_ok is64 is_rela r ->
  rel_of is64 is_rela e mips (enc_rel is64 is_rela e mips r) = r.
Proof.
  unfold rel_ok, enc_rel, rel_of. destruct r as [o s t a]. cbn [cr_offset cr_sym cr_type cr_addend]. destruct is64.
  - intros [(H1 & H2 & H3) H4]. destruct is_rela.
    + pose proof (rela64_info_bound mips s t H2 H3).
      replace (zslice 16 8 (write_u e 8 o ++ write_u e 8 (rela64_info mips s t) ++ write_i e 8 a)) with (write_i e 8 a).
      2: { unfold write_i. rewrite app_assoc. rewrite zslice_app2 by (rewrite ?zlen_app, ?zlen_write_u; lia).
           rewrite !zlen_app, !zlen_write_u. rewrite zslice_all by (rewrite ?zlen_write_u; reflexivity). reflexivity. }
      fld_norm. rewrite rela64_get by assumption. destruct (r64_split s t H2 H3) as [-> ->]. rewrite read_i_eq by (cbn; lia). reflexivity.
    + subst a. pose proof (rela64_info_bound false s t H2 H3) as Hb. unfold rela64_info in Hb. fld_norm. rewrite r64_info_eq by assumption.
      destruct (r64_split s t H2 H3) as [-> ->]. reflexivity.
  - intros [(H1 & H2 & H3) H4]. rewrite wrap_u_id by assumption.
    assert (0 <= r32_info s t < 2 ^ 32) by (rewrite r32_info_eq by assumption; lia).
    fld_norm. rewrite r32_info_eq by assumption. destruct (r32_split s t H2 H3) as [-> ->]. destruct is_rela; [|subst; reflexivity].
    rewrite wrap_s_small by (change (32 - 1) with 31; lia).
    replace (zslice 8 4 _) with (write_i e 4 a). 
    2: { unfold write_i. rewrite app_assoc. rewrite zslice_app2 by (rewrite ?zlen_app, ?zlen_write_u; lia).
           rewrite !zlen_app, !zlen_write_u. rewrite zslice_all by (rewrite ?zlen_write_u; reflexivity). reflexivity. }
    rewrite read_i_eq by (cbn; lia). reflexivity.
Qed.

(** any 64-bit [r_info] is the one of some symbol and type *)
Lemma mips_info_onto u : 0 <= u < 2 ^ 64 -> exists sym ty, 0 <= sym < 2 ^ 32 /\ 0 <= ty < 2 ^ 32 /\ u = mips_info sym ty.
Proof.
  intros Hu. exists (u mod 2 ^ 32), (u / 2 ^ 56 + u / 2 ^ 48 mod 256 * 2 ^ 8 + u / 2 ^ 40 mod 256 * 2 ^ 16 + u / 2 ^ 32 mod 256 * 2 ^ 24).
  assert (0 <= u / 2 ^ 56 < 256) by lia.
  assert (0 <= u / 2 ^ 48 mod 256 < 256) by lia. assert (0 <= u / 2 ^ 40 mod 256 < 256) by lia. assert (0 <= u / 2 ^ 32 mod 256 < 256) by lia.
  assert (E : u = u mod 2 ^ 32 + u / 2 ^ 32 mod 256 * 2 ^ 32 + u / 2 ^ 40 mod 256 * 2 ^ 40 + u / 2 ^ 48 mod 256 * 2 ^ 48 + u / 2 ^ 56 * 2 ^ 56) by lia.
  split; [lia|]. revert E. set (s := u mod 2 ^ 32).
  generalize dependent (u / 2 ^ 56). generalize dependent (u / 2 ^ 48 mod 256). generalize dependent (u / 2 ^ 40 mod 256). generalize dependent (u / 2 ^ 32 mod 256).
  clearbody s. intros b3 H3 b2 H2 b1 H1 b0 H0 E. split; [lia|]. unfold mips_info, by0, by1, by2, by3. set (ty := b0 + b1 * 2 ^ 8 + b2 * 2 ^ 16 + b3 * 2 ^ 24).
  replace (ty / 2 ^ 24 mod 256) with b3 by (subst ty; lia). replace (ty / 2 ^ 16 mod 256) with b2 by (subst ty; lia).
  replace (ty / 2 ^ 8 mod 256) with b1 by (subst ty; lia). replace (ty mod 256) with b0 by (subst ty; lia). exact E.
Qed.
Lemma rela64_onto mips u : 0 <= u < 2 ^ 64 -> 0 <= r64_sym (get_r_info mips u) < 2 ^ 32 /\ 0 <= r64_type (get_r_info mips u) < 2 ^ 32 /\
  rela64_info mips (r64_sym (get_r_info mips u)) (r64_type (get_r_info mips u)) = u.
Proof.
  intros Hu. destruct mips.
  - destruct (mips_info_onto u Hu) as (s & t & Hs & Ht & ->). rewrite get_r_info_eq by assumption. destruct (r64_split s t Hs Ht) as [-> ->].
    rewrite rela64_info_eq by assumption. split; [assumption|split; [assumption|reflexivity]].
  - unfold rela64_info, get_r_info. set (s := u / 2 ^ 32). set (t := u mod 2 ^ 32). assert (E : u = s * 2 ^ 32 + t) by (subst s t; lia).
    assert (0 <= s < 2 ^ 32) by (subst s; lia). assert (0 <= t < 2 ^ 32) by (subst t; lia). clearbody s t. subst u. destruct (r64_split s t H H0) as [-> ->].
    rewrite r64_info_eq by assumption. split; [assumption|split; [assumption|reflexivity]].
Qed.
Lemma rel_reencode is64 is_rela e mips b : bytes_ok b -> zlen b = rel_size is64 is_rela ->
  rel_ok is64 is_rela (rel_of is64 is_rela e mips b) /\ enc_rel is64 is_rela e mips (rel_of is64 is_rela e mips b) = b.
Proof.
  intros Hb Hl.
  assert (Hf : forall o n, 0 <= o -> 0 < n -> o + n <= zlen b -> 0 <= fld e o n b < 2 ^ (8 * n) /\ write_u e (Z.to_nat n) (fld e o n b) = zslice o n b /\
     - 2 ^ (8 * n - 1) <= read_i e (zslice o n b) < 2 ^ (8 * n - 1) /\ write_i e (Z.to_nat n) (read_i e (zslice o n b)) = zslice o n b).
  { intros o n Ho Hn Hon. pose proof (fld_bound e o n b Hb ltac:(lia) ltac:(lia)) as Hfb. assert (zlen (zslice o n b) = n) as Hz by (rewrite zlen_zslice; lia).
    assert (bytes_ok (zslice o n b)) as Hbz by (apply bytes_ok_zslice; assumption).
    split; [exact Hfb|]. split; [apply write_read_n; [assumption|lia]|]. split.
    - unfold read_i. rewrite Hz. unfold wrap_s. pose proof (Z.mod_pos_bound (read_u e (zslice o n b) + 2 ^ (8 * n - 1)) (2 ^ (8 * n)) ltac:(apply Z.pow_pos_nonneg; lia)).
      replace (2 ^ (8 * n)) with (2 * 2 ^ (8 * n - 1)) in * by (rewrite <- Z.pow_succ_r by lia; f_equal; lia). lia.
    - rewrite <- (write_read_i e (zslice o n b)) at 2; [f_equal|unfold zlen in Hz; lia|assumption]. unfold zlen in Hz. lia. }
  assert (Hcat : forall n m, 0 <= n -> 0 <= m -> n + m <= zlen b -> zslice 0 n b ++ zslice n m b = zslice 0 (n + m) b).
  { intros n m H1 H2 H3. unfold zslice at 1 3. rewrite !zdrop_0. unfold zslice. rewrite <- (ztake_zdrop n b) at 3. rewrite ztake_app_ge by (rewrite zlen_ztake; lia). rewrite zlen_ztake by lia. do 2 f_equal. lia. }
  unfold rel_ok, enc_rel, rel_of, rel_size in *. destruct is64.
  - destruct (Hf 0 8 ltac:(lia) ltac:(lia) ltac:(destruct is_rela; lia)) as (A1 & A2 & _).
    destruct (Hf 8 8 ltac:(lia) ltac:(lia) ltac:(destruct is_rela; lia)) as (B1 & B2 & _).
    change (Z.to_nat 8) with 8%nat in *. change (8 * 8) with 64 in *. destruct is_rela; cbn [cr_offset cr_sym cr_type cr_addend].
    + destruct (Hf 16 8 ltac:(lia) ltac:(lia) ltac:(lia)) as (_ & _ & C1 & C2). change (8 * 8 - 1) with 63 in *. change (Z.to_nat 8) with 8%nat in *.
      destruct (rela64_onto mips _ B1) as (D1 & D2 & ->). split; [auto|]. rewrite A2, B2, C2, app_assoc, !Hcat by lia. change (0 + 8) with 8. rewrite zslice_all by (rewrite Hl; reflexivity). reflexivity.
    + destruct (rela64_onto false _ B1) as (D1 & D2 & D3). unfold get_r_info, rela64_info in *. rewrite D3. split; [auto|]. rewrite A2, B2, !Hcat by lia. rewrite zslice_all by (rewrite Hl; reflexivity). reflexivity.
  - destruct (Hf 0 4 ltac:(lia) ltac:(lia) ltac:(destruct is_rela; lia)) as (A1 & A2 & _).
    destruct (Hf 4 4 ltac:(lia) ltac:(lia) ltac:(destruct is_rela; lia)) as (B1 & B2 & _).
    change (Z.to_nat 4) with 4%nat in *. change (8 * 4) with 32 in *. cbn [cr_offset cr_sym cr_type cr_addend].
    set (u := fld e 4 4 b) in *. set (s := u / 2 ^ 8). set (t := u mod 2 ^ 8). assert (E : u = s * 2 ^ 8 + t) by (subst s t; lia).
    assert (Hs : 0 <= s < 2 ^ 24) by (subst s; lia). assert (Ht : 0 <= t < 2 ^ 8) by (subst t; lia). clearbody s t u. subst u.
    destruct (r32_split s t Hs Ht) as [-> ->]. rewrite wrap_u_id, r32_info_eq by assumption. rewrite A2, B2.
    destruct is_rela.
    + destruct (Hf 8 4 ltac:(lia) ltac:(lia) ltac:(lia)) as (_ & _ & C1 & C2). change (8 * 4 - 1) with 31 in *. change (Z.to_nat 4) with 4%nat in *.
      split; [auto|]. rewrite wrap_s_small by (change (32 - 1) with 31; lia). rewrite C2, app_assoc, !Hcat by lia. rewrite zslice_all by (rewrite Hl; reflexivity). reflexivity.
    + split; [auto|]. rewrite app_nil_r, !Hcat by lia. rewrite zslice_all by (rewrite Hl; reflexivity). reflexivity.
Qed.

(** * Dynamic entries *)
Lemma dyn_roundtrip is64 e d : dyn_ok is64 d ->
  enc_dyn is64 e d = Ok (dyn_layout is64 e d) /\ dyn_of is64 e (dyn_layout is64 e d) = d /\ zlen (dyn_layout is64 e d) = dyn_size is64.
Proof.
  unfold dyn_ok, enc_dyn, dyn_layout, dyn_of, dyn_size. destruct d as [t v]. cbn [d_tag d_val].
  assert (Hz : forall n w, zslice 0 (Z.of_nat n) (write_i e n t ++ w) = write_i e n t).
  { intros. unfold write_i. rewrite zslice_app1 by (rewrite ?zlen_write_u; lia). apply zslice_all. rewrite zlen_write_u. reflexivity. }
  destruct is64.
  - intros [H1 H2]. split; [reflexivity|]. split; [|unfold write_i; rewrite zlen_app, !zlen_write_u; reflexivity].
    rewrite (Hz 8%nat). rewrite read_i_eq by (cbn; lia). unfold write_i. fld_norm. reflexivity.
  - intros [H1 H2]. replace ((t <? - 2 ^ 31) || (2 ^ 31 <=? t)) with false by lia. replace (2 ^ 32 <=? v) with false by lia.
    split; [reflexivity|]. split; [|unfold write_i; rewrite zlen_app, !zlen_write_u; reflexivity].
    rewrite (Hz 4%nat). rewrite read_i_eq by (cbn; lia). unfold write_i. fld_norm. reflexivity.
Qed.
Lemma dyn_overflow e d : 0 <= d_val d -> (enc_dyn false e d = Err <-> ~ dyn_ok false d).
Proof.
  intros Hd. unfold enc_dyn, dyn_ok. destruct (_ || _) eqn:E1; [split; [lia|reflexivity]|].
  destruct (2 ^ 32 <=? d_val d) eqn:E2; [split; [lia|reflexivity]|]. split; [discriminate|lia].
Qed.
Lemma dyn_runs l tl : Forall (fun d => d_tag d <> 0) l -> tl = [] \/ (exists d tl', tl = d :: tl' /\ d_tag d = 0) ->
  runs dyn_next (l ++ tl) l false [].
Proof.
  intros Hl Ht. induction Hl as [|d l H Hl IH]; cbn [app].
  - apply runs_done. destruct Ht as [->|(d & tl' & -> & E)]; [reflexivity|]. cbn [dyn_next]. rewrite E. reflexivity.
  - eapply runs_more; [|exact IH]. cbn [dyn_next]. destruct (d_tag d =? 0) eqn:E; [lia|reflexivity].
Qed.
Lemma implib_runs t l tl names : tl = [] \/ (exists d tl', tl = d :: tl' /\ d_tag d = 0) -> Forall (fun d => d_tag d <> 0) l ->
  Forall2 (fun d n => dyn_string t d = Ok n) (filter (fun d => d_tag d =? 1) l) names ->
  runs (implib_next t) (l ++ tl) names false [].
Proof.
  intros Ht Hl. revert names. induction Hl as [|d l H Hl IH]; cbn [filter app]; intros names HF.
  - inversion HF; subst. apply runs_done. destruct Ht as [->|(d & tl' & -> & E)]; [reflexivity|]. cbn [implib_next]. rewrite E. reflexivity.
  - destruct (d_tag d =? 1) eqn:E1.
    + inversion HF as [|? n ? names' Hn HF']; subst. eapply runs_more; [|apply IH; exact HF'].
      cbn [implib_next]. destruct (d_tag d =? 0) eqn:E; [lia|]. rewrite E1. cbn [negb]. rewrite Hn. reflexivity.
    + specialize (IH _ HF). assert (E : implib_next t (d :: l ++ tl) = implib_next t (l ++ tl)).
      { cbn [implib_next]. destruct (d_tag d =? 0) eqn:E; [lia|]. rewrite E1. reflexivity. }
      inversion IH; subst; [eapply runs_done; rewrite E; eassumption|eapply runs_more; [rewrite E; eassumption|eassumption]].
Qed.

(** * RelocationSections *)
Lemma reloc_type h : is_reloc_type (sh_type h) = true <-> reloc_section h.
Proof. unfold is_reloc_type, reloc_section, SHT_REL, SHT_RELA, SHT_CREL. rewrite !orb_true_iff, !Z.eqb_eq. tauto. Qed.
(** a section the loop processes *)
Definition active (symsec : Z) (h : shdr) : bool := is_reloc_type (sh_type h) && (sh_link h =? symsec) && negb (sh_info h =? 0).
Definition bad1 (t : sectab) (symsec : Z) (h : shdr) : Prop :=
  active symsec h = true /\ forall g, zget (stab_sections t) (sh_info h) = Some g -> reloc_section g.
Lemma bad_bad1 t symsec : bad_target t symsec <-> exists h, In h (stab_sections t) /\ bad1 t symsec h.
Proof.
  unfold bad_target, bad1, active. split; intros (h & H).
  - exists h. destruct H as (H1 & H2 & H3 & H4 & H5). apply reloc_type in H2. rewrite H2. split; [assumption|]. split; [lia|assumption].
  - exists h. destruct H as (H1 & H2 & H3). rewrite !andb_true_iff in H2. destruct H2 as [[H2 H4] H5]. apply reloc_type in H2.
    split; [assumption|]. split; [assumption|]. split; [lia|]. split; [lia|assumption].
Qed.
Lemma relsec_step_spec t symsec m h r : zlen r = zlen (stab_sections t) -> 0 <= m < zlen r ->
  relsec_step t symsec m h r = Err /\ bad1 t symsec h \/
  ~ bad1 t symsec h /\ active symsec h = false /\ relsec_step t symsec m h r = Ok r \/
  ~ bad1 t symsec h /\ active symsec h = true /\ exists g v, 0 < sh_info h < zlen r /\ zget (stab_sections t) (sh_info h) = Some g /\ ~ reloc_section g /\
    zget r (sh_info h) = Some v /\ relsec_step t symsec m h r = Ok (zset (zset r (sh_info h) m) m v).
Proof.
  intros Hr Hm. unfold relsec_step, bad1, active. destruct (is_reloc_type (sh_type h)) eqn:E1; cbn [negb andb].
  2: { right; left. split; [intros [H _]; discriminate|auto]. }
  destruct (sh_link h =? symsec) eqn:E2; cbn [negb andb]. 2: { right; left. split; [intros [H _]; discriminate|auto]. }
  destruct (sh_info h =? 0) eqn:E3; cbn [negb andb]. { right; left. split; [intros [H _]; discriminate|auto]. }
  destruct (zlen r <=? sh_info h) eqn:E4.
  { left. split; [reflexivity|]. split; [reflexivity|]. intros g Hg. apply zget_Some_lt in Hg. lia. }
  unfold stab_section. rewrite E3. destruct (zget (stab_sections t) (sh_info h)) as [g|] eqn:Eg; cbn [of_opt bind].
  2: { left. split; [reflexivity|]. split; [reflexivity|]. discriminate. }
  destruct (is_reloc_type (sh_type g)) eqn:E5.
  { left. split; [reflexivity|]. split; [reflexivity|]. intros g' [= <-]. apply reloc_type. assumption. }
  assert (~ reloc_section g) by (rewrite <- reloc_type, E5; discriminate).
  right; right. split. { intros [_ H1]. apply H, H1. reflexivity. } split; [reflexivity|].
  pose proof (zget_Some_lt _ _ _ Eg) as Hi. destruct (zget r (sh_info h)) as [v|] eqn:Ev; [|apply zget_None in Ev; lia].
  cbn [unwrap bind]. replace ((m <? 0) || (zlen r <=? m)) with false by lia. exists g, v. split; [lia|]. auto.
Qed.

(** first index at or after [m] of a relocation section for [i], or 0 *)
Definition nxt (t : sectab) (symsec i m : Z) : Z :=
  match find (fun j => (m <=? j) && relocates t symsec i j) (indices t) with Some j => j | None => 0 end.
Lemma nxt_spec t symsec i m : 0 <= m ->
  (nxt t symsec i m = 0 /\ forall j, m <= j -> relocates t symsec i j = false) \/
  (m <= nxt t symsec i m /\ relocates t symsec i (nxt t symsec i m) = true /\ forall j, m <= j < nxt t symsec i m -> relocates t symsec i j = false).
Proof.
  intros Hm. unfold nxt, indices. set (f := fun j => (m <=? j) && relocates t symsec i j).
  assert (G : forall n k, match find f (map Z.of_nat (seq k n)) with
    | Some j => f j = true /\ forall x, Z.of_nat k <= x < j -> f x = false
    | None => forall x, Z.of_nat k <= x < Z.of_nat (k + n) -> f x = false end).
  { induction n as [|n IH]; intros k; cbn [seq map find]. { intros. lia. }
    destruct (f (Z.of_nat k)) eqn:E. { split; [assumption|]. intros. lia. }
    specialize (IH (S k)). destruct (find f _); [destruct IH as [IH1 IH2]; split; [assumption|]|].
    - intros x Hx. destruct (Z.eq_dec x (Z.of_nat k)) as [->|]; [assumption|]. apply IH2. lia.
    - intros x Hx. destruct (Z.eq_dec x (Z.of_nat k)) as [->|]; [assumption|]. apply IH. lia. }
  specialize (G (length (stab_sections t)) 0%nat). destruct (find f _) as [j|].
  - right. destruct G as [G1 G2]. unfold f in G1. apply andb_true_iff in G1 as [G1 G3]. split; [lia|]. split; [assumption|].
    intros x Hx. specialize (G2 x ltac:(lia)). unfold f in G2. destruct (m <=? x) eqn:E; [assumption|lia].
  - left. split; [reflexivity|]. intros x Hx. destruct (Z.lt_ge_cases x (zlen (stab_sections t))).
    + specialize (G x). unfold zlen in *. specialize (G ltac:(lia)). unfold f in G. destruct (m <=? x) eqn:E; [assumption|lia].
    + unfold relocates. destruct (zget (stab_sections t) x) eqn:E; [apply zget_Some_lt in E; lia|reflexivity].
Qed.
Lemma nxt_unique t symsec i m v : 0 <= m ->
  (v = 0 /\ forall j, m <= j -> relocates t symsec i j = false) \/
  (m <= v /\ relocates t symsec i v = true /\ forall j, m <= j < v -> relocates t symsec i j = false) -> v = nxt t symsec i m.
Proof.
  intros Hm H. destruct (nxt_spec t symsec i m Hm) as [[E1 E2]|(E1 & E2 & E3)]; destruct H as [[F1 F2]|(F1 & F2 & F3)].
  - congruence.
  - rewrite E2 in F2 by lia. discriminate.
  - rewrite F2 in E2 by lia. discriminate.
  - destruct (Z.lt_trichotomy v (nxt t symsec i m)) as [L|[L|L]]; [|assumption|].
    + rewrite E3 in F2 by lia. discriminate.
    + rewrite F3 in E2 by lia. discriminate.
Qed.
(** Everything below index [k] is still to be processed. *)
Definition relsec_inv (t : sectab) (symsec k : Z) (r : list Z) : Prop :=
  zlen r = zlen (stab_sections t) /\
  forall i h v, zget (stab_sections t) i = Some h -> zget r i = Some v ->
    v = (if is_reloc_type (sh_type h) then (if active symsec h && (k <=? i) then nxt t symsec (sh_info h) (i + 1) else 0)
         else if i =? 0 then 0 else nxt t symsec i k).
Lemma relocates_active t symsec i j h : zget (stab_sections t) j = Some h -> i <> 0 ->
  relocates t symsec i j = active symsec h && (sh_info h =? i).
Proof.
  intros Hj Hi. unfold relocates, active, is_reloc_type, SHT_REL, SHT_RELA, SHT_CREL. rewrite Hj.
  destruct (_ || _); [|reflexivity]. destruct (sh_link h =? symsec); [|reflexivity]. cbn [andb].
  destruct (sh_info h =? i) eqn:E; [|rewrite andb_false_r; reflexivity]. destruct (sh_info h =? 0) eqn:E0; [lia|reflexivity].
Qed.
Lemma nxt_skip t symsec i m : 0 <= m -> relocates t symsec i m = false -> nxt t symsec i m = nxt t symsec i (m + 1).
Proof.
  intros Hm H. symmetry. apply nxt_unique; [assumption|]. destruct (nxt_spec t symsec i (m + 1) ltac:(lia)) as [[E1 E2]|(E1 & E2 & E3)].
  - left. split; [assumption|]. intros j Hj. destruct (Z.eq_dec j m) as [->|]; [assumption|]. apply E2. lia.
  - right. split; [lia|]. split; [assumption|]. intros j Hj. destruct (Z.eq_dec j m) as [->|]; [assumption|]. apply E3. lia.
Qed.
Lemma relsec_inv_step t symsec m h r r' : relsec_inv t symsec (m + 1) r -> 0 <= m -> zget (stab_sections t) m = Some h ->
  relsec_step t symsec m h r = Ok r' -> relsec_inv t symsec m r'.
Proof.
  intros [Hl HI] Hm Hh Hs. pose proof (zget_Some_lt _ _ _ Hh) as Hmlt.
  destruct (relsec_step_spec t symsec m h r Hl ltac:(lia)) as [[E _]|[(_ & Ha & E)|(_ & Ha & g & v & Hi & Hg & Hng & Hv & E)]]; rewrite Hs in E; [discriminate|..].
  - injection E as ->. split; [assumption|]. intros i h' v Hh' Hv. specialize (HI i h' v Hh' Hv). rewrite HI.
    destruct (is_reloc_type (sh_type h')) eqn:Er.
    + destruct (Z.eq_dec i m) as [->|]. { rewrite Hh in Hh'. injection Hh' as <-. rewrite Ha. reflexivity. }
      replace (m <=? i) with (m + 1 <=? i) by lia. reflexivity.
    + destruct (i =? 0) eqn:E0; [reflexivity|]. symmetry. apply nxt_skip; [lia|]. rewrite (relocates_active _ _ _ _ h) by (assumption || lia). rewrite Ha. reflexivity.
  - injection E as ->. pose proof (zget_Some_lt _ _ _ Hv) as Hilt.
    assert (Hl1 : zlen (zset r (sh_info h) m) = zlen r) by (apply zlen_zset; lia).
    assert (Hmr : is_reloc_type (sh_type h) = true) by (unfold active in Ha; rewrite !andb_true_iff in Ha; tauto).
    assert (Hgr : is_reloc_type (sh_type g) = false) by (destruct (is_reloc_type (sh_type g)) eqn:X; [apply reloc_type in X; contradiction|reflexivity]).
    assert (Him : sh_info h <> m). { intros X. rewrite X in Hg. rewrite Hh in Hg. injection Hg as <-. congruence. }
    pose proof (HI _ _ _ Hg Hv) as Ev. rewrite Hgr in Ev. destruct (sh_info h =? 0) eqn:E0; [lia|].
    split. { rewrite zlen_zset by lia. lia. }
    intros i h' v' Hh' Hv'. rewrite zget_zset in Hv' by lia. destruct (Z.eqb_spec i m) as [->|Nim].
    + injection Hv' as <-. rewrite Hh in Hh'. injection Hh' as <-. rewrite Hmr, Ha. replace (m <=? m) with true by lia. cbn [andb]. exact Ev.
    + rewrite zget_zset in Hv' by lia. destruct (Z.eqb_spec i (sh_info h)) as [->|Nii].
      * injection Hv' as <-. rewrite Hg in Hh'. injection Hh' as <-. rewrite Hgr, E0. apply nxt_unique; [lia|]. right. split; [lia|]. split; [|intros; lia].
        rewrite (relocates_active _ _ _ _ h) by (assumption || lia). rewrite Ha. cbn [andb]. apply Z.eqb_refl.
      * specialize (HI i h' v' Hh' Hv'). rewrite HI. destruct (is_reloc_type (sh_type h')) eqn:Er.
        { replace (m <=? i) with (m + 1 <=? i) by lia. reflexivity. }
        destruct (i =? 0) eqn:Ei0; [reflexivity|]. symmetry. apply nxt_skip; [lia|]. rewrite (relocates_active _ _ _ _ h) by (assumption || lia).
        destruct (sh_info h =? i) eqn:X; [lia|]. apply andb_false_r.
Qed.

Lemma enumerate_snoc {A} (l : list A) x : enumerate (l ++ [x]) = enumerate l ++ [(zlen l, x)].
Proof.
  induction l as [|y l IH]; [reflexivity|]. cbn [app]. rewrite !enumerate_cons, IH, map_app. cbn [map app fst snd]. rewrite zlen_cons. do 4 f_equal. lia.
Qed.
Lemma relsec_loop_spec t symsec l : forall rest r, stab_sections t = l ++ rest -> relsec_inv t symsec (zlen l) r ->
  relsec_loop t symsec (rev (enumerate l)) r = Err /\ (exists h, In h l /\ bad1 t symsec h) \/
  ~ (exists h, In h l /\ bad1 t symsec h) /\ exists r', relsec_loop t symsec (rev (enumerate l)) r = Ok r' /\ relsec_inv t symsec 0 r'.
Proof.
  induction l as [|h l IH] using rev_ind; intros rest r Hs HI.
  - right. split; [intros (h & [] & _)|]. exists r. split; [reflexivity|]. exact HI.
  - rewrite enumerate_snoc, rev_app_distr. cbn [rev app relsec_loop].
    assert (Hg : zget (stab_sections t) (zlen l) = Some h) by (rewrite Hs, <- app_assoc; apply zget_mid; reflexivity).
    pose proof (zget_Some_lt _ _ _ Hg) as Hlt. destruct HI as [Hl HI]. pose proof (relsec_step_spec t symsec (zlen l) h r Hl ltac:(lia)) as HS.
    assert (HI' : relsec_inv t symsec (zlen l + 1) r). { split; [assumption|]. replace (zlen l + 1) with (zlen (l ++ [h])) by (rewrite zlen_app; reflexivity). assumption. }
    destruct HS as [[E Hb]|HS].
    + left. rewrite E. split; [reflexivity|]. exists h. split; [apply in_or_app; right; left; reflexivity|assumption].
    + assert (exists r1, relsec_step t symsec (zlen l) h r = Ok r1 /\ ~ bad1 t symsec h) as (r1 & E & Hb).
      { destruct HS as [(H1 & _ & H2)|(H1 & _ & g & v & _ & _ & _ & _ & H2)]; eexists; split; eassumption. }
      rewrite E. cbn [bind]. destruct (IH ([h] ++ rest) r1) as [[E1 (x & Hx & Hbx)]|[Hn (r' & E1 & E2)]].
      * rewrite app_assoc. exact Hs.
      * eapply relsec_inv_step; [exact HI'|zl_pos; lia|exact Hg|exact E].
      * left. split; [assumption|]. exists x. split; [apply in_or_app; left|]; assumption.
      * right. split; [|exists r'; split; assumption]. intros (x & Hx & Hbx). apply in_app_or in Hx as [Hx|[<-|[]]]; [|contradiction]. apply Hn. exists x. auto.
Qed.
Lemma relsec_parse_spec t symsec :
  relsec_parse t symsec = Err /\ bad_target t symsec \/
  ~ bad_target t symsec /\ exists r, relsec_parse t symsec = Ok r /\ relsec_inv t symsec 0 r.
Proof.
  unfold relsec_parse. rewrite bad_bad1. apply (relsec_loop_spec t symsec (stab_sections t) []); [rewrite app_nil_r; reflexivity|].
  split. { apply zlen_zeros. zl_pos; lia. }
  intros i h v Hh Hv. pose proof (zget_Some_lt _ _ _ Hh) as Hlt. rewrite zget_zeros in Hv by lia. injection Hv as <-.
  destruct (is_reloc_type _). { replace (zlen (stab_sections t) <=? i) with false by lia. rewrite andb_false_r. reflexivity. }
  destruct (i =? 0); [reflexivity|]. apply nxt_unique; [zl_pos; lia|]. left. split; [reflexivity|]. intros j Hj. unfold relocates.
  destruct (zget (stab_sections t) j) eqn:E; [apply zget_Some_lt in E; lia|reflexivity].
Qed.
Lemma relocates_get t symsec i j : relocates t symsec i j = true -> exists h, zget (stab_sections t) j = Some h /\ is_reloc_type (sh_type h) = true /\ sh_link h = symsec /\ sh_info h = i.
Proof.
  unfold relocates. destruct (zget _ _) as [h|]; [|discriminate]. intros H. exists h. rewrite !andb_true_iff in H. destruct H as [[H1 H2] H3]. 
  split; [reflexivity|]. split; [exact H1|]. lia.
Qed.
Lemma inv_get t symsec r i : relsec_inv t symsec 0 r -> relsec_get r i =
  match zget (stab_sections t) i with
  | Some h => let v := if is_reloc_type (sh_type h) then (if active symsec h then nxt t symsec (sh_info h) (i + 1) else 0)
              else if i =? 0 then 0 else nxt t symsec i 0 in
    if v =? 0 then None else Some v
  | None => None
  end.
Proof.
  intros [Hl HI]. unfold relsec_get. destruct (zget r i) as [v|] eqn:Ev.
  - pose proof (zget_Some_lt _ _ _ Ev). destruct (zget (stab_sections t) i) as [h|] eqn:Eh; [|apply zget_None in Eh; lia].
    rewrite (HI i h v Eh Ev). replace (0 <=? i) with true by lia. rewrite andb_true_r. reflexivity.
  - apply zget_None in Ev. destruct (zget (stab_sections t) i) as [h|] eqn:Eh; [apply zget_Some_lt in Eh; lia|reflexivity].
Qed.
Lemma filter_nil {A} (f : A -> bool) l : (forall x, In x l -> f x = false) -> filter f l = [].
Proof. induction l as [|x l IH]; intros H; [reflexivity|]. cbn [filter]. rewrite (H x (or_introl eq_refl)). apply IH. intros y Hy. apply H. right. assumption. Qed.
(** the rest of a chain: from an active section or (with [j = -1]) from the target itself *)
Lemma follows_nxt t symsec i get : i <> 0 ->
  (forall j, relocates t symsec i j = true -> j <> 0 -> get j = (let v := nxt t symsec i (j + 1) in if v =? 0 then None else Some v)) ->
  forall n m start, 0 < m -> zlen (stab_sections t) - m <= Z.of_nat n -> 
  get start = (let v := nxt t symsec i m in if v =? 0 then None else Some v) ->
  follows get start (filter (fun j => (m <=? j) && relocates t symsec i j) (indices t)).
Proof.
  intros Hi Hget. 
  assert (Hf : forall m, 0 < m -> nxt t symsec i m = 0 -> filter (fun j => (m <=? j) && relocates t symsec i j) (indices t) = []).
  { intros m Hm E. destruct (nxt_spec t symsec i m ltac:(lia)) as [[_ E2]|(E1 & _)]; [|lia].
    apply filter_nil. intros j _. destruct (m <=? j) eqn:X; [|reflexivity]. rewrite E2 by lia. reflexivity. }
  induction n as [|n IH]; intros m start Hm Hn Hs; cbv zeta in Hs.
  - destruct (nxt t symsec i m =? 0) eqn:E. { rewrite Hf by lia. apply follows_end. assumption. }
    exfalso. destruct (nxt_spec t symsec i m ltac:(lia)) as [[E1 _]|(E1 & E2 & _)]; [lia|]. apply relocates_get in E2 as (h & Hh & _). apply zget_Some_lt in Hh. lia.
  - destruct (nxt t symsec i m =? 0) eqn:E. { rewrite Hf by lia. apply follows_end. assumption. }
    destruct (nxt_spec t symsec i m ltac:(lia)) as [[E1 _]|(E1 & E2 & E3)]; [lia|].
    replace (filter _ (indices t)) with (nxt t symsec i m :: filter (fun j => (nxt t symsec i m + 1 <=? j) && relocates t symsec i j) (indices t)).
    + eapply follows_next; [exact Hs|]. apply IH; [lia|lia|]. apply Hget; [assumption|lia].
    + set (k := nxt t symsec i m) in *. clearbody k. apply relocates_get in E2 as Hk. destruct Hk as (h & Hh & _). apply zget_Some_lt in Hh.
      unfold indices. assert (Hk : Z.of_nat (Z.to_nat k) = k) by lia.
      replace (length (stab_sections t)) with (Z.to_nat k + (1 + (length (stab_sections t) - Z.to_nat k - 1)))%nat by (unfold zlen in *; lia).
      rewrite !seq_app, !map_app, !filter_app. cbn [seq map filter]. rewrite Nat.add_0_l, Hk.
      replace (m <=? k) with true by lia. rewrite E2. cbn [andb]. replace (k + 1 <=? k) with false by lia. cbn [andb].
      rewrite !(filter_nil _ (map Z.of_nat (seq 0 (Z.to_nat k)))).
      * cbn [app]. f_equal. apply filter_ext_in. intros x Hx. apply in_map_iff in Hx as (y & <- & Hy). apply in_seq in Hy.
        replace (k + 1 <=? Z.of_nat y) with true by lia. replace (m <=? Z.of_nat y) with true by lia. reflexivity.
      * intros x Hx. apply in_map_iff in Hx as (y & <- & Hy). apply in_seq in Hy. destruct (m <=? Z.of_nat y) eqn:X; [|reflexivity]. cbn [andb]. apply E3. lia.
      * intros x Hx. apply in_map_iff in Hx as (y & <- & Hy). apply in_seq in Hy. replace (k + 1 <=? Z.of_nat y) with false by lia. reflexivity.
Qed.

Lemma filter_length_le {A} (f : A -> bool) l : (length (filter f l) <= length l)%nat.
Proof. induction l as [|x l IH]; cbn [filter length]; [lia|]. destruct (f x); cbn [length]; lia. Qed.
Lemma indices_filter t (f : Z -> bool) : f 0 = false -> filter (fun j => (1 <=? j) && f j) (indices t) = filter f (indices t).
Proof.
  intros H0. apply filter_ext_in. intros x Hx. unfold indices in Hx. apply in_map_iff in Hx as (y & <- & Hy).
  destruct (1 <=? Z.of_nat y) eqn:E; [reflexivity|]. assert (Z.of_nat y = 0) as -> by lia. rewrite H0. reflexivity.
Qed.
Lemma inv_get_active t symsec r i j : relsec_inv t symsec 0 r -> i <> 0 -> relocates t symsec i j = true ->
  relsec_get r j = (let v := nxt t symsec i (j + 1) in if v =? 0 then None else Some v).
Proof.
  intros HI Hi Hj. rewrite (inv_get t symsec r j HI). destruct (relocates_get _ _ _ _ Hj) as (h & Hh & Ht & _ & <-). rewrite Hh, Ht.
  rewrite (relocates_active _ _ _ _ h Hh) in Hj by assumption. apply andb_true_iff in Hj as [-> _]. reflexivity.
Qed.
Lemma chain_exact t symsec r i h : relsec_parse t symsec = Ok r ->
  (forall h0, zget (stab_sections t) 0 = Some h0 -> ~ reloc_section h0) ->
  zget (stab_sections t) i = Some h -> i <> 0 -> ~ reloc_section h ->
  follows (relsec_get r) i (filter (relocates t symsec i) (indices t)).
Proof.
  intros Hp H0 Hh Hi Hr. destruct (relsec_parse_spec t symsec) as [[E _]|(_ & r' & E & HI)]; rewrite Hp in E; [discriminate|]. injection E as <-.
  assert (N0 : relocates t symsec i 0 = false).
  { destruct (relocates t symsec i 0) eqn:X; [|reflexivity]. destruct (relocates_get _ _ _ _ X) as (h0 & Hh0 & Ht & _). exfalso. apply (H0 h0 Hh0). apply reloc_type. assumption. }
  rewrite <- indices_filter by assumption. apply (follows_nxt t symsec i _ Hi) with (n := length (stab_sections t)).
  - intros j Hj _. apply inv_get_active; assumption.
  - lia.
  - unfold zlen. lia.
  - rewrite (inv_get t symsec r i HI), Hh. destruct (is_reloc_type (sh_type h)) eqn:X; [apply reloc_type in X; contradiction|].
    destruct (i =? 0) eqn:Y; [lia|]. rewrite nxt_skip by (assumption || lia). reflexivity.
Qed.
Lemma chain_total t symsec r i : relsec_parse t symsec = Ok r ->
  exists js, follows (relsec_get r) i js /\ (length js <= length r)%nat /\
    Forall (fun j => j <> 0 /\ exists h, zget (stab_sections t) j = Some h /\ reloc_section h) js.
Proof.
  intros Hp. destruct (relsec_parse_spec t symsec) as [[E _]|(_ & r' & E & HI)]; rewrite Hp in E; [discriminate|]. injection E as <-.
  assert (G : forall i', i' <> 0 -> forall m, 0 < m -> 
     relsec_get r i = (let v := nxt t symsec i' m in if v =? 0 then None else Some v) ->
     exists js, follows (relsec_get r) i js /\ (length js <= length r)%nat /\
    Forall (fun j => j <> 0 /\ exists h, zget (stab_sections t) j = Some h /\ reloc_section h) js).
  { intros i' Hi' m Hm Hg. eexists. split; [|split].
    - apply (follows_nxt t symsec i' (relsec_get r) Hi') with (n := length (stab_sections t)) (m := m).
      + intros j Hj _. apply inv_get_active; assumption.
      + assumption.
      + unfold zlen. lia.
      + assumption.
    - destruct HI as [Hl _]. unfold zlen in Hl. etransitivity; [apply filter_length_le|]. unfold indices. rewrite map_length, seq_length. lia.
    - apply Forall_forall. intros j Hj. apply filter_In in Hj as [_ Hj]. apply andb_true_iff in Hj as [Hj1 Hj2]. split; [lia|].
      destruct (relocates_get _ _ _ _ Hj2) as (h & Hh & Ht & _). exists h. split; [assumption|]. apply reloc_type. assumption. }
  assert (N : relsec_get r i = None -> exists js, follows (relsec_get r) i js /\ (length js <= length r)%nat /\
    Forall (fun j => j <> 0 /\ exists h, zget (stab_sections t) j = Some h /\ reloc_section h) js).
  { intros Hn. exists []. split; [apply follows_end; assumption|]. split; [cbn; lia|constructor]. }
  pose proof (inv_get t symsec r i HI) as Eg. destruct (zget (stab_sections t) i) as [h|] eqn:Eh; [|auto]. cbv zeta in Eg.
  pose proof (zget_Some_lt _ _ _ Eh) as Hlt.
  destruct (is_reloc_type (sh_type h)).
  - destruct (active symsec h) eqn:Ea; [|auto]. apply (G (sh_info h)) with (m := i + 1); [|lia|exact Eg].
    unfold active in Ea. rewrite !andb_true_iff in Ea. lia.
  - destruct (i =? 0) eqn:E0; [auto|]. destruct (relocates t symsec i 0) eqn:X.
    + apply N. rewrite Eg. replace (nxt t symsec i 0) with 0; [reflexivity|]. apply nxt_unique; [lia|]. right. split; [lia|]. split; [assumption|]. intros. lia.
    + rewrite nxt_skip in Eg by (assumption || lia). apply (G i) with (m := 0 + 1); [lia|lia|exact Eg].
Qed.

(** * Iteration *)
Lemma crel_parse_rela it r it' : crel_parse it = (r, it') -> ci_is_rela it' = ci_is_rela it.
Proof.
  unfold crel_parse, bs, on_data, ci_st, ci_with.
  repeat (match goal with |- context [match ?x with _ => _ end] => match type of x with _ => lazymatch x with context [match _ with _ => _ end] => fail | _ => destruct x end end end;
    cbn [fst snd ci_data ci_count ci_flag_bits ci_shift ci_is_rela ci_state]); intros H; injection H as <- <-; reflexivity.
Qed.

Definition yields (i : reliter) (l : list crel) : Prop := exists i', runs reliter_next i l false i'.
Definition yo (o : option reliter) (x : list (crel * bool)) : Prop :=
  match o with None => x = [] | Some i => exists l, x = map (fun c => (c, ri_is_rel i)) l /\ yields i l end.
Lemma reliter_next_is_rel i r i' : reliter_next i = (r, i') -> ri_is_rel i' = ri_is_rel i.
Proof.
  unfold reliter_next. destruct i as [b [|c l]|it].
  - intros [= <- <-]. reflexivity.
  - intros [= <- <-]. reflexivity.
  - unfold crel_next. destruct (ci_count it =? 0). { intros [= <- <-]. reflexivity. }
    destruct (crel_parse it) as [rr it1] eqn:E. apply crel_parse_rela in E. destruct rr; intros [= <- <-]; cbn [ri_is_rel ci_is_rela]; congruence.
Qed.
Lemma yields_nil i : yields i [] -> exists i', reliter_next i = (Ok None, i').
Proof. intros [i' H]. inversion H; subst. eexists. eassumption. Qed.
Lemma yields_cons i c l : yields i (c :: l) -> exists i', reliter_next i = (Ok (Some c), i') /\ yields i' l /\ ri_is_rel i' = ri_is_rel i.
Proof. intros [i' H]. inversion H; subst. eexists. split; [eassumption|]. split; [eexists; eassumption|]. eapply reliter_next_is_rel; eassumption. Qed.
Lemma yields_fixed b l : yields (RIfixed b l) l.
Proof. exists (RIfixed b []). induction l as [|c l IH]; [apply runs_done; reflexivity|]. eapply runs_more; [reflexivity|exact IH]. Qed.
Lemma yields_crel it l e it' : runs crel_next it l e it' -> yields (RIcrel it) l.
Proof.
  intros H. exists (RIcrel it'). induction H as [it it' H|it it' H|it it1 it' c l e H _ IH].
  - apply runs_done. cbn [reliter_next]. rewrite H. reflexivity.
  - apply runs_done. cbn [reliter_next]. rewrite H. reflexivity.
  - eapply runs_more; [|exact IH]. cbn [reliter_next]. rewrite H. reflexivity.
Qed.
Lemma view_eq c (b : bool) : (cr_offset c, parse_reloc c b) = reloc_view (c, b).
Proof. reflexivity. Qed.

(** the sections visited from [idx], with the items of each *)
Inductive visits (adv : Z -> option (Z * out (option reliter))) : Z -> list (list (crel * bool)) -> Prop :=
| v_end i : adv i = None -> visits adv i []
| v_next i j o x xs : adv i = Some (j, Ok o) -> yo o x -> visits adv j xs -> visits adv i (x :: xs).
Lemma rel_loop_runs adv (F : nat) : forall xs idx, visits adv idx xs -> (length xs < F)%nat ->
  forall o x0 fuel, yo o x0 -> (length xs < fuel)%nat -> exists st',
    match map reloc_view (x0 ++ concat xs) with
    | [] => rel_loop fuel adv {| sr_index := idx; sr_relocs := o |} = (Ok None, st')
    | y :: l => exists st1, rel_loop fuel adv {| sr_index := idx; sr_relocs := o |} = (Ok (Some y), st1) /\ runs (rel_loop F adv) st1 l false st'
    end.
Proof.
  intros xs idx HV HF. induction HV as [i Ha|i j o x xs Ha Hy HV IH].
  - intros o x0 fuel Hy Hf. revert o Hy. revert fuel Hf. induction x0 as [|[c b] x0 IHx]; intros fuel Hf o Hy.
    + exists {| sr_index := i; sr_relocs := None |}. cbn [app concat map]. destruct fuel as [|fuel]; [inversion Hf|]. cbn [rel_loop sr_relocs sr_index].
      destruct o as [it|].
      * destruct Hy as (l & El & Hy). destruct l; [|discriminate]. destruct (yields_nil _ Hy) as (it' & ->). rewrite Ha. reflexivity.
      * rewrite Ha. reflexivity.
    + destruct o as [it|]; [|discriminate]. destruct Hy as (l & El & Hy). destruct l as [|c' l]; [discriminate|]. cbn [map] in El. injection El as -> -> ->.
      destruct (yields_cons _ _ _ Hy) as (it' & En & Hy' & Er). rewrite <- Er in IHx.
      destruct (IHx F HF (Some it') (ex_intro _ l (conj eq_refl Hy'))) as (st' & IH'). exists st'. cbn [app map].
      exists {| sr_index := i; sr_relocs := Some it' |}. split; [destruct fuel; [inversion Hf|]; cbn [rel_loop sr_relocs]; rewrite En, Er; reflexivity|].
      rewrite <- Er. destruct (map reloc_view _); [apply runs_done; assumption|]. destruct IH' as (st1 & H1 & H2). eapply runs_more; eassumption.
  - cbn [length] in HF. specialize (IH ltac:(lia)). intros o0 x0 fuel Hy0 Hf. revert o0 Hy0. revert fuel Hf. induction x0 as [|[c b] x0 IHx]; intros fuel Hf o0 Hy0.
    + cbn [length] in Hf. destruct fuel as [|fuel]; [inversion Hf|]. destruct (IH o x fuel Hy ltac:(lia)) as (st' & IH'). exists st'. cbn [app concat].
      assert (E : rel_loop (S fuel) adv {| sr_index := i; sr_relocs := o0 |} = rel_loop fuel adv {| sr_index := j; sr_relocs := o |}).
      { cbn [rel_loop sr_relocs sr_index]. destruct o0 as [it|]; [|rewrite Ha; reflexivity].
        destruct Hy0 as (l & El & Hy0). destruct l; [|discriminate]. destruct (yields_nil _ Hy0) as (it' & ->). rewrite Ha. reflexivity. }
      rewrite E. exact IH'.
    + destruct o0 as [it|]; [|discriminate]. destruct Hy0 as (l & El & Hy0). destruct l as [|c' l]; [discriminate|]. cbn [map] in El. injection El as -> -> ->.
      destruct (yields_cons _ _ _ Hy0) as (it' & En & Hy' & Er). rewrite <- Er in IHx.
      destruct (IHx F HF (Some it') (ex_intro _ l (conj eq_refl Hy'))) as (st' & IH'). exists st'. cbn [app map].
      exists {| sr_index := i; sr_relocs := Some it' |}. split; [destruct fuel; [inversion Hf|]; cbn [rel_loop sr_relocs]; rewrite En, Er; reflexivity|].
      rewrite <- Er. destruct (map reloc_view _); [apply runs_done; assumption|]. destruct IH' as (st1 & H1 & H2). eapply runs_more; eassumption.
Qed.
Lemma visits_runs adv F idx xs : visits adv idx xs -> (length xs < F)%nat ->
  exists st', runs (rel_loop F adv) {| sr_index := idx; sr_relocs := None |} (map reloc_view (concat xs)) false st'.
Proof.
  intros HV HF. destruct (rel_loop_runs adv F xs idx HV HF None [] F eq_refl HF) as (st' & H). exists st'. cbn [app] in H.
  destruct (map reloc_view (concat xs)); [apply runs_done; assumption|]. destruct H as (st1 & H1 & H2). eapply runs_more; eassumption.
Qed.

Lemma slice_all_bad d n : 0 < n -> zlen d < 2 ^ 64 -> zlen d mod n <> 0 -> slice_from_all_bytes d n = Err.
Proof.
  intros Hn Hl Hm. unfold slice_from_all_bytes, slice_from_bytes, cmul. pose proof (zlen_nonneg d).
  assert (zlen d / n * n < zlen d) by (pose proof (Z.div_mod (zlen d) n ltac:(lia)); pose proof (Z.mod_pos_bound (zlen d) n Hn); nia).
  assert (0 <= zlen d / n * n) by (apply Z.mul_nonneg_nonneg; [apply Z.div_pos; lia|lia]).
  change (2 ^ 64) with 18446744073709551616 in *. destruct (_ <? _) eqn:E; [|lia]. cbn [of_opt bind]. unfold get_from. replace (zlen d / n * n <=? zlen d) with true by lia. replace (0 <=? zlen d / n * n) with true by lia. cbn [andb of_opt bind].
  destruct (zdrop (zlen d / n * n) d) eqn:X; [|reflexivity]. apply (f_equal zlen) in X. rewrite zlen_zdrop in X by lia. change (zlen (@nil Z)) with 0 in X. lia.
Qed.
Lemma sh_data_content s F d : 0 <= sh_offset s -> 0 <= sh_size s -> zlen F < 2 ^ 64 -> sh_data s F = Ok d -> d = [] \/ content F s d.
Proof.
  intros Ho Hs HF. rewrite sh_data_exact by assumption. unfold content. destruct (_ =? 8); [intros [= <-]; left; reflexivity|].
  destruct (sh_size s =? 0) eqn:E; [intros [= <-]; left; reflexivity|]. destruct (_ <=? _) eqn:E2; [|discriminate]. intros [= <-]. right.
  rewrite zlen_zslice by lia. split; [reflexivity|]. apply holds_iff. rewrite zlen_zslice by lia. split; [lia|]. split; [lia|reflexivity].
Qed.
Lemma rr_read_bytes_at_ok F o n b : bytes_ok F -> rr_read_bytes_at F o n = Ok b -> bytes_ok b.
Proof.
  intros HF. unfold rr_read_bytes_at. destruct (n =? 0); [intros [= <-]; constructor|]. 
  unfold get_from, get_to. destruct (_ && _); cbn [of_opt bind]; [|discriminate]. destruct (_ && _); cbn [of_opt]; [|discriminate]. intros [= <-].
  apply bytes_ok_ztake, bytes_ok_zdrop; assumption.
Qed.
Lemma crel_nil : crel_new [] = Err.
Proof. reflexivity. Qed.
Lemma yo_crel it l e it' : runs crel_next it l e it' -> yo (Some (RIcrel it)) (map (fun r => (r, negb (ci_is_rela it))) l).
Proof. intros H. exists l. split; [reflexivity|]. eapply yields_crel; eassumption. Qed.
Lemma rel_size_pos is64 is_rela : 0 < rel_size is64 is_rela.
Proof. destruct is64, is_rela; reflexivity. Qed.

Lemma last_cons {A} (c d : A) l : last (c :: l) d = last l c.
Proof. revert c d. induction l as [|x l IH]; intros c d; [reflexivity|]. change (last (c :: x :: l) d) with (last (x :: l) d). rewrite !IH. reflexivity. Qed.
Lemma crel_runs_cut : forall l it b rest, it_ok it -> ci_data it = b ++ rest -> crel_entries (ci_is_rela it) (ci_shift it) (ci_state it) b l ->
  zlen l <= ci_count it -> (ci_count it = zlen l \/ forall x tl c, rest = x ++ tl -> ~ crel_entry (ci_is_rela it) (ci_shift it) (last l (ci_state it)) x c) ->
  exists e it', runs crel_next it l e it'.
Proof.
  induction l as [|c l IH]; intros it b rest Hok Hd He Hc Hcut.
  - inversion He; subst. cbn [app last] in *. change (zlen (@nil crel)) with 0 in *. destruct (ci_count it =? 0) eqn:E0.
    + exists false, it. apply runs_done. unfold crel_next. rewrite E0. reflexivity.
    + destruct Hcut as [Hcut|Hcut]; [lia|]. destruct (crel_parse it) as [r it1] eqn:Ep.
      destruct (crel_parse_sound it r it1 Hok ltac:(lia) Ep) as [Np Hs]. destruct r as [c| |]; [|exists true|contradiction].
      * exfalso. destruct (Hs c eq_refl) as (b' & rest' & Ed & Hent & _). rewrite Hd in Ed. exact (Hcut _ _ _ Ed Hent).
      * eexists. apply runs_err. unfold crel_next. rewrite E0, Ep. reflexivity.
  - inversion He as [|prev b1 cur bs1 l1 He1 He2]; subst. rewrite zlen_cons in *. pose proof (zlen_nonneg l).
    rewrite <- app_assoc in Hd. assert (Hp : 0 < ci_count it) by lia.
    pose proof (crel_parse_complete it b1 c (bs1 ++ rest) Hok Hp Hd He1) as Ep.
    destruct (IH (ci_after it (bs1 ++ rest) c) bs1 rest) as (e & it' & R).
    + eapply it_ok_after; [assumption|assumption|exact Hd|]. eapply crel_entry_ok; eassumption.
    + reflexivity.
    + exact He2.
    + cbn [ci_after ci_count]. lia.
    + cbn [ci_after ci_count ci_is_rela ci_shift ci_state]. rewrite last_cons in Hcut. destruct Hcut; [left; lia|right; assumption].
    + exists e, it'. eapply runs_more; [|exact R]. unfold crel_next. replace (ci_count it =? 0) with false by lia. rewrite Ep. reflexivity.
Qed.

Lemma open_total is64 e mips F h : bytes_ok F -> exists o x, open_relocs is64 e mips F h = Ok o /\ yo o x.
Proof.
  intros HF. unfold open_relocs.
  assert (A : forall rela, exists o x, match sh_data_as_array (rel_size is64 rela) h F with
    | Ok a => Ok (Some (RIfixed (negb rela) (map (rel_of is64 rela e mips) a))) | Err => Ok None | Panic => Panic end = Ok o /\ yo o x).
  { intros rela. pose proof (sh_array_no_panic (rel_size is64 rela) h F). destruct (sh_data_as_array _ h F) as [a| |]; [| |contradiction].
    - eexists; eexists. split; [reflexivity|]. eexists. split; [reflexivity|]. apply yields_fixed.
    - exists None, []. split; reflexivity. }
  destruct (sh_type h =? SHT_REL). { exact (A false). } destruct (sh_type h =? SHT_RELA). { exact (A true). }
  destruct (sh_type h =? SHT_CREL). 2: { exists None, []. split; reflexivity. }
  destruct (sh_data h F) as [d| |] eqn:Ed; [| |exfalso; exact (sh_data_no_panic h F Ed)]. 2: { exists None, []. split; reflexivity. }
  assert (Hd : bytes_ok d). { unfold sh_data in Ed. destruct (sh_file_range h) as [[o n]|]; [eapply rr_read_bytes_at_ok; eassumption|injection Ed as <-; constructor]. }
  destruct (crel_total d Hd) as [Np HT]. destruct (crel_new d) as [it| |] eqn:En; [|exists None, []; split; reflexivity|contradiction].
  destruct (HT it eq_refl) as (henc & _ & l & er & it' & _ & _ & R & _). exists (Some (RIcrel it)). eexists. split; [reflexivity|]. eapply yo_crel; eassumption.
Qed.
Lemma open_sec is64 e mips F h x : bytes_ok F -> zlen F < 2 ^ 64 -> shdr_ok is64 h -> sec_relocs is64 e mips F h x ->
  exists o, open_relocs is64 e mips F h = Ok o /\ yo o x.
Proof.
  intros HF HL Hh Hs.
  assert (Ho : 0 <= sh_offset h) by (destruct Hh as (_ & _ & _ & _ & Hh & _); unfold word_ok in Hh; destruct is64; lia).
  assert (Hz : 0 <= sh_size h) by (destruct Hh as (_ & _ & _ & _ & _ & Hh & _); unfold word_ok in Hh; destruct is64; lia).
  unfold open_relocs, SHT_REL, SHT_RELA, SHT_CREL. destruct Hs as [l Ht Hl Hc|l Ht Hl Hm Hc|henc count rela shift b l rest Ht Hhd He Hc Hcl Hcut|Ht Hbad|is_rela Ht Hbad].
  - rewrite Ht. cbn [Z.eqb Pos.eqb]. rewrite (content_array F h (map (enc_rel is64 false e mips) l) (rel_size is64 false) Hc).
    + eexists. split; [reflexivity|]. eexists. split; [reflexivity|]. rewrite map_map.
      rewrite (map_id_Forall (fun x => rel_of is64 false e mips (enc_rel is64 false e mips x)) (rel_ok is64 false) l).
      * apply yields_fixed.
      * intros r Hr. apply rel_roundtrip. assumption.
      * assumption.
    + apply rel_size_pos.
    + rewrite Forall_map. apply Forall_forall. intros. apply zlen_enc_rel.
    + assumption.
  - rewrite Ht. cbn [Z.eqb Pos.eqb]. rewrite (content_array F h (map (enc_rel is64 true e mips) l) (rel_size is64 true) Hc).
    + eexists. split; [reflexivity|]. eexists. split; [reflexivity|]. rewrite map_map.
      rewrite (map_id_Forall (fun x => rel_of is64 true e mips (enc_rel is64 true e mips x)) (rel_ok is64 true) l).
      * apply yields_fixed.
      * intros r Hr. apply rel_roundtrip. assumption.
      * assumption.
    + apply rel_size_pos.
    + rewrite Forall_map. apply Forall_forall. intros. apply zlen_enc_rel.
    + assumption.
  - rewrite Ht. cbn [Z.eqb Pos.eqb]. rewrite (content_data _ _ _ Hc).
    assert (Hb : bytes_ok (b ++ rest)).
    { unfold content in Hc. rewrite Ht in Hc. cbn [Z.eqb Pos.eqb] in Hc. destruct Hc as [_ (p & q & -> & _)]. rewrite !bytes_ok_app in *. tauto. }
    rewrite (crel_new_complete _ _ _ _ _ Hb Hhd). eexists. split; [reflexivity|].
    match goal with |- yo (Some (RIcrel ?i)) _ => destruct (crel_runs_cut l i b rest) as (er & it' & R) end.
    + destruct Hhd as (H1 & H2 & _). split; [exact Hb|]. split; [unfold crel_ok; cbn; lia|]. split; [exact H2|]. split; [reflexivity|exact H1].
    + reflexivity.
    + exact He.
    + exact Hcl.
    + exact Hcut.
    + apply (yo_crel _ _ _ _ R).
  - rewrite Ht. cbn [Z.eqb Pos.eqb]. exists None. split; [|reflexivity]. destruct (sh_data h F) as [d| |] eqn:Ed; [|reflexivity|exfalso; exact (sh_data_no_panic h F Ed)].
    destruct (sh_data_content h F d Ho Hz HL Ed) as [->|Hc]; [rewrite crel_nil; reflexivity|].
    assert (Hd : bytes_ok d). { unfold sh_data in Ed. destruct (sh_file_range h) as [[o n]|]; [eapply rr_read_bytes_at_ok; eassumption|injection Ed as <-; constructor]. }
    destruct (crel_new d) as [it| |] eqn:En; [|reflexivity|exfalso; destruct (crel_total d Hd) as [N _]; exact (N En)].
    exfalso. destruct (crel_new_ok d it Hd En) as (_ & _ & enc & Ee & Hhd). rewrite Ee in Hc. exact (Hbad _ _ _ _ _ Hc Hhd).
  - assert (A : exists o, match sh_data_as_array (rel_size is64 is_rela) h F with
      | Ok a => Ok (Some (RIfixed (negb is_rela) (map (rel_of is64 is_rela e mips) a))) | Err => Ok None | Panic => Panic end = Ok o /\ yo o []).
    { unfold sh_data_as_array. destruct (sh_data h F) as [d| |] eqn:Ed; cbn [bind]; [|exists None; split; reflexivity|exfalso; exact (sh_data_no_panic h F Ed)].
      destruct (sh_data_content h F d Ho Hz HL Ed) as [->|Hc].
      - change (@nil Z) with (concat (@nil bytes)). rewrite slice_from_all_bytes_concat; [|apply rel_size_pos|constructor|reflexivity].
        eexists. split; [reflexivity|]. exists []. split; [reflexivity|]. apply (yields_fixed (negb is_rela) []).
      - rewrite slice_all_bad; [exists None; split; reflexivity|apply rel_size_pos| |apply Hbad; assumption].
        unfold content in Hc. rewrite Ht in Hc. destruct is_rela; cbn [Z.eqb Pos.eqb] in Hc; destruct Hc as [_ Hc]; apply holds_bounds in Hc; zl_pos; lia. }
    rewrite Ht. destruct is_rela; cbn [Z.eqb Pos.eqb]; exact A.
Qed.

(** * Section and dynamic relocations *)
Lemma follows_visits is64 e mips F t r i js xs : follows (relsec_get r) i js ->
  Forall2 (fun j x => exists h o, stab_section t j = Ok h /\ open_relocs is64 e mips F h = Ok o /\ yo o x) js xs ->
  visits (sec_advance is64 e mips F t r) i xs.
Proof.
  intros HF. revert xs. induction HF as [i Hi|i j js Hi _ IH]; intros xs H2; inversion H2 as [|? x ? xs' (h & o & Hh & Ho & Hy) H2']; subst.
  - apply v_end. unfold sec_advance. rewrite Hi. reflexivity.
  - apply v_next with (j := j) (o := o); [|assumption|apply IH; assumption]. unfold sec_advance. rewrite Hi, Hh, Ho. reflexivity.
Qed.
Lemma Forall2_len {A B} (R : A -> B -> Prop) l l' : Forall2 R l l' -> length l = length l'.
Proof. induction 1; cbn; congruence. Qed.
Lemma section_relocs is64 e mips F t symsec r i h l : bytes_ok F -> zlen F < 2 ^ 64 -> Forall (shdr_ok is64) (stab_sections t) ->
  relsec_parse t symsec = Ok r -> (forall h0, zget (stab_sections t) 0 = Some h0 -> ~ reloc_section h0) ->
  zget (stab_sections t) i = Some h -> i <> 0 -> ~ reloc_section h ->
  all_relocs is64 e mips F t (filter (relocates t symsec i) (indices t)) l ->
  exists st', runs (secrel_next is64 e mips F t r) (secrel_new i) (map reloc_view l) false st'.
Proof.
  intros HF HL Hok Hp H0 Hh Hi Hr (ll & -> & H2). pose proof (chain_exact t symsec r i h Hp H0 Hh Hi Hr) as HC.
  assert (H2' : Forall2 (fun j x => exists h o, stab_section t j = Ok h /\ open_relocs is64 e mips F h = Ok o /\ yo o x) (filter (relocates t symsec i) (indices t)) ll).
  { eapply Forall2_impl_In; [|exact H2]. intros j x Hj (g & Hg & Hs). apply filter_In in Hj as [_ Hj].
    assert (j <> 0). { intros ->. destruct (relocates_get _ _ _ _ Hj) as (h0 & Hh0 & Ht & _). apply (H0 h0 Hh0), reloc_type. assumption. }
    destruct (open_sec is64 e mips F g x HF HL) as (o & Ho & Hy); [|assumption|].
    { eapply Forall_zget; eassumption. }
    exists g, o. split; [|auto]. unfold stab_section. destruct (j =? 0) eqn:E; [lia|]. rewrite Hg. reflexivity. }
  apply (visits_runs (sec_advance is64 e mips F t r) (S (length r)) i ll (follows_visits _ _ _ _ _ _ _ _ _ HC H2')).
  apply Forall2_len in H2. rewrite <- H2. destruct (relsec_parse_spec t symsec) as [[E _]|(_ & r' & E & [Hl _])]; rewrite Hp in E; [discriminate|]. injection E as <-.
  pose proof (filter_length_le (relocates t symsec i) (indices t)). unfold indices in *. rewrite map_length, seq_length in *. unfold zlen in Hl. lia.
Qed.
Lemma section_relocs_total is64 e mips F t symsec r i : bytes_ok F -> relsec_parse t symsec = Ok r ->
  exists l st', runs (secrel_next is64 e mips F t r) (secrel_new i) l false st'.
Proof.
  intros HF Hp. destruct (chain_total t symsec r i Hp) as (js & HC & Hl & Hj).
  assert (exists xs, Forall2 (fun j x => exists h o, stab_section t j = Ok h /\ open_relocs is64 e mips F h = Ok o /\ yo o x) js xs) as (xs & H2).
  { clear HC Hl. induction Hj as [|j js (Hj & h & Hh & _) _ (xs & IH)]; [exists []; constructor|].
    destruct (open_total is64 e mips F h HF) as (o & x & Ho & Hy). exists (x :: xs). constructor; [|assumption]. exists h, o. split; [|auto].
    unfold stab_section. destruct (j =? 0) eqn:E; [lia|]. rewrite Hh. reflexivity. }
  eexists. apply (visits_runs (sec_advance is64 e mips F t r) (S (length r)) i xs (follows_visits _ _ _ _ _ _ _ _ _ HC H2)).
  apply Forall2_len in H2. lia.
Qed.

Lemma dyn_visits is64 e mips F t dynsym (Q : shdr -> list (crel * bool) -> Prop) :
  (forall j h x, zget (stab_sections t) j = Some h -> Q h x -> exists o, open_relocs is64 e mips F h = Ok o /\ yo o x) ->
  forall n idx ll, zlen (stab_sections t) = Z.of_nat (idx + n) -> (0 < idx)%nat ->
  Forall2 (fun j x => exists h, zget (stab_sections t) j = Some h /\ Q h x) (filter (dyn_relocates t dynsym) (map Z.of_nat (seq idx n))) ll ->
  exists xs, visits (dyn_advance is64 e mips F t dynsym) (Z.of_nat idx) xs /\ concat xs = concat ll /\ length xs = n.
Proof.
  intros HQ. induction n as [|n IH]; intros idx ll Hn Hi H2.
  - inversion H2; subst. exists []. split; [|split; reflexivity]. apply v_end. unfold dyn_advance, stab_section. destruct (Z.of_nat idx =? 0) eqn:E; [lia|].
    destruct (zget (stab_sections t) (Z.of_nat idx)) eqn:G; [apply zget_Some_lt in G; lia|]. reflexivity.
  - destruct (zget (stab_sections t) (Z.of_nat idx)) as [h|] eqn:Hh; [|apply zget_None in Hh; lia].
    assert (Es : stab_section t (Z.of_nat idx) = Ok h). { unfold stab_section. destruct (Z.of_nat idx =? 0) eqn:E; [lia|]. rewrite Hh. reflexivity. }
    cbn [seq map filter] in H2.
    assert (D : dyn_relocates t dynsym (Z.of_nat idx) = is_reloc_type (sh_type h) && (sh_link h =? dynsym)).
    { unfold dyn_relocates. rewrite Hh. replace (1 <=? Z.of_nat idx) with true by lia. reflexivity. }
    rewrite D in H2. destruct (sh_link h =? dynsym) eqn:El; [destruct (is_reloc_type (sh_type h)) eqn:Et|rewrite andb_false_r in H2]; cbn [andb] in H2.
    + inversion H2 as [|? x ? ll' (h' & Hh' & Hs) H2']; subst. destruct (IH (S idx) ll') as (xs & HV & Ec & Hl); [lia|lia|exact H2'|].
      rewrite Hh in Hh'. injection Hh' as <-. destruct (HQ _ _ _ Hh Hs) as (o & Ho & Hy).
      exists (x :: xs). split; [|cbn [concat length]; rewrite Ec, Hl; split; reflexivity].
      apply v_next with (j := Z.of_nat (S idx)) (o := o); [|assumption|assumption]. unfold dyn_advance. rewrite Es, El. cbn [negb]. rewrite Ho. do 3 f_equal. lia.
    + destruct (IH (S idx) ll) as (xs & HV & Ec & Hl); [lia|lia|exact H2|]. exists ([] :: xs). split; [|cbn [concat length app]; rewrite Ec, Hl; split; reflexivity].
      apply v_next with (j := Z.of_nat (S idx)) (o := None); [|reflexivity|assumption]. unfold dyn_advance. rewrite Es, El. cbn [negb].
      unfold open_relocs. unfold is_reloc_type in Et. rewrite !orb_false_iff in Et. destruct Et as [[-> ->] ->]. do 3 f_equal. lia.
    + destruct (IH (S idx) ll) as (xs & HV & Ec & Hl); [lia|lia|exact H2|]. exists ([] :: xs). split; [|cbn [concat length app]; rewrite Ec, Hl; split; reflexivity].
      apply v_next with (j := Z.of_nat (S idx)) (o := None); [|reflexivity|assumption]. unfold dyn_advance. rewrite Es, El. cbn [negb]. do 3 f_equal. lia.
Qed.
Lemma dyn_indices t dynsym : filter (dyn_relocates t dynsym) (indices t) =
  filter (dyn_relocates t dynsym) (map Z.of_nat (seq 1 (length (stab_sections t) - 1))).
Proof.
  unfold indices. destruct (length (stab_sections t)) as [|n]; [reflexivity|]. cbn [seq map filter]. change (Z.of_nat 0) with 0.
  replace (dyn_relocates t dynsym 0) with false by reflexivity. rewrite Nat.sub_succ, Nat.sub_0_r. reflexivity.
Qed.
Lemma dyn_runs_gen is64 e mips F t dynsym (Q : shdr -> list (crel * bool) -> Prop) ll :
  (forall j h x, zget (stab_sections t) j = Some h -> Q h x -> exists o, open_relocs is64 e mips F h = Ok o /\ yo o x) ->
  Forall2 (fun j x => exists h, zget (stab_sections t) j = Some h /\ Q h x) (filter (dyn_relocates t dynsym) (indices t)) ll ->
  exists st', runs (dynrel_next is64 e mips F t dynsym) dynrel_new (map reloc_view (concat ll)) false st'.
Proof.
  intros HQ H2. rewrite dyn_indices in H2. destruct (stab_sections t) as [|s0 ss] eqn:Es.
  - cbn in H2. inversion H2; subst. eexists. apply runs_done. unfold dynrel_next, dynrel_new. cbn [rel_loop sr_relocs sr_index]. unfold dyn_advance, stab_section. rewrite Es. reflexivity.
  - rewrite <- Es in *. destruct (dyn_visits is64 e mips F t dynsym Q HQ (length (stab_sections t) - 1) 1 ll) as (xs & HV & Ec & Hl).
    + unfold zlen. rewrite Es. cbn [length]. lia.
    + lia.
    + exact H2.
    + rewrite <- Ec. apply (visits_runs (dyn_advance is64 e mips F t dynsym) (S (length (stab_sections t))) 1 xs HV). lia.
Qed.
Lemma dynamic_relocs is64 e mips F t dynsym l : bytes_ok F -> zlen F < 2 ^ 64 -> Forall (shdr_ok is64) (stab_sections t) ->
  all_relocs is64 e mips F t (filter (dyn_relocates t dynsym) (indices t)) l ->
  exists st', runs (dynrel_next is64 e mips F t dynsym) dynrel_new (map reloc_view l) false st'.
Proof.
  intros HF HL Hok (ll & -> & H2). apply (dyn_runs_gen is64 e mips F t dynsym (sec_relocs is64 e mips F)); [|exact H2].
  intros j h x Hj Hs. apply open_sec; try assumption. eapply Forall_zget; eassumption.
Qed.
Lemma dynamic_relocs_total is64 e mips F t dynsym : bytes_ok F ->
  exists l st', runs (dynrel_next is64 e mips F t dynsym) dynrel_new l false st'.
Proof.
  intros HF. set (Q := fun h x => exists o, open_relocs is64 e mips F h = Ok o /\ yo o x).
  assert (exists ll, Forall2 (fun j x => exists h, zget (stab_sections t) j = Some h /\ Q h x) (filter (dyn_relocates t dynsym) (indices t)) ll) as (ll & H2).
  { assert (Hj : Forall (fun j => dyn_relocates t dynsym j = true) (filter (dyn_relocates t dynsym) (indices t))).
    { apply Forall_forall. intros j Hj. apply filter_In in Hj. apply Hj. }
    induction Hj as [|j js Hj _ (ll & IH)]; [exists []; constructor|].
    unfold dyn_relocates in Hj. apply andb_prop in Hj as [_ Hj]. destruct (zget (stab_sections t) j) as [h|] eqn:Eh; [|discriminate].
    destruct (open_total is64 e mips F h HF) as (o & x & Ho & Hy). exists (x :: ll). constructor; [|assumption]. exists h. split; [assumption|]. exists o. auto. }
  eexists. apply (dyn_runs_gen is64 e mips F t dynsym Q); [|exact H2]. intros j h x _ H. exact H.
Qed.

(** * Section headers made by the writer *)
Lemma content_of F s d : sh_type s <> 8 -> sh_size s = zlen d -> holds F (sh_offset s) d -> content F s d.
Proof. intros H1 H2 H3. unfold content. destruct (_ =? 8) eqn:E; [lia|auto]. Qed.
Lemma zlen_concat_rel is64 is_rela e mips l : zlen (concat (map (enc_rel is64 is_rela e mips) l)) = zlen l * rel_size is64 is_rela.
Proof.
  rewrite (zlen_concat_const (rel_size is64 is_rela)); [rewrite zlen_map; reflexivity|]. rewrite Forall_map. apply Forall_forall.
  intros. apply zlen_enc_rel.
Qed.
Lemma reloc_header_read is64 (is_rela : bool) e mips F name sec symtab off l : zlen F < 2 ^ 64 -> Forall (rel_ok is64 is_rela) l ->
  holds F off (concat (map (enc_rel is64 is_rela e mips) l)) ->
  let h := wr_reloc_header is64 is_rela name sec symtab off (zlen l) in
  sh_rel is64 e F h = Ok (if is_rela then None else Some (l, symtab)) /\
  sh_rela is64 e mips F h = Ok (if is_rela then Some (l, symtab) else None).
Proof.
  intros HF Hl Hh h. 
  assert (Ha : sh_data_as_array (rel_size is64 is_rela) h F = Ok (map (enc_rel is64 is_rela e mips) l)).
  { apply content_array; [|apply rel_size_pos| |assumption].
    - apply content_of; [subst h; destruct is_rela; discriminate|subst h; cbn [wr_reloc_header sh_size]; rewrite zlen_concat_rel; reflexivity|exact Hh].
    - rewrite Forall_map. apply Forall_forall. intros. apply zlen_enc_rel. }
  assert (Hm : map (rel_of is64 is_rela e mips) (map (enc_rel is64 is_rela e mips) l) = l).
  { rewrite map_map. apply (map_id_Forall _ (rel_ok is64 is_rela)); [|assumption]. intros x Hx. apply rel_roundtrip. assumption. }
  unfold sh_rel, sh_rela. destruct is_rela; subst h; cbn [wr_reloc_header sh_type]; cbn [negb Z.eqb Pos.eqb SHT_REL SHT_RELA].
  - split; [reflexivity|]. rewrite Ha. cbn [bind]. rewrite Hm. reflexivity.
  - split; [|reflexivity]. rewrite Ha. cbn [bind]. 
    replace (rel_of is64 false e false) with (rel_of is64 false e mips) by (unfold rel_of; destruct is64; reflexivity). rewrite Hm. reflexivity.
Qed.
Lemma group_header_read e F name symtab symbol off members : zlen F < 2 ^ 64 -> Forall u32_ok members ->
  holds F off (wr_group_data e members) ->
  sh_group e F (wr_group_header name symtab symbol off (zlen members)) = Ok (Some (1, members)).
Proof.
  intros HF Hm Hh. unfold sh_group. cbn [wr_group_header sh_type]. cbn [negb Z.eqb Pos.eqb SHT_GROUP].
  assert (Hz : zlen (concat (map (write_u e 4) members)) = 4 * zlen members).
  { rewrite (zlen_concat_const 4); [rewrite zlen_map; lia|]. apply (Forall_write_u e 4). }
  assert (Hg : zlen (wr_group_data e members) = 4 + 4 * zlen members) by (unfold wr_group_data; rewrite zlen_app, zlen_write_u, Hz; lia).
  rewrite (content_data _ _ (wr_group_data e members)).
  2: { apply content_of; [discriminate| |exact Hh]. cbn [wr_group_header sh_size]. lia. }
  cbn [bind]. unfold from_bytes, wr_group_data. rewrite get_from_app by (rewrite zlen_write_u; reflexivity). cbn [of_opt bind fst snd].
  rewrite ztake_app_eq by (rewrite zlen_write_u; reflexivity).
  rewrite slice_from_all_bytes_concat; [|lia|apply (Forall_write_u e 4)|].
  - cbn [bind]. rewrite map_read_write_u by exact Hm. rewrite read_write_u_small by (cbn; lia). reflexivity.
  - rewrite Hz. apply holds_bounds in Hh. lia.
Qed.
Lemma dyn_header_read is64 e F t name addr off l i j hstr tab : zlen F < 2 ^ 64 -> Forall (dyn_ok is64) l -> 
  holds F off (concat (map (dyn_layout is64 e) l)) ->
  zget (stab_sections t) i = Some (wr_dyn_header is64 name addr off (zlen l) j) ->
  (forall i' h, zget (stab_sections t) i' = Some h -> sh_type h = 6 -> i <= i') ->
  zget (stab_sections t) j = Some hstr -> j <> 0 -> sh_type hstr = 3 -> content F hstr tab ->
  exists dt, stab_dynamic is64 e F t = Ok dt /\ dt_dynamics dt = l /\ forall d s, string_at tab (d_val d) s -> d_val d < 2 ^ 32 -> dyn_string (dt_strings dt) d = Ok s.
Proof.
  intros HF Hl Hh Hi Hmin Hj Hj0 Ht Hc. unfold stab_dynamic. set (h := wr_dyn_header is64 name addr off (zlen l) j) in *.
  assert (Ef : find (fun s => sh_type s =? SHT_DYNAMIC) (stab_sections t) = Some h).
  { clear - Hi Hmin. assert (H6 : sh_type h = 6) by reflexivity. clearbody h. revert i Hi Hmin. induction (stab_sections t) as [|s ss IH]; intros i Hi Hmin.
    - apply zget_Some_lt in Hi. change (zlen (@nil shdr)) with 0 in Hi. lia.
    - cbn [find]. unfold SHT_DYNAMIC. destruct (sh_type s =? 6) eqn:E.
      + pose proof (Hmin 0 s eq_refl ltac:(lia)). assert (i = 0) by (apply zget_Some_lt in Hi; lia). subst i. injection Hi as ->. reflexivity.
      + destruct (Z.eq_dec i 0) as [->|Hn]; [injection Hi as ->; lia|]. rewrite zget_cons_pred in Hi by assumption. apply (IH (i - 1)); [assumption|].
        intros i' g Hg H'. specialize (Hmin (i' + 1) g). rewrite zget_cons_pred in Hmin by (apply zget_Some_lt in Hg; lia). replace (i' + 1 - 1) with i' in Hmin by lia.
        specialize (Hmin Hg H'). lia. }
  rewrite Ef. unfold dyntab_parse. replace (sh_type h =? SHT_DYNAMIC) with true by reflexivity. cbn [negb].
  assert (Hz : Forall (fun c => zlen c = dyn_size is64) (map (dyn_layout is64 e) l)).
  { rewrite Forall_map. eapply Forall_impl; [|exact Hl]. intros d Hd. apply (dyn_roundtrip is64 e d Hd). }
  rewrite (content_array F h (map (dyn_layout is64 e) l)); [|apply content_of; [discriminate| |exact Hh]|destruct is64; cbn; lia|assumption|assumption].
  2: { subst h. cbn [wr_dyn_header sh_size]. rewrite (zlen_concat_const (dyn_size is64)) by assumption. rewrite zlen_map. reflexivity. }
  cbn [bind]. unfold stab_strings_at. change (sh_link h) with j. destruct (j =? 0) eqn:E; [lia|]. unfold stab_section. rewrite E, Hj. cbn [of_opt bind].
  unfold sh_strings, SHT_STRTAB. rewrite Ht. cbn [Z.eqb Pos.eqb negb]. unfold content in Hc. destruct (sh_type hstr =? 8) eqn:E8; [lia|]. destruct Hc as [Hs Hc].
  pose proof (holds_bounds _ _ _ Hc) as [? ?]. unfold cadd. rewrite Hs. destruct (Z.ltb_spec (sh_offset hstr + zlen tab) (2 ^ 64)); [|lia]. cbn [of_opt bind].
  eexists. split; [reflexivity|]. cbn [dt_dynamics dt_strings]. split.
  - rewrite map_map. apply (map_id_Forall _ (dyn_ok is64)); [|assumption]. intros d Hd. apply (dyn_roundtrip is64 e d Hd).
  - intros d s Hd Hv. unfold dyn_string. destruct (2 ^ 32 <=? d_val d) eqn:E2; [lia|]. unfold stb_get. cbn [stb_data stb_start stb_end].
    eapply string_at_get; try eassumption. reflexivity.
Qed.
Lemma elfr_total is64 e mips F t h d l : stab_dynamic is64 e F t <> Panic /\ sh_rel is64 e F h <> Panic /\ sh_rela is64 e mips F h <> Panic /\ sh_relr is64 e F h <> Panic /\ sh_group e F h <> Panic /\ dyn_string l d <> Panic.
Proof.
  pose proof (fun n s => sh_array_no_panic n s F) as A.
  split; [|split; [|split; [|split; [|split]]]].
  - unfold stab_dynamic. destruct (find _ _) as [s|] eqn:Ef; [|discriminate]. apply find_some in Ef as [_ Ef]. unfold dyntab_parse. rewrite Ef. cbn [negb].
    specialize (A (dyn_size is64) s). destruct (sh_data_as_array _ _ _); cbn [bind]; [|discriminate|congruence].
    assert (stab_strings_at t F (sh_link s) <> Panic) as Hs. { unfold stab_strings_at. destruct (_ =? 0); [discriminate|]. unfold stab_section. destruct (_ =? 0); [discriminate|].
      destruct (zget _ _); cbn [of_opt bind]; [|discriminate]. unfold sh_strings. destruct (negb _); cbn [bind of_opt]; [discriminate|]. destruct (cadd _ _ _); cbn [bind of_opt]; discriminate. }
    destruct (stab_strings_at _ _ _); cbn [bind]; [discriminate|discriminate|congruence].
  - unfold sh_rel. destruct (negb _); [discriminate|]. specialize (A (rel_size is64 false) h). destruct (sh_data_as_array _ _ _); cbn [bind]; [discriminate|discriminate|congruence].
  - unfold sh_rela. destruct (negb _); [discriminate|]. specialize (A (rel_size is64 true) h). destruct (sh_data_as_array _ _ _); cbn [bind]; [discriminate|discriminate|congruence].
  - unfold sh_relr. destruct (negb _); [discriminate|]. specialize (A (if is64 then 8 else 4) h). destruct (sh_data_as_array _ _ _); cbn [bind]; [discriminate|discriminate|congruence].
  - unfold sh_group. destruct (negb _); [discriminate|]. pose proof (sh_data_no_panic h F). destruct (sh_data h F); cbn [bind]; [|discriminate|congruence].
    unfold from_bytes. destruct (get_from _ _) as [l1|]; cbn [bind of_opt]; [|discriminate]. cbn [snd]. pose proof (slice_from_all_bytes_no_panic l1 4). destruct (slice_from_all_bytes l1 4); cbn [bind]; [discriminate|discriminate|congruence].
  - unfold dyn_string. destruct (_ <=? _); [discriminate|]. apply strtab_get_no_panic.
Qed.
Lemma relsec_parse_iff t symsec : relsec_parse t symsec <> Panic /\ (relsec_parse t symsec = Err <-> bad_target t symsec).
Proof.
  destruct (relsec_parse_spec t symsec) as [[-> B]|(B & r & -> & _)].
  - split; [discriminate|]. split; auto.
  - split; [discriminate|]. split; [discriminate|contradiction].
Qed.
Lemma relr_header_unread is64 e F name off size : sh_relr is64 e F (wr_relr_header is64 name off size) = Ok None.
Proof. reflexivity. Qed.
Lemma relr_header_wrong : exists F words, Forall u64_ok words /\ holds F 0 (concat (map (write_u Little 8) words)) /\
  exists l, sh_rela true Little false F (wr_relr_header true 0 0 (8 * zlen words)) = Ok (Some (l, 0)) /\ l <> [].
Proof.
  exists (concat (map (write_u Little 8) [4096; 5; 8192])), [4096; 5; 8192]. split; [repeat constructor; unfold u64_ok; cbn; lia|].
  split; [exists [], []; split; reflexivity|]. eexists. split; [vm_compute; reflexivity|discriminate].
Qed.
