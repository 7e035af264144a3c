(** Cursor lemmas over concatenations, shared by the format areas. *)
From Verif Require Export Core_model Str_model Core_spec Hash_model.
From Verif Require Import Core_proofs Str_proofs.

Lemma from_bytes_all b n : n = zlen b -> from_bytes b n = Ok (b, nil).
Proof.
  intros ->. unfold from_bytes. rewrite <- (app_nil_r b) at 1.
  rewrite get_from_app by reflexivity. cbn [of_opt bind]. rewrite ztake_all by lia. reflexivity.
Qed.
Lemma rr_read_bytes_app a b c o n : o = zlen a -> n = zlen b -> zlen a + zlen b < 2 ^ 64 ->
  rr_read_bytes (a ++ b ++ c) o n = (Ok b, zlen a + zlen b).
Proof.
  intros -> -> H. unfold rr_read_bytes. rewrite rr_read_bytes_at_app by reflexivity.
  pose proof (zlen_nonneg a). pose proof (zlen_nonneg b).
  unfold wrap_u. rewrite Z.mod_small by lia. reflexivity.
Qed.
Lemma rr_read_app a b c o n : o = zlen a -> n = zlen b -> zlen a + zlen b < 2 ^ 64 ->
  rr_read (a ++ b ++ c) o n = (Ok b, zlen a + zlen b).
Proof.
  intros. unfold rr_read. rewrite rr_read_bytes_app by assumption. rewrite from_bytes_all by assumption. reflexivity.
Qed.
Lemma rr_read_slice_app a cs c o size count : o = zlen a -> 0 <= size -> Forall (fun x => zlen x = size) cs ->
  count = zlen cs -> zlen a + zlen cs * size < 2 ^ 64 ->
  rr_read_slice (a ++ concat cs ++ c) o size count = (Ok cs, zlen a + zlen cs * size).
Proof.
  intros -> Hs Hc -> Hl. unfold rr_read_slice, cmul. pose proof (zlen_nonneg a).
  destruct (Z.ltb_spec (zlen cs * size) (2 ^ 64)); [|lia].
  rewrite rr_read_bytes_app; [|reflexivity|symmetry; apply zlen_concat_const; assumption|rewrite (zlen_concat_const size); assumption].
  unfold slice_from_bytes, cmul. destruct (Z.ltb_spec (zlen cs * size) (2 ^ 64)); [|lia]. cbn [of_opt bind].
  rewrite <- (app_nil_r (concat cs)). rewrite get_from_app by (symmetry; apply zlen_concat_const; assumption). cbn [of_opt bind].
  rewrite chunks_app; [|assumption|unfold zlen; lia].
  rewrite app_nil_r, (zlen_concat_const size) by assumption. reflexivity.
Qed.
Lemma Forall_write_u e n l : Forall (fun x => zlen x = Z.of_nat n) (map (write_u e n) l).
Proof. apply Forall_map, Forall_forall. intros. apply zlen_write_u. Qed.
Lemma map_read_write_u e n l : Forall (fun x => 0 <= x < 2 ^ (8 * Z.of_nat n)) l ->
  map (read_u e) (map (write_u e n) l) = l.
Proof.
  induction 1 as [|x l Hx Hl IH]; [reflexivity|]. cbn [map]. rewrite IH, read_write_u_small by assumption. reflexivity.
Qed.
Lemma zslice_app1 {A} (a b : list A) o n : 0 <= o -> 0 <= n -> o + n <= zlen a -> zslice o n (a ++ b) = zslice o n a.
Proof.
  intros. unfold zslice. rewrite zdrop_app_le by lia. rewrite ztake_app_le; [reflexivity|]. rewrite zlen_zdrop; lia.
Qed.
Lemma zslice_app2 {A} (a b : list A) o n : zlen a <= o -> zslice o n (a ++ b) = zslice (o - zlen a) n b.
Proof. intros. unfold zslice. rewrite zdrop_app_ge by lia. reflexivity. Qed.
Lemma zslice_all {A} (a : list A) n : n = zlen a -> zslice 0 n a = a.
Proof. intros ->. unfold zslice. rewrite zdrop_0. apply ztake_all. lia. Qed.

(** rr_read_slice results in general *)
Lemma rr_read_slice_no_panic data off size count : fst (rr_read_slice data off size count) <> Panic.
Proof.
  unfold rr_read_slice. destruct (cmul 64 count size); [|discriminate].
  unfold rr_read_bytes. pose proof (rr_read_bytes_at_no_panic data off z) as H.
  destruct (rr_read_bytes_at data off z); [|discriminate|contradiction].
  unfold slice_from_bytes. destruct (cmul 64 count size); cbn [of_opt bind]; [|discriminate].
  destruct (get_from a z0); cbn [of_opt bind fst]; discriminate.
Qed.
Lemma rr_read_no_panic data off size : fst (rr_read data off size) <> Panic.
Proof.
  unfold rr_read, rr_read_bytes. pose proof (rr_read_bytes_at_no_panic data off size) as H.
  destruct (rr_read_bytes_at data off size); [|discriminate|contradiction].
  unfold from_bytes. destruct (get_from a size); cbn [of_opt bind fst]; discriminate.
Qed.
Lemma rr_read_bytes_no_panic data off size : fst (rr_read_bytes data off size) <> Panic.
Proof.
  unfold rr_read_bytes. pose proof (rr_read_bytes_at_no_panic data off size) as H.
  destruct (rr_read_bytes_at data off size); [discriminate|discriminate|contradiction].
Qed.
Lemma rr_read_bytes_inv data off size b off' : 0 <= off -> 0 <= size -> zlen data < 2 ^ 64 -> off <= zlen data ->
  rr_read_bytes data off size = (Ok b, off') -> off' = off + size /\ off' <= zlen data /\ zlen b = size /\ b = zslice off size data.
Proof.
  intros Ho Hs Hl Hoff. unfold rr_read_bytes. destruct (rr_read_bytes_at data off size) as [x| |] eqn:E; try discriminate.
  intro H; inversion H; subst. apply rr_read_bytes_at_Ok in E; try assumption.
  destruct E as [[-> ->]|(Hp & Hle & ->)].
  - unfold wrap_u. rewrite Z.add_0_r, Z.mod_small by lia. repeat split; try lia; reflexivity.
  - unfold wrap_u. rewrite Z.mod_small by lia. rewrite zlen_zslice by lia. repeat split; lia.
Qed.
Lemma rr_read_inv data off size b off' : 0 <= off -> 0 <= size -> zlen data < 2 ^ 64 -> off <= zlen data ->
  rr_read data off size = (Ok b, off') -> off' = off + size /\ off' <= zlen data /\ zlen b = size /\ b = zslice off size data.
Proof.
  intros Ho Hs Hl Hoff. unfold rr_read. destruct (rr_read_bytes data off size) as [[x| |] o] eqn:E; try discriminate.
  apply rr_read_bytes_inv in E; try assumption. destruct E as (E1 & E2 & E3 & E4).
  rewrite from_bytes_all by lia. intro H; inversion H; subst. auto.
Qed.
Lemma rr_read_slice_inv data off size count cs off' : 0 <= off -> 0 <= size -> 0 <= count -> zlen data < 2 ^ 64 -> off <= zlen data ->
  rr_read_slice data off size count = (Ok cs, off') ->
  off' = off + count * size /\ off' <= zlen data /\ zlen cs = count /\ Forall (fun c => zlen c = size) cs /\
  concat cs = zslice off (count * size) data.
Proof.
  intros Ho Hs Hc Hl Hoff. unfold rr_read_slice, cmul. destruct (Z.ltb_spec (count * size) (2 ^ 64)); [|discriminate].
  assert (0 <= count * size) by nia.
  destruct (rr_read_bytes data off (count * size)) as [[x| |] o] eqn:E; try discriminate.
  apply rr_read_bytes_inv in E; try assumption. destruct E as (E1 & E2 & E3 & E4).
  unfold slice_from_bytes, cmul. destruct (Z.ltb_spec (count * size) (2 ^ 64)); [|lia]. cbn [of_opt bind].
  unfold get_from. destruct ((0 <=? count * size) && (count * size <=? zlen x)) eqn:B; [|discriminate]. cbn [of_opt bind].
  intro Heq; inversion Heq; subst off' cs.
  destruct (chunks_concat size (Z.to_nat count) x) as (C1 & C2 & C3); [assumption|rewrite Z2Nat.id by lia; lia|].
  split; [exact E1|]. split; [exact E2|]. split; [unfold zlen; lia|]. split; [exact C2|].
  rewrite C1, Z2Nat.id by lia. rewrite ztake_all by lia. exact E4.
Qed.
Lemma bytes_ok_concat cs : bytes_ok (concat cs) -> Forall bytes_ok cs.
Proof.
  induction cs as [|c cs IH]; intro H; [constructor|]. cbn [concat] in H. apply bytes_ok_app in H as [H1 H2].
  constructor; auto.
Qed.
Lemma read_u_words_bound e cs n : Forall (fun c => zlen c = n) cs -> Forall bytes_ok cs ->
  Forall (fun x => 0 <= x < 2 ^ (8 * n)) (map (read_u e) cs).
Proof.
  intros H1 H2. rewrite Forall_map. rewrite Forall_forall in *. intros c Hc.
  specialize (H1 c Hc). specialize (H2 c Hc). cbn in H1. rewrite <- H1. apply read_u_bound; exact H2.
Qed.

(** Bit facts *)
Lemma lor_bound a b k : 0 <= k -> 0 <= a < 2 ^ k -> 0 <= b < 2 ^ k -> 0 <= Z.lor a b < 2 ^ k.
Proof.
  intros Hk Ha Hb. split; [apply Z.lor_nonneg; lia|].
  assert (E : Z.lor a b = Z.lor a b mod 2 ^ k).
  { rewrite <- Z.land_ones by lia. rewrite Z.land_lor_distr_l, !Z.land_ones by lia. rewrite !Z.mod_small by lia. reflexivity. }
  rewrite E. apply Z.mod_pos_bound. lia.
Qed.
Lemma land_le a m : 0 <= m -> 0 <= Z.land a m <= m.
Proof.
  intro Hm. split; [apply Z.land_nonneg; lia|].
  assert (E : m - Z.land a m = Z.ldiff m (Z.land a m)).
  { apply Z.sub_nocarry_ldiff. apply Z.bits_inj'. intros n Hn. rewrite Z.ldiff_spec, Z.land_spec, Z.bits_0.
    destruct (Z.testbit a n), (Z.testbit m n); reflexivity. }
  assert (0 <= Z.ldiff m (Z.land a m)) by (apply Z.ldiff_nonneg; lia). lia.
Qed.
Lemma land_bit x k : 0 <= k -> (Z.land x (Z.shiftl 1 k) =? 0) = negb (Z.testbit x k).
Proof.
  intro Hk. destruct (Z.eqb_spec (Z.land x (Z.shiftl 1 k)) 0) as [E|E].
  - assert (H : Z.testbit (Z.land x (Z.shiftl 1 k)) k = false) by (rewrite E; apply Z.bits_0).
    rewrite Z.land_spec, Z.shiftl_spec, Z.sub_diag in H by lia. cbn in H. rewrite andb_true_r in H. rewrite H. reflexivity.
  - destruct (Z.testbit x k) eqn:T; [reflexivity|]. exfalso. apply E. apply Z.bits_inj'. intros n Hn.
    rewrite Z.bits_0, Z.land_spec, Z.shiftl_spec by lia. destruct (Z.eq_dec n k) as [->|Hne].
    + rewrite T. reflexivity.
    + destruct (Z.ltb_spec n k).
      * rewrite (Z.testbit_neg_r 1) by lia. apply andb_false_r.
      * replace 1 with (2 ^ 0) by reflexivity. rewrite Z.pow2_bits_false by lia. apply andb_false_r.
Qed.
Lemma lor_1 x : Z.lor x 1 = 2 * (x / 2) + 1.
Proof.
  apply Z.bits_inj'. intros n Hn. rewrite Z.lor_spec. destruct (Z.eq_dec n 0) as [->|].
  - rewrite Z.testbit_odd_0. apply orb_true_r.
  - replace n with (Z.succ (n - 1)) by lia. rewrite Z.testbit_odd_succ by lia.
    rewrite <- Z.div2_div, Z.div2_spec, Z.shiftr_spec by lia. replace (n - 1 + 1) with n by lia.
    replace (Z.testbit 1 (Z.succ (n - 1))) with false; [rewrite orb_false_r; f_equal; lia|].
    replace 1 with (2 ^ 0) at 1 by reflexivity. symmetry. apply Z.pow2_bits_false. lia.
Qed.
Lemma land_1 x : Z.land x 1 = x mod 2.
Proof. change 1 with (2 ^ 1 - 1) at 1. apply land_ones_mod. lia. Qed.
Lemma land_not1 x : 0 <= x < 2 ^ 32 -> Z.land x (2 ^ 32 - 1 - 1) = 2 * (x / 2).
Proof.
  intro H. apply Z.bits_inj'. intros n Hn. rewrite Z.land_spec. destruct (Z.eq_dec n 0) as [->|].
  - rewrite Z.testbit_even_0. apply andb_false_r.
  - replace n with (Z.succ (n - 1)) at 2 3 by lia. rewrite Z.testbit_even_succ by lia.
    rewrite <- Z.div2_div, Z.div2_spec, Z.shiftr_spec by lia. replace (n - 1 + 1) with n by lia.
    change (2 ^ 32 - 1 - 1) with (2 * Z.ones 31). rewrite Z.testbit_even_succ by lia.
    destruct (Z.ltb_spec n 32).
    + rewrite Z.ones_spec_low by lia. apply andb_true_r.
    + rewrite Z.ones_spec_high by lia. rewrite andb_false_r. symmetry.
      rewrite <- (Z.mod_small x (2 ^ 32)) by lia. apply Z.mod_pow2_bits_high. lia.
Qed.
Lemma shiftl1_bound k w : 0 <= k < w -> 0 <= Z.shiftl 1 k < 2 ^ w.
Proof. intro. rewrite Z.shiftl_1_l. split; [apply Z.pow_nonneg; lia|apply Z.pow_lt_mono_r; lia]. Qed.
Lemma testbit_shiftl1 k : 0 <= k -> Z.testbit (Z.shiftl 1 k) k = true.
Proof. intro. rewrite Z.shiftl_1_l. apply Z.pow2_bits_true. assumption. Qed.

(** List facts *)
Lemma zget_split {A} (l : list A) i x : zget l i = Some x -> exists a b, l = a ++ x :: b /\ zlen a = i.
Proof.
  intro H. pose proof (zget_Some_lt _ _ _ H). exists (ztake i l), (zdrop (i + 1) l). split; [|rewrite zlen_ztake; lia].
  rewrite <- (ztake_zdrop i l) at 1. f_equal.
  replace (i + 1) with (1 + i) by lia. rewrite <- zdrop_zdrop by lia.
  assert (E : zget (zdrop i l) 0 = Some x) by (rewrite zget_zdrop by lia; rewrite Z.add_0_r; assumption).
  destruct (zdrop i l) as [|y m]; [discriminate|]. rewrite zget_0 in E. inversion E; subst. reflexivity.
Qed.
Lemma zdrop_cons {A} (l : list A) i x : zget l i = Some x -> zdrop i l = x :: zdrop (i + 1) l.
Proof.
  intro H. apply zget_split in H as (a & b & -> & <-). rewrite zdrop_app. change (x :: b) with ([x] ++ b).
  rewrite app_assoc. rewrite zdrop_app_eq; [reflexivity|]. rewrite zlen_app. reflexivity.
Qed.
Lemma get_from_eq {A} (l : list A) o : get_from l o = if (0 <=? o) && (o <=? zlen l) then Some (zdrop o l) else None.
Proof. reflexivity. Qed.
Lemma rr_read_at_app a b c o n : o = zlen a -> n = zlen b -> zlen a + zlen b < 2 ^ 64 -> rr_read_at (a ++ b ++ c) o n = Ok b.
Proof. intros. unfold rr_read_at. rewrite rr_read_app by assumption. reflexivity. Qed.
Lemma rr_read_at_no_panic data off size : rr_read_at data off size <> Panic.
Proof. apply rr_read_no_panic. Qed.
Lemma zlen_seqZ n : zlen (seqZ n) = Z.of_nat n.
Proof. unfold zlen, seqZ. rewrite map_length, seq_length. reflexivity. Qed.
Lemma zget_seqZ n i : 0 <= i < Z.of_nat n -> zget (seqZ n) i = Some i.
Proof.
  intro H. unfold zget. rewrite zlen_seqZ.
  destruct (Z.leb_spec 0 i); [|lia]. destruct (Z.ltb_spec i (Z.of_nat n)); [|lia]. cbn [andb].
  unfold seqZ. rewrite nth_error_map.
  rewrite nth_error_nth' with (d := 0%nat) by (rewrite seq_length; lia). rewrite seq_nth by lia. cbn [option_map]. f_equal. lia.
Qed.

(** Closed forms of the random-access [Bytes] methods. *)
Lemma b_read_bytes_at_eq s o n : 0 <= o -> 0 <= n ->
  b_read_bytes_at s o n = if o + n <=? zlen s then Ok (zslice o n s) else Err.
Proof.
  intros Ho Hn. unfold b_read_bytes_at. destruct (b_skip s o) as [r s'] eqn:E. apply b_skip_spec in E as [(-> & H & ->)|(-> & H & ->)].
  - destruct (b_read_bytes (zdrop o s) n) as [r s'] eqn:E.
    unfold b_read_bytes, get_to, get_from in E. rewrite zlen_zdrop in E by lia.
    destruct (Z.leb_spec 0 n); [|lia]. cbn [andb] in E. destruct (Z.leb_spec n (zlen s - o)), (Z.leb_spec (o + n) (zlen s)); try lia;
      inversion E; subst; reflexivity.
  - destruct (Z.leb_spec (o + n) (zlen s)); [lia|reflexivity].
Qed.
Lemma b_read_at_eq s o n : 0 <= o -> 0 <= n -> b_read_at s o n = if o + n <=? zlen s then Ok (zslice o n s) else Err.
Proof.
  intros Ho Hn. unfold b_read_at. destruct (b_skip s o) as [r s'] eqn:E. apply b_skip_spec in E as [(-> & H & ->)|(-> & H & ->)].
  - unfold b_read, from_bytes, get_from. rewrite zlen_zdrop by lia. destruct (Z.leb_spec 0 n); [|lia]. cbn [andb].
    destruct (Z.leb_spec n (zlen s - o)), (Z.leb_spec (o + n) (zlen s)); try lia; reflexivity.
  - destruct (Z.leb_spec (o + n) (zlen s)); [lia|reflexivity].
Qed.
Lemma b_skip_eq s o : 0 <= o -> b_skip s o = if o <=? zlen s then (Ok tt, zdrop o s) else (Err, []).
Proof.
  intro Ho. unfold b_skip, get_from. destruct (Z.leb_spec 0 o); [|lia]. cbn [andb]. destruct (Z.leb_spec o (zlen s)); reflexivity.
Qed.
Lemma b_read_bytes_at_mid a b c s o n : s = a ++ b ++ c -> o = zlen a -> n = zlen b -> b_read_bytes_at s o n = Ok b.
Proof.
  intros -> -> ->. pose proof (zlen_nonneg a). pose proof (zlen_nonneg b). pose proof (zlen_nonneg c).
  rewrite b_read_bytes_at_eq, !zlen_app by lia. destruct (Z.leb_spec (zlen a + zlen b) (zlen a + (zlen b + zlen c))); [|lia].
  rewrite zslice_app_eq; reflexivity.
Qed.
Lemma b_read_at_mid a b c s o n : s = a ++ b ++ c -> o = zlen a -> n = zlen b -> b_read_at s o n = Ok b.
Proof.
  intros -> -> ->. pose proof (zlen_nonneg a). pose proof (zlen_nonneg b). pose proof (zlen_nonneg c).
  rewrite b_read_at_eq, !zlen_app by lia. destruct (Z.leb_spec (zlen a + zlen b) (zlen a + (zlen b + zlen c))); [|lia].
  rewrite zslice_app_eq; reflexivity.
Qed.
Lemma zdrop_zslice {A} (l : list A) a n : 0 <= a -> 0 <= n -> zdrop a l = zslice a n l ++ zdrop (a + n) l.
Proof.
  intros Ha Hn. unfold zslice. rewrite <- (ztake_zdrop n (zdrop a l)) at 1. f_equal. rewrite zdrop_zdrop by lia. f_equal. lia.
Qed.
Lemma zslice_0_drop {A} (l : list A) n : l = zslice 0 n l ++ zdrop n l.
Proof. unfold zslice. rewrite zdrop_0. symmetry. apply ztake_zdrop. Qed.
Lemma fld_bound e o n b : bytes_ok b -> 0 <= o -> 0 <= n -> 0 <= fld e o n b < 2 ^ (8 * n).
Proof.
  intros Hb Ho Hn. unfold fld. pose proof (read_u_bound e (zslice o n b) (bytes_ok_zslice o n b Hb)) as H.
  assert (0 <= zlen (zslice o n b) <= n).
  { split; [apply zlen_nonneg|]. unfold zslice. rewrite zlen_ztake_min by lia. lia. }
  assert (2 ^ (8 * zlen (zslice o n b)) <= 2 ^ (8 * n)) by (apply Z.pow_le_mono_r; lia). lia.
Qed.
Lemma write_read_n e n b : bytes_ok b -> zlen b = Z.of_nat n -> write_u e n (read_u e b) = b.
Proof. intros Hb Hl. rewrite <- (write_read_u e b Hb) at 2. f_equal. unfold zlen in Hl. lia. Qed.
