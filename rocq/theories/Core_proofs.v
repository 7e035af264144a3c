From Verif Require Import Core_model Core_spec.

Ltac zify_div := Z.div_mod_to_equations; lia.

(** * Endian *)
Lemma length_le_bytes n v : length (le_bytes n v) = n.
Proof. revert v; induction n; intro; cbn; [reflexivity|f_equal; apply IHn]. Qed.
Lemma length_be_bytes n v : length (be_bytes n v) = n.
Proof. unfold be_bytes; rewrite rev_length; apply length_le_bytes. Qed.
Lemma length_write_u e n v : length (write_u e n v) = n.
Proof. unfold write_u; destruct (is_big e); [apply length_be_bytes|apply length_le_bytes]. Qed.
Lemma zlen_write_u e n v : zlen (write_u e n v) = Z.of_nat n.
Proof. unfold zlen; rewrite length_write_u; reflexivity. Qed.

Lemma bytes_ok_le_bytes n v : bytes_ok (le_bytes n v).
Proof.
  revert v; induction n; intro; cbn; constructor; [apply mod_byte|apply IHn].
Qed.
Lemma bytes_ok_write_u e n v : bytes_ok (write_u e n v).
Proof.
  unfold write_u, be_bytes; destruct (is_big e); [apply Forall_rev|]; apply bytes_ok_le_bytes.
Qed.

Lemma pow256_S n : 256 ^ Z.of_nat (S n) = 256 * 256 ^ Z.of_nat n.
Proof. rewrite Nat2Z.inj_succ, Z.pow_succ_r by lia. reflexivity. Qed.

Lemma le_val_le_bytes n v : le_val (le_bytes n v) = v mod 256 ^ Z.of_nat n.
Proof.
  revert v; induction n as [|n IH]; intro v; cbn [le_bytes le_val].
  - cbn. rewrite Z.mod_1_r. reflexivity.
  - rewrite IH, pow256_S.
    assert (0 < 256 ^ Z.of_nat n) by (apply Z.pow_pos_nonneg; lia).
    rewrite Z.rem_mul_r by lia. reflexivity.
Qed.

Lemma le_val_bound l : bytes_ok l -> 0 <= le_val l < 256 ^ zlen l.
Proof.
  induction 1 as [|b l Hb Hl IH]; [cbn; lia|].
  rewrite zlen_cons. replace (1 + zlen l) with (Z.succ (zlen l)) by lia.
  rewrite Z.pow_succ_r by apply zlen_nonneg. cbn [le_val]. unfold byte_ok in Hb. nia.
Qed.

Lemma le_bytes_le_val l : bytes_ok l -> le_bytes (length l) (le_val l) = l.
Proof.
  induction 1 as [|b l Hb Hl IH]; [reflexivity|].
  cbn [length le_bytes le_val]. unfold byte_ok in Hb.
  replace (b + 256 * le_val l) with (b + le_val l * 256) by lia.
  rewrite Z.mod_add, Z.div_add by lia. rewrite Z.mod_small, Z.div_small by lia.
  rewrite Z.add_0_l, IH. reflexivity.
Qed.

Lemma pow256 n : 256 ^ n = 2 ^ (8 * n).
Proof. destruct (Z.le_gt_cases 0 n). - rewrite Z.pow_mul_r by lia. reflexivity. - rewrite !Z.pow_neg_r by lia. reflexivity. Qed.

Lemma read_write_u e n v : read_u e (write_u e n v) = v mod 2 ^ (8 * Z.of_nat n).
Proof.
  unfold read_u, write_u, be_val, be_bytes.
  destruct (is_big e); rewrite ?rev_involutive, le_val_le_bytes, pow256; reflexivity.
Qed.
Lemma read_write_u_small e n v : 0 <= v < 2 ^ (8 * Z.of_nat n) -> read_u e (write_u e n v) = v.
Proof. intro. rewrite read_write_u. apply Z.mod_small. assumption. Qed.
Lemma write_read_u e l : bytes_ok l -> write_u e (length l) (read_u e l) = l.
Proof.
  intro H. unfold read_u, write_u, be_val, be_bytes. destruct (is_big e).
  - rewrite <- (rev_length l). rewrite le_bytes_le_val by (apply Forall_rev; assumption).
    apply rev_involutive.
  - apply le_bytes_le_val; assumption.
Qed.
Lemma read_u_bound e l : bytes_ok l -> 0 <= read_u e l < 2 ^ (8 * zlen l).
Proof.
  intro H. rewrite <- pow256. unfold read_u, be_val. destruct (is_big e).
  - rewrite <- (zlen_rev l). apply le_val_bound. apply Forall_rev; assumption.
  - apply le_val_bound; assumption.
Qed.

Lemma wrap_s_wrap_u n v : 0 < n -> - 2 ^ (n - 1) <= v < 2 ^ (n - 1) -> wrap_s n (wrap_u n v) = v.
Proof.
  intros Hn Hv. unfold wrap_s, wrap_u.
  assert (2 ^ n = 2 * 2 ^ (n - 1)) by (rewrite <- Z.pow_succ_r by lia; f_equal; lia).
  rewrite Z.add_mod_idemp_l by lia. rewrite Z.mod_small by lia. lia.
Qed.
Lemma wrap_u_wrap_s n v : 0 < n -> 0 <= v < 2 ^ n -> wrap_u n (wrap_s n v) = v.
Proof.
  intros Hn Hv. unfold wrap_s, wrap_u.
  rewrite Zminus_mod_idemp_l. replace (v + 2 ^ (n - 1) - 2 ^ (n - 1)) with v by lia.
  apply Z.mod_small; lia.
Qed.
Lemma wrap_s_bound n v : 0 < n -> - 2 ^ (n - 1) <= wrap_s n v < 2 ^ (n - 1).
Proof.
  intros Hn. unfold wrap_s.
  assert (2 ^ n = 2 * 2 ^ (n - 1)) by (rewrite <- Z.pow_succ_r by lia; f_equal; lia).
  assert (0 < 2 ^ (n - 1)) by (apply Z.pow_pos_nonneg; lia).
  pose proof (Z.mod_pos_bound (v + 2 ^ (n - 1)) (2 ^ n)). lia.
Qed.
Lemma read_write_i e n v : (0 < n)%nat ->
  - 2 ^ (8 * Z.of_nat n - 1) <= v < 2 ^ (8 * Z.of_nat n - 1) -> read_i e (write_i e n v) = v.
Proof.
  intros Hn Hv. unfold read_i, write_i. rewrite zlen_write_u, read_write_u_small.
  - apply wrap_s_wrap_u; lia.
  - unfold wrap_u. apply Z.mod_pos_bound. apply Z.pow_pos_nonneg; lia.
Qed.
Lemma write_read_i e l : (0 < length l)%nat -> bytes_ok l -> write_i e (length l) (read_i e l) = l.
Proof.
  intros Hn H. unfold read_i, write_i.
  change (Z.of_nat (length l)) with (zlen l). rewrite wrap_u_wrap_s.
  - apply write_read_u; assumption.
  - unfold zlen; lia.
  - apply read_u_bound; assumption.
Qed.

(** positional meaning *)
Fixpoint zsum (l : list Z) : Z := match l with [] => 0 | x :: l => x + zsum l end.
Lemma le_val_app a b : le_val (a ++ b) = le_val a + 256 ^ zlen a * le_val b.
Proof.
  induction a as [|x a IH]; [cbn [app le_val]; change (256 ^ zlen []) with 1; lia|].
  cbn [app le_val]. rewrite IH, zlen_cons. replace (1 + zlen a) with (Z.succ (zlen a)) by lia.
  rewrite Z.pow_succ_r by apply zlen_nonneg. lia.
Qed.
Lemma be_val_cons b l : be_val (b :: l) = b * 256 ^ zlen l + be_val l.
Proof.
  unfold be_val. cbn [rev]. rewrite le_val_app, zlen_rev. cbn [le_val]. lia.
Qed.

(** * Align *)
Lemma land_high_mask b k x : 0 <= k <= b -> 0 <= x < 2 ^ b ->
  Z.land x (2 ^ b - 2 ^ k) = x - x mod 2 ^ k.
Proof.
  intros Hk Hx.
  replace (2 ^ b - 2 ^ k) with (Z.shiftl (Z.ones (b - k)) k).
  2: { rewrite Z.shiftl_mul_pow2 by lia. rewrite Z.ones_equiv.
       replace b with (b - k + k) at 2 by lia. rewrite Z.pow_add_r by lia. lia. }
  transitivity (Z.shiftl (Z.shiftr x k) k).
  - apply Z.bits_inj'. intros n Hn. rewrite Z.land_spec, !Z.shiftl_spec by lia.
    destruct (Z.lt_ge_cases n k).
    + rewrite (Z.testbit_neg_r _ (n - k)) by lia. rewrite (Z.testbit_neg_r (Z.shiftr x k)) by lia.
      apply andb_false_r.
    + rewrite Z.shiftr_spec by lia. replace (n - k + k) with n by lia.
      destruct (Z.lt_ge_cases n b).
      * rewrite Z.ones_spec_low by lia. apply andb_true_r.
      * rewrite <- (Z.mod_small x (2 ^ b)) by lia. rewrite Z.mod_pow2_bits_high by lia. reflexivity.
  - rewrite Z.shiftl_mul_pow2, Z.shiftr_div_pow2 by lia.
    assert (0 < 2 ^ k) by (apply Z.pow_pos_nonneg; lia).
    pose proof (Z.div_mod x (2 ^ k)). lia.
Qed.

Lemma align_eq bits k offset : 0 <= k <= bits -> 0 <= offset ->
  align bits offset (2 ^ k) =
    if offset <=? 2 ^ bits - 2 ^ k
    then Ok (offset + (2 ^ k - 1) - (offset + (2 ^ k - 1)) mod 2 ^ k) else Panic.
Proof.
  intros Hk Ho. unfold align, psub, padd.
  assert (0 < 2 ^ k) by (apply Z.pow_pos_nonneg; lia).
  destruct (Z.leb_spec 1 (2 ^ k)); [cbn [bind]|lia].
  destruct (Z.ltb_spec (offset + (2 ^ k - 1)) (2 ^ bits)), (Z.leb_spec offset (2 ^ bits - 2 ^ k));
    try lia; [cbn [bind]|reflexivity].
  replace (2 ^ bits - 1 - (2 ^ k - 1)) with (2 ^ bits - 2 ^ k) by lia.
  rewrite land_high_mask by lia. reflexivity.
Qed.

(** [align_up] : a convenient closed form *)
Definition align_up (o s : Z) : Z := (o + (s - 1)) / s * s.
Lemma align_up_spec o s : 0 < s -> (s | align_up o s) /\ o <= align_up o s < o + s.
Proof.
  intro Hs. unfold align_up. split; [apply Z.divide_factor_r|].
  pose proof (Z.div_mod (o + (s - 1)) s). pose proof (Z.mod_pos_bound (o + (s - 1)) s). lia.
Qed.
Lemma align_Ok bits k offset : 0 <= k <= bits -> 0 <= offset <= 2 ^ bits - 2 ^ k ->
  align bits offset (2 ^ k) = Ok (align_up offset (2 ^ k)).
Proof.
  intros Hk Ho. rewrite align_eq by lia. destruct (Z.leb_spec offset (2 ^ bits - 2 ^ k)); [|lia].
  assert (0 < 2 ^ k) by (apply Z.pow_pos_nonneg; lia). f_equal. unfold align_up.
  pose proof (Z.div_mod (offset + (2 ^ k - 1)) (2 ^ k)). lia.
Qed.
Lemma align_up_unique o s x : 0 < s -> (s | x) -> o <= x < o + s -> x = align_up o s.
Proof.
  intros Hs Hd Hx. destruct (align_up_spec o s Hs) as [Hd2 Hx2].
  destruct Hd as [a ->], Hd2 as [b Hb]. rewrite Hb in *. assert (a = b) by nia. lia.
Qed.

(** * ReadRef *)
Lemma rr_read_bytes_at_Ok data off size b :
  0 <= off -> 0 <= size ->
  rr_read_bytes_at data off size = Ok b <->
  (size = 0 /\ b = []) \/ (0 < size /\ off + size <= zlen data /\ b = zslice off size data).
Proof.
  intros Ho Hs. unfold rr_read_bytes_at. destruct (Z.eqb_spec size 0).
  - split; [intro H; inversion H; auto|intros [[_ ->]|[? _]]; [reflexivity|lia]].
  - unfold get_from. destruct ((0 <=? off) && (off <=? zlen data)) eqn:E; cbn [of_opt bind].
    + unfold get_to. rewrite zlen_zdrop by lia.
      destruct ((0 <=? size) && (size <=? zlen data - off)) eqn:E2; cbn [of_opt].
      * split; [intro H; inversion H; right; repeat split; lia|].
        intros [[? _]|(_ & _ & ->)]; [lia|reflexivity].
      * split; [discriminate|]. intros [[? _]|(_ & ? & _)]; lia.
    + split; [discriminate|]. intros [[? _]|(_ & ? & _)]; lia.
Qed.
Lemma rr_read_bytes_at_no_panic data off size : rr_read_bytes_at data off size <> Panic.
Proof.
  unfold rr_read_bytes_at. destruct (size =? 0); [discriminate|].
  destruct (get_from data off); cbn [of_opt bind]; [|discriminate].
  destruct (get_to l size); discriminate.
Qed.
Lemma rr_read_bytes_at_app a b c o n :
  o = zlen a -> n = zlen b -> rr_read_bytes_at (a ++ b ++ c) o n = Ok b.
Proof.
  intros -> ->. apply rr_read_bytes_at_Ok; try apply zlen_nonneg.
  pose proof (zlen_nonneg b). pose proof (zlen_nonneg c).
  destruct (Z.eq_dec (zlen b) 0); [left; split; [assumption|apply zlen_0_nil; assumption]|right].
  rewrite !zlen_app. repeat split; try lia. rewrite zslice_app_eq; reflexivity.
Qed.

Lemma rr_until_Ok data start fin d b :
  0 <= start -> 
  rr_read_bytes_at_until data start fin d = Ok b <->
  start <= fin <= zlen data /\ start + zlen b < fin /\
  b = zslice start (zlen b) data /\ zget data (start + zlen b) = Some d /\ ~ In d b.
Proof.
  intros Hs. unfold rr_read_bytes_at_until, get_range.
  destruct ((0 <=? start) && (start <=? fin) && (fin <=? zlen data)) eqn:E; cbn [of_opt bind].
  2: { split; [discriminate|]. intros (? & _). lia. }
  assert (Hl: zlen (zslice start (fin - start) data) = fin - start) by (rewrite zlen_zslice; lia).
  assert (Htk: forall i, 0 <= i <= fin - start ->
      ztake i (zslice start (fin - start) data) = zslice start i data).
  { intros i Hi. unfold zslice, ztake. rewrite firstn_firstn. f_equal. lia. }
  assert (Hget: forall i, 0 <= i < fin - start ->
      zget (zslice start (fin - start) data) i = zget data (start + i)).
  { intros i Hi. unfold zslice. rewrite zget_ztake by lia. rewrite zget_zdrop by lia. reflexivity. }
  destruct (memchr d _) as [n|] eqn:Em.
  - apply memchr_Some in Em as (Hn & Hg & Hni). rewrite Hl in Hn. rewrite Hget in Hg by lia.
    rewrite Htk in Hni by lia.
    unfold get_to. rewrite Hl. destruct ((0 <=? n) && (n <=? fin - start)) eqn:E2; [|lia].
    cbn [of_opt]. rewrite Htk by lia.
    split.
    + intro H; inversion H; subst b. rewrite zlen_zslice by lia. repeat split; try lia; assumption.
    + intros (_ & Hlt & Hb & Hgb & Hnb). f_equal.
      pose proof (zlen_nonneg b) as Hbn. assert (n = zlen b); [|congruence].
      destruct (Z.lt_trichotomy n (zlen b)) as [Hc|[Hc|Hc]]; [|assumption|].
      * exfalso. apply Hnb. apply (zget_In _ n). rewrite Hb. unfold zslice.
        rewrite zget_ztake, zget_zdrop by lia. assumption.
      * exfalso. apply Hni. apply (zget_In _ (zlen b)). unfold zslice.
        rewrite zget_ztake, zget_zdrop by lia. assumption.
  - split; [discriminate|]. intros (_ & Hlt & Hb & Hgb & Hnb).
    apply memchr_None in Em. exfalso. apply Em. pose proof (zlen_nonneg b).
    apply (zget_In _ (zlen b)). rewrite Hget by lia. assumption.
Qed.
Lemma rr_until_no_panic data start fin d : rr_read_bytes_at_until data start fin d <> Panic.
Proof.
  unfold rr_read_bytes_at_until. destruct (get_range data start fin); cbn [of_opt bind]; [|discriminate].
  destruct (memchr d l); [|discriminate]. destruct (get_to l z); discriminate.
Qed.
Lemma rr_until_app a b c d start fin :
  start = zlen a -> zlen a + zlen b < fin <= zlen (a ++ b ++ d :: c) -> ~ In d b ->
  rr_read_bytes_at_until (a ++ b ++ d :: c) start fin d = Ok b.
Proof.
  intros -> Hf Hn. pose proof (zlen_nonneg a). pose proof (zlen_nonneg b).
  apply rr_until_Ok; [lia|]. repeat split; try lia; try assumption.
  - rewrite zslice_app_eq; reflexivity.
  - rewrite zget_app2 by lia. replace (zlen a + zlen b - zlen a) with (zlen b) by lia.
    rewrite zget_app2 by lia. rewrite Z.sub_diag. apply zget_0.
Qed.

(** * Bytes cursor *)
Lemma b_skip_spec s n r s' : b_skip s n = (r, s') ->
  (r = Ok tt /\ 0 <= n <= zlen s /\ s' = zdrop n s) \/ (r = Err /\ ~ (0 <= n <= zlen s) /\ s' = []).
Proof.
  unfold b_skip, get_from. destruct ((0 <=? n) && (n <=? zlen s)) eqn:E; intro H; inversion H; subst;
    [left|right]; repeat split; lia.
Qed.
Lemma b_read_bytes_spec s n r s' : b_read_bytes s n = (r, s') ->
  (exists b, r = Ok b /\ 0 <= n <= zlen s /\ zlen b = n /\ s = b ++ s') \/
  (r = Err /\ ~ (0 <= n <= zlen s) /\ s' = []).
Proof.
  unfold b_read_bytes, get_from, get_to.
  destruct ((0 <=? n) && (n <=? zlen s)) eqn:E; intro H; inversion H; subst; [left|right].
  - exists (ztake n s). repeat split; try lia; [rewrite zlen_ztake; lia|symmetry; apply ztake_zdrop].
  - repeat split; lia.
Qed.
Lemma b_read_spec s n r s' : b_read s n = (r, s') ->
  (exists b, r = Ok b /\ 0 <= n <= zlen s /\ zlen b = n /\ s = b ++ s') \/
  (r = Err /\ ~ (0 <= n <= zlen s) /\ s' = []).
Proof.
  unfold b_read, from_bytes, get_from.
  destruct ((0 <=? n) && (n <=? zlen s)) eqn:E; cbn [of_opt bind]; intro H; inversion H; subst; [left|right].
  - exists (ztake n s). repeat split; try lia; [rewrite zlen_ztake; lia|symmetry; apply ztake_zdrop].
  - repeat split; lia.
Qed.
Lemma b_read_app a b n : n = zlen a -> b_read (a ++ b) n = (Ok a, b).
Proof.
  intros ->. unfold b_read, from_bytes. rewrite get_from_app by reflexivity. cbn [of_opt bind].
  rewrite ztake_app. reflexivity.
Qed.
Lemma b_read_bytes_app a b n : n = zlen a -> b_read_bytes (a ++ b) n = (Ok a, b).
Proof.
  intros ->. unfold b_read_bytes. rewrite get_from_app, get_to_app by reflexivity. reflexivity.
Qed.
Lemma b_skip_app a b n : n = zlen a -> b_skip (a ++ b) n = (Ok tt, b).
Proof. intros ->. unfold b_skip. rewrite get_from_app by reflexivity. reflexivity. Qed.

Lemma chunks_concat size n l : 0 <= size -> Z.of_nat n * size <= zlen l ->
  concat (chunks size n l) = ztake (Z.of_nat n * size) l /\
  Forall (fun c => zlen c = size) (chunks size n l) /\ length (chunks size n l) = n.
Proof.
  intro Hs. revert l; induction n as [|n IH]; intros l Hl; cbn [chunks concat].
  - cbn. repeat split; constructor.
  - assert (size <= zlen l) by nia.
    destruct (IH (zdrop size l)) as (Hc & Hf & Hlen).
    { rewrite zlen_zdrop by lia. lia. }
    rewrite Hc. repeat split; [|constructor; [rewrite zlen_ztake; lia|assumption]|cbn; congruence].
    transitivity (ztake (Z.of_nat (S n) * size) (ztake size l ++ zdrop size l));
      [|f_equal; apply ztake_zdrop].
    rewrite ztake_app_ge by (rewrite zlen_ztake; nia). do 2 f_equal. rewrite zlen_ztake; lia.
Qed.
Lemma chunks_app size n cs rest : 
  Forall (fun c => zlen c = size) cs -> n = length cs -> chunks size n (concat cs ++ rest) = cs.
Proof.
  intros H ->. induction H as [|c cs Hc Hcs IH]; [reflexivity|].
  cbn [concat length chunks]. rewrite <- app_assoc.
  rewrite ztake_app_eq, zdrop_app_eq by auto. congruence.
Qed.
Lemma zlen_concat_const size (cs : list bytes) :
  Forall (fun c => zlen c = size) cs -> zlen (concat cs) = zlen cs * size.
Proof.
  induction 1 as [|c cs Hc Hcs IH]; [reflexivity|]. cbn [concat].
  rewrite zlen_app, zlen_cons, IH, Hc. lia.
Qed.

Lemma b_read_slice_spec s size count r s' : 0 <= size -> 0 <= count ->
  b_read_slice s size count = (r, s') ->
  (exists cs, r = Ok cs /\ zlen cs = count /\ Forall (fun c => zlen c = size) cs /\ s = concat cs ++ s') \/
  (r = Err /\ (zlen s < count * size \/ 2 ^ 64 <= count * size) /\ s' = []).
Proof.
  intros Hs Hc. unfold b_read_slice, slice_from_bytes, cmul.
  destruct (Z.ltb_spec (count * size) (2 ^ 64)); cbn [of_opt bind].
  2: { intro H0; inversion H0; subst. right. repeat split. right; assumption. }
  unfold get_from. destruct ((0 <=? count * size) && (count * size <=? zlen s)) eqn:E; cbn [of_opt bind].
  - intro H0; inversion H0; subst. left.
    destruct (chunks_concat size (Z.to_nat count) s) as (Hcc & Hf & Hl); [lia|nia|].
    eexists; split; [reflexivity|]. split; [unfold zlen; lia|]. split; [assumption|].
    rewrite Hcc. replace (Z.of_nat (Z.to_nat count) * size) with (count * size) by nia.
    symmetry; apply ztake_zdrop.
  - intro H0; inversion H0; subst. right. repeat split. left. nia.
Qed.
Lemma b_read_slice_app size count cs rest :
  0 <= size -> Forall (fun c => zlen c = size) cs -> count = zlen cs -> zlen cs * size < 2 ^ 64 ->
  b_read_slice (concat cs ++ rest) size count = (Ok cs, rest).
Proof.
  intros Hs Hf -> Hlt. unfold b_read_slice, slice_from_bytes, cmul.
  destruct (Z.ltb_spec (zlen cs * size) (2 ^ 64)); [|lia]. cbn [of_opt bind].
  rewrite get_from_app by (symmetry; apply zlen_concat_const; assumption). cbn [of_opt bind].
  rewrite chunks_app; [reflexivity|assumption|unfold zlen; lia].
Qed.

Lemma b_read_string_spec s r s' : b_read_string s = (r, s') ->
  (exists b, r = Ok b /\ s = b ++ 0 :: s' /\ ~ In 0 b) \/ (r = Err /\ ~ In 0 s /\ s' = []).
Proof.
  unfold b_read_string. destruct (memchr 0 s) as [n|] eqn:E.
  - apply memchr_Some in E as (Hn & Hg & Hni).
    unfold b_read_bytes, get_to, get_from.
    destruct ((0 <=? n) && (n <=? zlen s)) eqn:E2; [|lia].
    unfold b_skip, get_from. rewrite zlen_zdrop by lia.
    destruct ((0 <=? 1) && (1 <=? zlen s - n)) eqn:E3; [|lia].
    intro H; inversion H; subst. left. exists (ztake n s). repeat split; [|assumption].
    rewrite zdrop_zdrop by lia.
    rewrite <- (ztake_zdrop n s) at 1. f_equal.
    assert (zget (zdrop n s) 0 = Some 0) as Hz by (rewrite zget_zdrop by lia; rewrite Z.add_0_r; assumption).
    destruct (zdrop n s) as [|x t] eqn:Ed; [discriminate|]. rewrite zget_0 in Hz. inversion Hz; subst. f_equal.
    replace (1 + n) with (1 + n) by lia. rewrite <- zdrop_zdrop by lia. rewrite Ed. reflexivity.
  - intro H; inversion H; subst. right. repeat split. apply memchr_None; assumption.
Qed.
Lemma b_read_string_app a b : ~ In 0 a -> b_read_string (a ++ 0 :: b) = (Ok a, b).
Proof.
  intro H. unfold b_read_string. rewrite memchr_app by assumption.
  rewrite b_read_bytes_app by reflexivity. change (0 :: b) with ([0] ++ b).
  rewrite b_skip_app by reflexivity. reflexivity.
Qed.

(** * LEB128 *)
Lemma land127 b : byte_ok b -> Z.land b 127 = b mod 128.
Proof. intro. change 127 with (2 ^ 7 - 1). rewrite land_ones_mod by lia. reflexivity. Qed.
Lemma land128 b : byte_ok b -> (Z.land b 128 =? 0) = (b <? 128).
Proof.
  intro H. unfold byte_ok in H.
  assert (forallb (fun n => Bool.eqb (Z.land (Z.of_nat n) 128 =? 0) (Z.of_nat n <? 128)) (seq 0 256) = true) as Hc by (vm_compute; reflexivity).
  rewrite forallb_forall in Hc. specialize (Hc (Z.to_nat b)).
  rewrite Z2Nat.id in Hc by lia. apply eqb_prop. apply Hc. apply in_seq. lia.
Qed.
Lemma land64 b : byte_ok b -> b < 128 -> (Z.land b 64 =? 0) = (b <? 64).
Proof.
  intros H H2. unfold byte_ok in H.
  assert (forallb (fun n => Bool.eqb (Z.land (Z.of_nat n) 64 =? 0) (Z.of_nat n <? 64)) (seq 0 128) = true) as Hc by (vm_compute; reflexivity).
  rewrite forallb_forall in Hc. specialize (Hc (Z.to_nat b)).
  rewrite Z2Nat.id in Hc by lia. apply eqb_prop. apply Hc. apply in_seq. lia.
Qed.

Lemma uleb_denotes_nonneg l v : uleb_denotes l v -> 0 <= v.
Proof. induction 1; lia. Qed.
Lemma uleb_denotes_nonnil l v : uleb_denotes l v -> 0 < zlen l.
Proof. destruct 1; rewrite zlen_cons; pose proof (zlen_nonneg (@nil Z)); try pose proof (zlen_nonneg l); lia. Qed.

(** One step of the unsigned accumulation, when it does not overflow. *)
Lemma uleb_step result shift x :
  0 <= shift -> 0 <= result < 2 ^ shift -> 0 <= x -> x * 2 ^ shift < 2 ^ 64 ->
  Z.lor result (wrap_u 64 (Z.shiftl x shift)) = result + x * 2 ^ shift.
Proof.
  intros Hs Hr Hx Hlt. unfold wrap_u. rewrite Z.shiftl_mul_pow2 by lia.
  rewrite Z.mod_small by (assert (0 < 2 ^ shift) by (apply Z.pow_pos_nonneg; lia); nia).
  apply lor_mul_add; lia.
Qed.

Definition uleb_shift_ok (k : Z) := 0 <= k <= 9.

Lemma read_uleb128_loop_spec s : bytes_ok s -> forall k result, uleb_shift_ok k ->
  0 <= result < 2 ^ (7 * k) ->
  match read_uleb128_loop s result (7 * k) with
  | (Ok v, rest) => exists enc w, s = enc ++ rest /\ uleb_denotes enc w /\
        v = result + w * 2 ^ (7 * k) /\ zlen enc <= 10 - k /\ v < 2 ^ 64
  | (Err, rest) => (exists pre, s = pre ++ rest) /\
        forall enc w tl, s = enc ++ tl -> uleb_denotes enc w ->
             10 - k < zlen enc \/ 2 ^ 64 <= result + w * 2 ^ (7 * k)
  | (Panic, _) => False
  end.
Proof.
  induction 1 as [|b s Hb Hs IH]; intros k result Hk Hr; cbn [read_uleb128_loop].
  { split; [exists []; reflexivity|]. intros enc w tl He Hd. destruct enc; [inversion Hd|discriminate]. }
  unfold uleb_shift_ok in Hk. pose proof Hb as Hb'. unfold byte_ok in Hb'.
  assert (Hp: 0 < 2 ^ (7 * k)) by (apply Z.pow_pos_nonneg; lia).
  destruct ((7 * k =? 63) && negb (b =? 0) && negb (b =? 1)) eqn:E.
  { split; [exists [b]; reflexivity|]. assert (k = 9) by lia. subst k. intros enc w tl He Hd.
    change (7 * 9) with 63 in *.
    destruct Hd as [c Hc|c l v Hc Hd]; cbn [app] in He; inversion He; subst; [right; nia|].
    left. rewrite zlen_cons. pose proof (uleb_denotes_nonnil _ _ Hd). lia. }
  destruct (64 <=? 7 * k) eqn:E2; [lia|].
  rewrite land127, land128 by assumption.
  assert (Hfit: (b mod 128) * 2 ^ (7 * k) < 2 ^ 64).
  { assert (2 ^ (7 * k) <= 2 ^ 63) by (apply Z.pow_le_mono_r; lia).
    destruct (Z.eq_dec k 9).
    - subst k. change (7 * 9) with 63 in *. assert (b = 0 \/ b = 1) as [->| ->] by lia; vm_compute; reflexivity.
    - assert (2 ^ (7 * k) <= 2 ^ 56) by (apply Z.pow_le_mono_r; lia).
      pose proof (Z.mod_pos_bound b 128). change (2^64) with (256 * 2 ^ 56). nia. }
  rewrite uleb_step by (try lia; apply Z.mod_pos_bound; lia).
  destruct (Z.ltb_spec b 128).
  - exists [b], b. rewrite Z.mod_small in * by lia. repeat split; try lia.
    + constructor. lia.
    + rewrite zlen_cons, zlen_nil. lia.
    + assert (2 ^ (7 * k) <= 2 ^ 63) by (apply Z.pow_le_mono_r; lia).
      destruct (Z.eq_dec k 9); [subst k; change (7 * 9) with 63 in *; nia|].
      assert (2 ^ (7 * k) <= 2 ^ 56) by (apply Z.pow_le_mono_r; lia). nia.
  - assert (k <> 9) by (intro; subst; lia).
    assert (Hm: b mod 128 = b - 128) by (symmetry; apply (Z.mod_unique _ _ 1); lia).
    rewrite Hm in *.
    specialize (IH (k + 1) (result + (b - 128) * 2 ^ (7 * k))).
    replace (7 * (k + 1)) with (7 * k + 7) in IH by lia.
    assert (Hp7: 2 ^ (7 * k + 7) = 128 * 2 ^ (7 * k)) by (rewrite Z.pow_add_r by lia; lia).
    rewrite Hp7 in IH.
    assert (IHx: _) by (apply IH; [unfold uleb_shift_ok; lia|nia]). clear IH.
    destruct (read_uleb128_loop s _ _) as [[v| |] rest].
    + destruct IHx as (enc & w & He & Hd & Hv & Hl & Hlt).
      exists (b :: enc), (b - 128 + 128 * w). subst s. repeat split; try lia.
      * constructor; [lia|assumption].
      * rewrite zlen_cons. lia.
    + destruct IHx as [[pre Hpre] IHx]. split; [exists (b :: pre); rewrite Hpre; reflexivity|].
      intros enc w tl He Hd.
      destruct Hd as [c Hc|c l v Hc Hd]; cbn [app] in He; injection He as Hbc He2; [lia|].
      subst c. destruct (IHx l v tl He2 Hd); [left; rewrite zlen_cons; lia|right; lia].
    + exact IHx.
Qed.

Lemma uleb_denotes_prefix_unique e1 e2 v1 v2 r1 r2 :
  uleb_denotes e1 v1 -> uleb_denotes e2 v2 -> e1 ++ r1 = e2 ++ r2 -> e1 = e2 /\ v1 = v2 /\ r1 = r2.
Proof.
  intro H. revert e2 v2. induction H as [b Hb|b l v Hb Hd IH]; intros e2 v2 H2 He;
    destruct H2 as [b2 Hb2|b2 l2 v2 Hb2 Hd2]; cbn [app] in He; inversion He; subst; try lia.
  - auto.
  - destruct (IH _ _ Hd2 H1) as (-> & -> & ->). auto.
Qed.

Lemma read_uleb128_iff s v rest : bytes_ok s ->
  read_uleb128 s = (Ok v, rest) <->
  exists enc, s = enc ++ rest /\ uleb_denotes enc v /\ zlen enc <= 10 /\ v < 2 ^ 64.
Proof.
  intro Hs. unfold read_uleb128.
  pose proof (read_uleb128_loop_spec s Hs 0 0) as H. change (7 * 0) with 0 in H.
  assert (H': _) by (apply H; [unfold uleb_shift_ok; lia|lia]). clear H.
  destruct (read_uleb128_loop s 0 0) as [[v'| |] rest'].
  - destruct H' as (enc & w & He & Hd & Hv & Hl & Hlt).
    rewrite Z.pow_0_r, Z.mul_1_r, Z.add_0_l in Hv. subst v'.
    split.
    + intro E; inversion E; subst. exists enc. repeat split; try lia; assumption.
    + intros (enc' & He' & Hd' & Hl' & Hlt'). rewrite He in He'.
      destruct (uleb_denotes_prefix_unique _ _ _ _ _ _ Hd Hd' He') as (-> & -> & ->).
      reflexivity.
  - destruct H' as [_ H']. split; [discriminate|]. intros (enc' & He' & Hd' & Hl' & Hlt').
    destruct (H' _ _ _ He' Hd'); cbn in *; lia.
  - contradiction.
Qed.
Lemma read_uleb128_no_panic s : bytes_ok s -> fst (read_uleb128 s) <> Panic.
Proof.
  intro Hs. unfold read_uleb128.
  pose proof (read_uleb128_loop_spec s Hs 0 0) as H. change (7 * 0) with 0 in H.
  assert (H': _) by (apply H; [unfold uleb_shift_ok; lia|lia]). clear H.
  destruct (read_uleb128_loop s 0 0) as [[v'| |] rest']; cbn; congruence.
Qed.
Lemma read_uleb128_suffix s r rest : bytes_ok s -> read_uleb128 s = (r, rest) -> exists pre, s = pre ++ rest.
Proof.
  intro Hs. unfold read_uleb128.
  pose proof (read_uleb128_loop_spec s Hs 0 0) as H. change (7 * 0) with 0 in H.
  assert (H': _) by (apply H; [unfold uleb_shift_ok; lia|lia]). clear H.
  intro E; rewrite E in H'. destruct r as [v| |].
  - destruct H' as (enc & w & He & _). eauto.
  - destruct H' as [? _]. assumption.
  - contradiction.
Qed.

Lemma write_uleb128_loop_ok n v : (0 < n)%nat -> 0 <= v < 2 ^ (7 * Z.of_nat n) ->
  exists e, write_uleb128_loop n v = Some e /\ uleb_denotes e v /\ zlen e <= Z.of_nat n /\
     (1 < zlen e -> 2 ^ (7 * (zlen e - 1)) <= v).
Proof.
  revert v; induction n as [|n IH]; intros v Hn Hv; [lia|].
  cbn [write_uleb128_loop]. change 127 with (2 ^ 7 - 1). rewrite land_ones_mod by lia.
  rewrite Z.shiftr_div_pow2 by lia. change (2 ^ 7) with 128.
  pose proof (Z.mod_pos_bound v 128 ltac:(lia)). pose proof (Z.div_mod v 128 ltac:(lia)).
  destruct (Z.eqb_spec (v / 128) 0) as [E|E].
  - exists [v mod 128]. repeat split; [|rewrite zlen_cons, zlen_nil; lia|rewrite zlen_cons, zlen_nil; lia].
    replace (v mod 128) with v by lia. constructor. lia.
  - assert (Hd: 0 <= v / 128 < 2 ^ (7 * Z.of_nat n)).
    { split; [apply Z.div_pos; lia|]. apply Z.div_lt_upper_bound; [lia|].
      replace (128 * 2 ^ (7 * Z.of_nat n)) with (2 ^ (7 * Z.of_nat (S n))); [lia|].
      replace (7 * Z.of_nat (S n)) with (7 + 7 * Z.of_nat n) by lia. rewrite Z.pow_add_r by lia. reflexivity. }
    assert (0 < n)%nat. { destruct n; [cbn in Hd; lia|lia]. }
    destruct (IH (v / 128)) as (e & He & Hde & Hle & Hmin); [assumption|assumption|].
    rewrite He. exists (Z.lor (v mod 128) 128 :: e).
    assert (Hor: Z.lor (v mod 128) 128 = v mod 128 + 128).
    { change 128 with (1 * 2 ^ 7) at 2 4. apply lor_mul_add; [lia|]. change (2^7) with 128; lia. }
    rewrite Hor. repeat split.
    + replace v with (v mod 128 + 128 - 128 + 128 * (v / 128)) at 2 by lia.
      constructor; [lia|assumption].
    + rewrite zlen_cons. lia.
    + intros _. rewrite zlen_cons. replace (1 + zlen e - 1) with (zlen e) by lia.
      destruct (Z.le_gt_cases (zlen e) 1).
      * pose proof (uleb_denotes_nonnil _ _ Hde). assert (zlen e = 1) as -> by lia. change (2 ^ (7 * 1)) with 128.
        lia.
      * assert (2 ^ (7 * (zlen e - 1)) <= v / 128) by (apply Hmin; lia).
        replace (7 * zlen e) with (7 * (zlen e - 1) + 7) by lia. rewrite Z.pow_add_r by lia.
        change (2 ^ 7) with 128. nia.
Qed.

Lemma sleb_denotes_nonnil l v : sleb_denotes l v -> 0 < zlen l.
Proof. destruct 1; rewrite zlen_cons; pose proof (zlen_nonneg (@nil Z)); try pose proof (zlen_nonneg l); lia. Qed.

Lemma wrap_s_small n x : 0 < n -> - 2 ^ (n - 1) <= x < 2 ^ (n - 1) -> wrap_s n x = x.
Proof.
  intros Hn H. unfold wrap_s.
  assert (2 ^ n = 2 * 2 ^ (n - 1)) by (rewrite <- Z.pow_succ_r by lia; f_equal; lia).
  rewrite Z.mod_small by lia. lia.
Qed.

(** lor of a low part with a (possibly negative) multiple is addition: [lor_mul_add] holds for
    every integer multiplier. *)
Lemma sleb_step result shift x y :
  0 <= shift -> 0 <= result < 2 ^ shift -> wrap_s 64 (Z.shiftl x shift) = y * 2 ^ shift ->
  Z.lor result (wrap_s 64 (Z.shiftl x shift)) = result + y * 2 ^ shift.
Proof. intros Hs Hr Hy. rewrite Hy. apply lor_mul_add; lia. Qed.

Lemma read_sleb128_loop_spec s : bytes_ok s -> forall k result, uleb_shift_ok k ->
  0 <= result < 2 ^ (7 * k) ->
  match read_sleb128_loop s result (7 * k) with
  | (Ok v, rest) => exists enc w, s = enc ++ rest /\ sleb_denotes enc w /\
        v = result + w * 2 ^ (7 * k) /\ zlen enc <= 10 - k /\ - 2 ^ 63 <= v < 2 ^ 63
  | (Err, rest) => (exists pre, s = pre ++ rest) /\
        forall enc w tl, s = enc ++ tl -> sleb_denotes enc w ->
             10 - k < zlen enc \/ ~ (- 2 ^ 63 <= result + w * 2 ^ (7 * k) < 2 ^ 63)
  | (Panic, _) => False
  end.
Proof.
  induction 1 as [|b s Hb Hs IH]; intros k result Hk Hr; cbn [read_sleb128_loop].
  { split; [exists []; reflexivity|]. intros enc w tl He Hd. destruct enc; [inversion Hd|discriminate]. }
  unfold uleb_shift_ok in Hk. pose proof Hb as Hb'. unfold byte_ok in Hb'.
  assert (Hp: 0 < 2 ^ (7 * k)) by (apply Z.pow_pos_nonneg; lia).
  destruct ((7 * k =? 63) && negb (b =? 0) && negb (b =? 127)) eqn:E.
  { split; [exists [b]; reflexivity|]. assert (k = 9) by lia. subst k. intros enc w tl He Hd.
    change (7 * 9) with 63 in *.
    destruct Hd as [c Hc|c l v Hc Hd]; cbn [app] in He; inversion He; subst.
    - right. destruct (Z.ltb_spec c 64); nia.
    - left. rewrite zlen_cons. pose proof (sleb_denotes_nonnil _ _ Hd). lia. }
  destruct (64 <=? 7 * k) eqn:E2; [lia|].
  rewrite land127, land128 by assumption.
  destruct (Z.eq_dec k 9) as [->|Hk9].
  { (* last possible byte *)
    change (7 * 9) with 63 in *. change (63 + 7 <? 64) with false. cbn [andb].
    assert (b = 0 \/ b = 127) as [->| ->] by lia.
    - change (0 <? 128) with true. change (0 mod 128) with 0. rewrite Z.shiftl_0_l.
      change (wrap_s 64 0) with 0. rewrite Z.lor_0_r.
      exists [0], 0. repeat split; try lia; [apply (sleb_last 0); lia|rewrite zlen_cons, zlen_nil; lia].
    - change (127 <? 128) with true. change (127 mod 128) with 127.
      rewrite (sleb_step _ _ _ (-1)) by (try lia; vm_compute; reflexivity).
      exists [127], (-1). repeat split; try lia; [apply (sleb_last 127); lia|rewrite zlen_cons, zlen_nil; lia]. }
  assert (Hp56: 2 ^ (7 * k) <= 2 ^ 56) by (apply Z.pow_le_mono_r; lia).
  pose proof (Z.mod_pos_bound b 128 ltac:(lia)) as Hmb.
  rewrite (sleb_step result (7 * k) (b mod 128) (b mod 128)).
  2: lia. 2: lia.
  2: { rewrite Z.shiftl_mul_pow2 by lia. apply wrap_s_small; [lia|]. change (2 ^ (64 - 1)) with (128 * 2 ^ 56). nia. }
  destruct (Z.ltb_spec b 128) as [Hlt|Hge].
  - rewrite Z.mod_small in * by lia.
    destruct (7 * k + 7 <? 64) eqn:E3; [|lia]. cbn [andb].
    rewrite land64 by (assumption || lia).
    assert (Hp7: 2 ^ (7 * k + 7) = 128 * 2 ^ (7 * k)) by (rewrite Z.pow_add_r by lia; lia).
    change (2 ^ 63) with (128 * 2 ^ 56).
    destruct (Z.ltb_spec b 64); cbn [negb].
    + exists [b], b. repeat split; try nia.
      * replace b with (if b <? 64 then b else b - 128) at 2; [constructor; lia|]. destruct (Z.ltb_spec b 64); lia.
      * rewrite zlen_cons, zlen_nil; lia.
    + rewrite (sleb_step _ _ _ (-1)).
      2: lia.
      2: nia.
      2: { rewrite Z.shiftl_mul_pow2 by lia. apply wrap_s_small; [lia|].
           change (2 ^ (64 - 1)) with (128 * 2 ^ 56). nia. }
      exists [b], (b - 128). repeat split; try nia.
      * replace (b - 128) with (if b <? 64 then b else b - 128); [constructor; lia|]. destruct (Z.ltb_spec b 64); lia.
      * rewrite zlen_cons, zlen_nil; lia.
  - assert (Hm: b mod 128 = b - 128) by (symmetry; apply (Z.mod_unique _ _ 1); lia).
    rewrite Hm in *.
    specialize (IH (k + 1) (result + (b - 128) * 2 ^ (7 * k))).
    replace (7 * (k + 1)) with (7 * k + 7) in IH by lia.
    assert (Hp7: 2 ^ (7 * k + 7) = 128 * 2 ^ (7 * k)) by (rewrite Z.pow_add_r by lia; lia).
    rewrite Hp7 in IH.
    assert (IHx: _) by (apply IH; [unfold uleb_shift_ok; lia|nia]). clear IH.
    destruct (read_sleb128_loop s _ _) as [[v| |] rest].
    + destruct IHx as (enc & w & He & Hd & Hv & Hl & Hlt).
      exists (b :: enc), (b - 128 + 128 * w). subst s. repeat split; try lia.
      * constructor; [lia|assumption].
      * rewrite zlen_cons. lia.
    + destruct IHx as [[pre Hpre] IHx]. split; [exists (b :: pre); rewrite Hpre; reflexivity|].
      intros enc w tl He Hd.
      destruct Hd as [c Hc|c l v Hc Hd]; cbn [app] in He; injection He as Hbc He2; [lia|].
      subst c. destruct (IHx l v tl He2 Hd); [left; rewrite zlen_cons; lia|right; lia].
    + exact IHx.
Qed.

Lemma sleb_denotes_prefix_unique e1 e2 v1 v2 r1 r2 :
  sleb_denotes e1 v1 -> sleb_denotes e2 v2 -> e1 ++ r1 = e2 ++ r2 -> e1 = e2 /\ v1 = v2 /\ r1 = r2.
Proof.
  intro H. revert e2 v2. induction H as [b Hb|b l v Hb Hd IH]; intros e2 v2 H2 He;
    destruct H2 as [b2 Hb2|b2 l2 v2 Hb2 Hd2]; cbn [app] in He; inversion He; subst; try lia.
  - auto.
  - destruct (IH _ _ Hd2 H1) as (-> & -> & ->). auto.
Qed.
Lemma read_sleb128_iff s v rest : bytes_ok s ->
  read_sleb128 s = (Ok v, rest) <->
  exists enc, s = enc ++ rest /\ sleb_denotes enc v /\ zlen enc <= 10 /\ - 2 ^ 63 <= v < 2 ^ 63.
Proof.
  intro Hs. unfold read_sleb128.
  pose proof (read_sleb128_loop_spec s Hs 0 0) as H. change (7 * 0) with 0 in H.
  assert (H': _) by (apply H; [unfold uleb_shift_ok; lia|lia]). clear H.
  destruct (read_sleb128_loop s 0 0) as [[v'| |] rest'].
  - destruct H' as (enc & w & He & Hd & Hv & Hl & Hlt).
    rewrite Z.pow_0_r, Z.mul_1_r, Z.add_0_l in Hv. subst v'.
    split.
    + intro E; inversion E; subst. exists enc. repeat split; try lia; assumption.
    + intros (enc' & He' & Hd' & Hl' & Hlt'). rewrite He in He'.
      destruct (sleb_denotes_prefix_unique _ _ _ _ _ _ Hd Hd' He') as (-> & -> & ->).
      reflexivity.
  - destruct H' as [_ H']. split; [discriminate|]. intros (enc' & He' & Hd' & Hl' & Hlt').
    destruct (H' _ _ _ He' Hd'); cbn in *; lia.
  - contradiction.
Qed.
Lemma read_sleb128_no_panic s : bytes_ok s -> fst (read_sleb128 s) <> Panic.
Proof.
  intro Hs. unfold read_sleb128.
  pose proof (read_sleb128_loop_spec s Hs 0 0) as H. change (7 * 0) with 0 in H.
  assert (H': _) by (apply H; [unfold uleb_shift_ok; lia|lia]). clear H.
  destruct (read_sleb128_loop s 0 0) as [[v'| |] rest']; cbn; congruence.
Qed.
Lemma read_sleb128_suffix s r rest : bytes_ok s -> read_sleb128 s = (r, rest) -> exists pre, s = pre ++ rest.
Proof.
  intro Hs. unfold read_sleb128.
  pose proof (read_sleb128_loop_spec s Hs 0 0) as H. change (7 * 0) with 0 in H.
  assert (H': _) by (apply H; [unfold uleb_shift_ok; lia|lia]). clear H.
  intro E; rewrite E in H'. destruct r as [v| |].
  - destruct H' as (enc & w & He & _). eauto.
  - destruct H' as [? _]. assumption.
  - contradiction.
Qed.

Lemma write_sleb128_loop_ok n v : (0 < n)%nat ->
  - 2 ^ (7 * Z.of_nat n - 1) <= v < 2 ^ (7 * Z.of_nat n - 1) ->
  exists e, write_sleb128_loop n v = Some e /\ sleb_denotes e v /\ zlen e <= Z.of_nat n.
Proof.
  revert v; induction n as [|n IH]; intros v Hn Hv; [lia|].
  cbn [write_sleb128_loop]. rewrite !Z.shiftr_div_pow2 by lia. unfold wrap_u.
  change (2 ^ 8) with 256. change (2 ^ 6) with 64. change (2 ^ 1) with 2.
  pose proof (Z.mod_pos_bound v 256 ltac:(lia)). pose proof (Z.div_mod v 256 ltac:(lia)).
  pose proof (Z.mod_pos_bound v 64 ltac:(lia)). pose proof (Z.div_mod v 64 ltac:(lia)).
  rewrite land127 by (red; lia).
  assert (Hm: (v mod 256) mod 128 = v mod 128).
  { symmetry. apply Znumtheory.Zmod_div_mod; try lia. exists 2; lia. }
  pose proof (Z.mod_pos_bound v 128 ltac:(lia)). pose proof (Z.div_mod v 128 ltac:(lia)).
  destruct ((v / 64 =? 0) || (v / 64 =? -1)) eqn:E.
  - exists [v mod 256 mod 128]. rewrite Hm. repeat split; [|rewrite zlen_cons, zlen_nil; lia].
    replace v with (if v mod 128 <? 64 then v mod 128 else v mod 128 - 128) at 2; [constructor; lia|].
    destruct (Z.ltb_spec (v mod 128) 64); lia.
  - rewrite Z.div_div by lia. change (64 * 2) with 128.
    assert (0 < n)%nat.
    { destruct n; [|lia]. change (2 ^ (7 * Z.of_nat 1 - 1)) with 64 in Hv. lia. }
    assert (Hpow: 2 ^ (7 * Z.of_nat (S n) - 1) = 128 * 2 ^ (7 * Z.of_nat n - 1)).
    { replace (7 * Z.of_nat (S n) - 1) with (7 + (7 * Z.of_nat n - 1)) by lia.
      rewrite Z.pow_add_r by lia. reflexivity. }
    rewrite Hpow in Hv.
    destruct (IH (v / 128)) as (e & He & Hde & Hle); [assumption|nia|].
    rewrite He. exists (Z.lor (v mod 256) 128 :: e).
    assert (Hor: Z.lor (v mod 256) 128 = v mod 128 + 128).
    { assert (Hx: forallb (fun k => Z.lor (Z.of_nat k) 128 =? (Z.of_nat k) mod 128 + 128) (seq 0 256) = true) by (vm_compute; reflexivity).
      rewrite forallb_forall in Hx. specialize (Hx (Z.to_nat (v mod 256))). rewrite Z2Nat.id in Hx by lia.
      rewrite <- Hm. apply Z.eqb_eq. apply Hx. apply in_seq. lia. }
    rewrite Hor. repeat split.
    + replace v with (v mod 128 + 128 - 128 + 128 * (v / 128)) at 2 by lia.
      constructor; [lia|assumption].
    + rewrite zlen_cons. lia.
Qed.

Lemma uleb_denotes_bytes_ok e v : uleb_denotes e v -> bytes_ok e.
Proof. induction 1; repeat constructor; unfold byte_ok; try lia; assumption. Qed.
Lemma sleb_denotes_bytes_ok e v : sleb_denotes e v -> bytes_ok e.
Proof. induction 1; repeat constructor; unfold byte_ok; try lia; assumption. Qed.

Lemma zget_le_bytes n v i : 0 <= i < Z.of_nat n -> zget (le_bytes n v) i = Some (v / 256 ^ i mod 256).
Proof.
  revert v i; induction n as [|n IH]; intros v i Hi; [lia|]. cbn [le_bytes].
  destruct (Z.eq_dec i 0) as [->|].
  - rewrite zget_0, Z.pow_0_r, Z.div_1_r. reflexivity.
  - rewrite zget_S, IH by lia. do 2 f_equal.
    rewrite Z.div_div by (try apply Z.pow_pos_nonneg; lia). f_equal.
    replace i with (Z.succ (i - 1)) at 2 by lia. rewrite Z.pow_succ_r by lia. reflexivity.
Qed.
Lemma zget_rev {A} (l : list A) i : 0 <= i < zlen l -> zget (rev l) i = zget l (zlen l - 1 - i).
Proof.
  revert i; induction l as [|x l IH]; intros i Hi; [change (zlen (@nil A)) with 0 in Hi; lia|].
  rewrite zlen_cons in Hi. cbn [rev].
  destruct (Z.eq_dec i (zlen l)) as [->|].
  - rewrite zget_app2 by (rewrite zlen_rev; lia). rewrite zlen_rev, Z.sub_diag, zget_0, zlen_cons.
    replace (1 + zlen l - 1 - zlen l) with 0 by lia. rewrite zget_0. reflexivity.
  - rewrite zget_app1 by (rewrite zlen_rev; lia). rewrite IH by lia. rewrite zlen_cons.
    rewrite zget_S by lia. f_equal. lia.
Qed.

Lemma zslice_is_slice {A} (data : list A) off size : 0 <= off -> 0 <= size -> off + size <= zlen data ->
  is_slice data off (zslice off size data).
Proof.
  intros. exists (ztake off data), (zdrop size (zdrop off data)). split.
  - unfold zslice. rewrite ztake_zdrop, ztake_zdrop. reflexivity.
  - apply zlen_ztake. lia.
Qed.
Lemma is_slice_zslice {A} (data : list A) off b : is_slice data off b ->
  b = zslice off (zlen b) data /\ 0 <= off /\ off + zlen b <= zlen data.
Proof.
  intros (pre & post & -> & <-). rewrite !zlen_app. pose proof (zlen_nonneg pre).
  pose proof (zlen_nonneg post). repeat split; try lia. rewrite zslice_app_eq; reflexivity.
Qed.

Lemma read_bytes_at_exact data off size b : u64_ok off -> u64_ok size ->
  rr_read_bytes_at data off size = Ok b <->
  (size = 0 /\ b = []) \/ (0 < size /\ is_slice data off b /\ zlen b = size).
Proof.
  intros [Ho _] [Hs _]. rewrite rr_read_bytes_at_Ok by lia.
  split; (intros [H|H]; [left; exact H|right]).
  - destruct H as (H1 & H2 & ->). split; [assumption|]. rewrite zlen_zslice by lia.
    split; [apply zslice_is_slice; lia|reflexivity].
  - destruct H as (H1 & H2 & H3). apply is_slice_zslice in H2 as (Hb & _ & Hl).
    rewrite H3 in *. auto.
Qed.

Lemma read_bytes_cursor data off size r off' : u64_ok off -> u64_ok size ->
  rr_read_bytes data off size = (r, off') ->
  r = rr_read_bytes_at data off size /\
  off' = match r with Ok _ => (off + size) mod 2 ^ 64 | _ => off end.
Proof.
  intros Ho Hs. unfold rr_read_bytes, wrap_u.
  destruct (rr_read_bytes_at data off size); intro H; inversion H; subst; auto.
Qed.

Lemma until_exact data start fin d b : u64_ok start ->
  rr_read_bytes_at_until data start fin d = Ok b <->
  (exists post, is_slice data start (b ++ d :: post) /\
     start + zlen b < fin <= zlen data /\ ~ In d b).
Proof.
  intros [Hs _]. rewrite rr_until_Ok by lia. pose proof (zlen_nonneg b) as Hbn. split.
  - intros (H1 & H2 & H3 & H4 & H5).
    exists (zdrop (start + zlen b + 1) data). split; [|split; [lia|assumption]].
    exists (ztake start data), []. split; [|apply zlen_ztake; lia].
    rewrite app_nil_r. apply zget_ext.
    { rewrite !zlen_app, zlen_cons, zlen_ztake, zlen_zdrop by lia. lia. }
    intros i Hi. destruct (Z.lt_ge_cases i start).
    { rewrite zget_app1 by (rewrite zlen_ztake; lia). rewrite zget_ztake by lia. reflexivity. }
    rewrite zget_app2 by (rewrite zlen_ztake; lia). rewrite zlen_ztake by lia.
    destruct (Z.lt_ge_cases (i - start) (zlen b)).
    { rewrite zget_app1 by lia. rewrite H3. unfold zslice.
      rewrite zget_ztake, zget_zdrop by lia. f_equal. lia. }
    rewrite zget_app2 by lia. destruct (Z.eq_dec (i - start - zlen b) 0) as [E0|].
    { rewrite E0, zget_0. rewrite <- H4. f_equal. lia. }
    rewrite zget_S by lia. rewrite zget_zdrop by lia. f_equal. lia.
  - intros (post & (pre & post2 & -> & <-) & H2 & H3).
    repeat split; try lia; try assumption.
    + rewrite <- app_assoc. rewrite zslice_app_eq; reflexivity.
    + rewrite zget_app2 by lia. replace (zlen pre + zlen b - zlen pre) with (zlen b) by lia.
      rewrite <- app_assoc. rewrite zget_app2 by lia. rewrite Z.sub_diag. apply zget_0.
Qed.

Lemma strtab_get_exact data start fin off b : u64_ok start -> u32_ok off ->
  strtab_get (Some data) start fin off = Ok b <->
  start + off < 2 ^ 64 /\
  (exists post, is_slice data (start + off) (b ++ 0 :: post) /\
     start + off + zlen b < fin <= zlen data /\ ~ In 0 b).
Proof.
  intros Hs Ho. unfold strtab_get, cadd. unfold u64_ok, u32_ok in *.
  destruct (Z.ltb_spec (start + off) (2 ^ 64)); cbn [of_opt bind].
  - rewrite until_exact by (red; lia). tauto.
  - split; [discriminate|]. lia.
Qed.
Lemma strtab_get_no_panic data start fin off : strtab_get data start fin off <> Panic.
Proof.
  unfold strtab_get. destruct data; [|discriminate]. destruct (cadd _ _ _); [|discriminate].
  apply rr_until_no_panic.
Qed.

Lemma run_bops_ok ops : Forall bop_ok ops -> forall s vs rest,
  bytes_ok s -> run_bops ops s = (Ok vs, rest) ->
  exists pieces, s = concat pieces ++ rest /\ Forall3 piece_of ops vs pieces.
Proof.
  induction 1 as [|op ops Hop Hops IH]; intros s vs rest Hs; cbn [run_bops].
  - intro H; inversion H; subst. exists []. split; [reflexivity|constructor].
  - destruct (run_bop op s) as [[v| |] s1] eqn:E; try discriminate.
    destruct (run_bops ops s1) as [[vs1| |] s2] eqn:E2; try discriminate.
    intro H; inversion H; subst.
    assert (Hp: exists p, s = p ++ s1 /\ piece_of op v p).
    { destruct op; cbn [run_bop] in E.
      - destruct (b_skip s n) as [r s'] eqn:Eb. apply b_skip_spec in Eb.
        destruct Eb as [(-> & Hn & ->)|(-> & _ & ->)]; inversion E; subst.
        exists (ztake n s). split; [symmetry; apply ztake_zdrop|]. cbn. apply zlen_ztake; lia.
      - destruct (b_read_bytes s n) as [r s'] eqn:Eb. apply b_read_bytes_spec in Eb.
        destruct Eb as [(b & -> & Hn & Hl & ->)|(-> & _ & ->)]; inversion E; subst.
        exists b. split; [reflexivity|]. cbn. auto.
      - destruct (b_read s n) as [r s'] eqn:Eb. apply b_read_spec in Eb.
        destruct Eb as [(b & -> & Hn & Hl & ->)|(-> & _ & ->)]; inversion E; subst.
        exists b. split; [reflexivity|]. cbn. auto.
      - destruct (b_read_slice s size count) as [r s'] eqn:Eb. destruct Hop.
        apply b_read_slice_spec in Eb; [|assumption|assumption].
        destruct Eb as [(b & -> & Hn & Hl & ->)|(-> & _ & ->)]; inversion E; subst.
        exists (concat b). split; [reflexivity|]. cbn. auto.
      - destruct (b_read_string s) as [r s'] eqn:Eb. apply b_read_string_spec in Eb.
        destruct Eb as [(b & -> & -> & Hn)|(-> & _ & ->)]; inversion E; subst.
        exists (b ++ [0]). split; [rewrite <- app_assoc; reflexivity|]. cbn. auto.
      - destruct (read_uleb128 s) as [[x| |] s'] eqn:Eb; inversion E; subst.
        apply read_uleb128_iff in Eb; [|assumption]. destruct Eb as (enc & -> & Hd & _).
        exists enc. split; [reflexivity|]. cbn. auto.
      - destruct (read_sleb128 s) as [[x| |] s'] eqn:Eb; inversion E; subst.
        apply read_sleb128_iff in Eb; [|assumption]. destruct Eb as (enc & -> & Hd & _).
        exists enc. split; [reflexivity|]. cbn. auto. }
    destruct Hp as (p & -> & Hpo).
    destruct (IH s1 vs1 rest) as (pieces & -> & Hf).
    { apply bytes_ok_app in Hs; tauto. }
    { assumption. }
    exists (p :: pieces). split; [cbn [concat]; rewrite <- app_assoc; reflexivity|constructor; assumption].
Qed.

Lemma run_bop_fail op s s' : bytes_ok s -> bop_ok op -> run_bop op s = (Err, s') ->
  match op with BUleb | BSleb => exists pre, s = pre ++ s' | _ => s' = [] end.
Proof.
  intros Hs Hop E. destruct op; cbn [run_bop] in E.
  - destruct (b_skip s n) as [r s1] eqn:Eb. apply b_skip_spec in Eb.
    destruct Eb as [(-> & Hn & ->)|(-> & _ & ->)]; inversion E; subst; reflexivity.
  - destruct (b_read_bytes s n) as [r s1] eqn:Eb. apply b_read_bytes_spec in Eb.
    destruct Eb as [(b & -> & Hn & Hl & ->)|(-> & _ & ->)]; inversion E; subst; reflexivity.
  - destruct (b_read s n) as [r s1] eqn:Eb. apply b_read_spec in Eb.
    destruct Eb as [(b & -> & Hn & Hl & ->)|(-> & _ & ->)]; inversion E; subst; reflexivity.
  - destruct (b_read_slice s size count) as [r s1] eqn:Eb. destruct Hop.
    apply b_read_slice_spec in Eb; [|assumption|assumption].
    destruct Eb as [(b & -> & Hn & Hl & ->)|(-> & _ & ->)]; inversion E; subst; reflexivity.
  - destruct (b_read_string s) as [r s1] eqn:Eb. apply b_read_string_spec in Eb.
    destruct Eb as [(b & -> & -> & Hn)|(-> & _ & ->)]; inversion E; subst; reflexivity.
  - destruct (read_uleb128 s) as [[x| |] s1] eqn:Eb; inversion E; subst.
    apply read_uleb128_suffix in Eb; assumption.
  - destruct (read_sleb128 s) as [[x| |] s1] eqn:Eb; inversion E; subst.
    apply read_sleb128_suffix in Eb; assumption.
Qed.

Lemma run_bops_no_panic ops : Forall bop_ok ops -> forall s, bytes_ok s -> fst (run_bops ops s) <> Panic.
Proof.
  induction 1 as [|op ops Hop Hops IH]; intros s Hs; cbn [run_bops]; [discriminate|].
  destruct (run_bop op s) as [[v| |] s1] eqn:E; try discriminate.
  - assert (Hs1: bytes_ok s1).
    { destruct (run_bops_ok [op] (Forall_cons _ Hop (Forall_nil _)) s [v] s1 Hs) as (p & Hp & _).
      - cbn [run_bops]. rewrite E. reflexivity.
      - rewrite Hp in Hs. apply bytes_ok_app in Hs; tauto. }
    specialize (IH s1 Hs1). destruct (run_bops ops s1) as [[vs1| |] s2]; cbn in *; congruence.
  - exfalso. destruct op; cbn [run_bop] in E.
    + destruct (b_skip s n) as [r s'] eqn:Eb. apply b_skip_spec in Eb.
      destruct Eb as [(-> & Hn & ->)|(-> & _ & ->)]; discriminate.
    + destruct (b_read_bytes s n) as [r s'] eqn:Eb. apply b_read_bytes_spec in Eb.
      destruct Eb as [(b & -> & Hn & Hl & ->)|(-> & _ & ->)]; discriminate.
    + destruct (b_read s n) as [r s'] eqn:Eb. apply b_read_spec in Eb.
      destruct Eb as [(b & -> & Hn & Hl & ->)|(-> & _ & ->)]; discriminate.
    + destruct (b_read_slice s size count) as [r s'] eqn:Eb. destruct Hop.
      apply b_read_slice_spec in Eb; [|assumption|assumption].
      destruct Eb as [(b & -> & Hn & Hl & ->)|(-> & _ & ->)]; discriminate.
    + destruct (b_read_string s) as [r s'] eqn:Eb. apply b_read_string_spec in Eb.
      destruct Eb as [(b & -> & -> & Hn)|(-> & _ & ->)]; discriminate.
    + pose proof (read_uleb128_no_panic s Hs). destruct (read_uleb128 s) as [[x| |] s'] eqn:Eb; cbn in *; congruence.
    + pose proof (read_sleb128_no_panic s Hs). destruct (read_sleb128 s) as [[x| |] s'] eqn:Eb; cbn in *; congruence.
Qed.

Lemma read_at_is_read_on_tail s off n : 0 <= off ->
  b_read_at s off n = (if off <=? zlen s then fst (b_read (zdrop off s) n) else Err).
Proof.
  intros. unfold b_read_at, b_skip, get_from.
  destruct (Z.leb_spec 0 off); [|lia]. cbn [andb]. destruct (off <=? zlen s); reflexivity.
Qed.

Lemma uleb_roundtrip v : 0 <= v < 2 ^ 64 -> exists enc,
  (forall buf, write_uleb128 buf v = Some (buf ++ enc, zlen enc)) /\
  bytes_ok enc /\ 1 <= zlen enc <= 10 /\
  (forall rest, bytes_ok rest -> read_uleb128 (enc ++ rest) = (Ok v, rest)) /\
  (forall enc', uleb_denotes enc' v -> zlen enc <= zlen enc').
Proof.
  intros Hv. destruct (write_uleb128_loop_ok 10 v) as (e & He & Hd & Hl & Hmin); [lia|cbn; lia|].
  exists e. pose proof (uleb_denotes_bytes_ok _ _ Hd) as Hok. pose proof (uleb_denotes_nonnil _ _ Hd).
  repeat split; try lia.
  - intro buf. unfold write_uleb128. rewrite He. reflexivity.
  - assumption.
  - intros rest Hr. apply read_uleb128_iff; [apply bytes_ok_app; auto|].
    exists e. repeat split; try lia; assumption.
  - intros enc' Hd'.
    assert (Hub: forall l w, uleb_denotes l w -> w < 2 ^ (7 * zlen l)).
    { induction 1 as [b Hb|b l w Hb Hd2 IH]; rewrite zlen_cons.
      - rewrite zlen_nil. change (2 ^ (7 * (1 + 0))) with 128. lia.
      - replace (7 * (1 + zlen l)) with (7 * zlen l + 7) by lia.
        rewrite Z.pow_add_r by (pose proof (zlen_nonneg l); lia). change (2 ^ 7) with 128. nia. }
    destruct (Z.le_gt_cases (zlen e) (zlen enc')); [assumption|exfalso].
    pose proof (uleb_denotes_nonnil _ _ Hd').
    assert (2 ^ (7 * (zlen e - 1)) <= v) by (apply Hmin; lia).
    specialize (Hub _ _ Hd'). assert (2 ^ (7 * zlen enc') <= 2 ^ (7 * (zlen e - 1))).
    { apply Z.pow_le_mono_r; lia. }
    lia.
Qed.
Lemma sleb_roundtrip v : - 2 ^ 63 <= v < 2 ^ 63 -> exists enc,
  (forall buf, write_sleb128 buf v = Some (buf ++ enc, zlen enc)) /\
  bytes_ok enc /\ 1 <= zlen enc <= 10 /\
  (forall rest, bytes_ok rest -> read_sleb128 (enc ++ rest) = (Ok v, rest)).
Proof.
  intros Hv. destruct (write_sleb128_loop_ok 10 v) as (e & He & Hd & Hl); [lia| |].
  { change (2 ^ (7 * Z.of_nat 10 - 1)) with (64 * 2 ^ 63). lia. }
  exists e. pose proof (sleb_denotes_bytes_ok _ _ Hd) as Hok. pose proof (sleb_denotes_nonnil _ _ Hd).
  repeat split; try lia.
  - intro buf. unfold write_sleb128. rewrite He. reflexivity.
  - assumption.
  - intros rest Hr. apply read_sleb128_iff; [apply bytes_ok_app; auto|].
    exists e. repeat split; try lia; assumption.
Qed.

Lemma align_exact bits k offset : 0 <= k < bits -> 0 <= offset < 2 ^ bits ->
  align bits offset (2 ^ k) <> Err /\
  (forall r, align bits offset (2 ^ k) = Ok r <->
     ((2 ^ k | r) /\ offset <= r < offset + 2 ^ k /\ r < 2 ^ bits)).
Proof.
  intros Hk Ho. assert (Hp: 0 < 2 ^ k) by (apply Z.pow_pos_nonneg; lia).
  assert (Hpb: 2 ^ bits = 2 ^ (bits - k) * 2 ^ k) by (rewrite <- Z.pow_add_r by lia; f_equal; lia).
  destruct (Z.le_gt_cases offset (2 ^ bits - 2 ^ k)) as [Hle|Hgt].
  - rewrite align_Ok by lia. split; [discriminate|]. intro r.
    destruct (align_up_spec offset (2 ^ k) Hp) as [Hd Hb]. split.
    + intro H; inversion H; subst. repeat split; try assumption; try lia; try assumption.
    + intros (Hd2 & Hb2 & _). f_equal. symmetry. apply align_up_unique; assumption.
  - rewrite align_eq by lia. destruct (Z.leb_spec offset (2 ^ bits - 2 ^ k)); [lia|].
    split; [discriminate|]. intro r; split; [discriminate|].
    intros ([q ->] & Hb & Hlt). exfalso. remember (2 ^ (bits - k)) as Q. remember (2 ^ k) as P. assert (q < Q) by nia. nia.
Qed.

Lemma rr_read_slice_exact data off size count cs : u64_ok off -> 0 < size -> 0 <= count ->
  count * size < 2 ^ 64 ->
  rr_read_slice_at data off size count = Ok cs <->
  (zlen cs = count /\ Forall (fun c => zlen c = size) cs /\
   (count = 0 \/ is_slice data off (concat cs))).
Proof.
  intros Ho Hs Hc Hlt. unfold rr_read_slice_at, rr_read_slice, cmul.
  destruct (Z.ltb_spec (count * size) (2 ^ 64)); [|lia].
  unfold rr_read_bytes.
  assert (Hn: u64_ok (count * size)) by (red; nia).
  split.
  - destruct (rr_read_bytes_at data off (count * size)) as [b| |] eqn:E; cbn [fst]; try discriminate.
    apply read_bytes_at_exact in E; [|assumption|assumption].
    assert (Hlen: zlen b = count * size).
    { destruct E as [[H1 ->]|(H1 & H2 & H3)]; [rewrite zlen_nil; lia|assumption]. }
    unfold slice_from_bytes, cmul. destruct (Z.ltb_spec (count * size) (2 ^ 64)); [|lia].
    cbn [of_opt bind]. unfold get_from.
    destruct ((0 <=? count * size) && (count * size <=? zlen b)) eqn:Eb; [|nia].
    cbn [of_opt bind fst]. intro H1; inversion H1; subst.
    destruct (chunks_concat size (Z.to_nat count) b) as (Hcc & Hf & Hl); [lia|nia|].
    split; [unfold zlen; lia|]. split; [assumption|].
    destruct E as [[H2 ->]|(H2 & H3 & H4)]; [left; nia|right].
    rewrite Hcc, ztake_all by nia. assumption.
  - intros (H1 & H2 & H3). pose proof (zlen_concat_const size cs H2) as Hl.
    assert (E: rr_read_bytes_at data off (count * size) = Ok (concat cs)).
    { apply read_bytes_at_exact; [assumption|assumption|]. destruct (Z.eq_dec count 0) as [->|].
      - left. split; [lia|]. apply zlen_0_nil. lia.
      - right. destruct H3; [lia|]. repeat split; try assumption; nia. }
    rewrite E. unfold slice_from_bytes, cmul.
    destruct (Z.ltb_spec (count * size) (2 ^ 64)); [|lia]. cbn [of_opt bind]. unfold get_from.
    destruct ((0 <=? count * size) && (count * size <=? zlen (concat cs))) eqn:Eb; [|nia].
    cbn [of_opt bind fst]. f_equal. rewrite <- (app_nil_r (concat cs)).
    apply chunks_app; [assumption|]. rewrite <- H1. apply Nat2Z.id.
Qed.

Lemma data_range_exact data base addr size b : 0 <= base -> 0 <= addr -> 0 <= size ->
  data_range data base addr size = Some b <->
  (is_slice data (addr - base) b /\ zlen b = size).
Proof.
  intros Hb Ha Hs. unfold data_range, csub. destruct (Z.leb_spec base addr).
  - unfold get_from. destruct ((0 <=? addr - base) && (addr - base <=? zlen data)) eqn:E.
    + unfold get_to. rewrite zlen_zdrop by lia.
      destruct ((0 <=? size) && (size <=? zlen data - (addr - base))) eqn:E2.
      * fold (zslice (addr - base) size data). split.
        -- intro H0; inversion H0; subst. rewrite zlen_zslice by lia. split; [apply zslice_is_slice; lia|reflexivity].
        -- intros [H0 H1]. apply is_slice_zslice in H0 as (H0 & _). rewrite H1 in H0. congruence.
      * split; [discriminate|]. intros [H0 H1]. apply is_slice_zslice in H0. lia.
    + split; [discriminate|]. intros [H0 H1]. apply is_slice_zslice in H0. pose proof (zlen_nonneg b). lia.
  - split; [discriminate|]. intros [H0 H1]. apply is_slice_zslice in H0. lia.
Qed.

Lemma endian_roundtrip e n : 
  (forall v, 0 <= v < 2 ^ (8 * Z.of_nat n) -> read_u e (write_u e n v) = v) /\
  (forall l, length l = n -> bytes_ok l -> write_u e n (read_u e l) = l) /\
  (forall v, (0 < n)%nat -> - 2 ^ (8 * Z.of_nat n - 1) <= v < 2 ^ (8 * Z.of_nat n - 1) ->
     read_i e (write_i e n v) = v) /\
  (forall l, (0 < n)%nat -> length l = n -> bytes_ok l -> write_i e n (read_i e l) = l).
Proof.
  repeat split.
  - intros; apply read_write_u_small; assumption.
  - intros l <- H; apply write_read_u; assumption.
  - intros; apply read_write_i; assumption.
  - intros l H <- H1; apply write_read_i; assumption.
Qed.
Lemma endian_order n v i : 0 <= i < Z.of_nat n ->
  zget (write_u Little n v) i = Some (v / 256 ^ i mod 256) /\
  zget (write_u Big n v) i = Some (v / 256 ^ (Z.of_nat n - 1 - i) mod 256).
Proof.
  intros Hi. unfold write_u; cbn [is_big]. split; [apply zget_le_bytes; assumption|].
  unfold be_bytes. assert (Hl: zlen (le_bytes n v) = Z.of_nat n) by (unfold zlen; rewrite length_le_bytes; reflexivity).
  rewrite zget_rev by lia. rewrite Hl, zget_le_bytes by lia. reflexivity.
Qed.
Lemma endian_reverse n v l : write_u Big n v = rev (write_u Little n v) /\ read_u Big l = read_u Little (rev l).
Proof. split; reflexivity. Qed.
Lemma b_fail_iff s n size count :
  0 <= n -> 0 <= size -> 0 <= count ->
  (fst (b_skip s n) = Err <-> zlen s < n) /\
  (fst (b_read_bytes s n) = Err <-> zlen s < n) /\
  (fst (b_read s n) = Err <-> zlen s < n) /\
  (fst (b_read_slice s size count) = Err <-> zlen s < count * size \/ 2 ^ 64 <= count * size) /\
  (fst (b_read_string s) = Err <-> ~ In 0 s).
Proof.
  intros Hn Hs Hc.
  destruct (b_skip s n) as [r1 s1] eqn:E1, (b_read_bytes s n) as [r2 s2] eqn:E2,
    (b_read s n) as [r3 s3] eqn:E3, (b_read_string s) as [r5 s5] eqn:E5. cbn [fst].
  apply b_skip_spec in E1. apply b_read_bytes_spec in E2. apply b_read_spec in E3.
  apply b_read_string_spec in E5.
  assert (E4: (fst (b_read_slice s size count) = Err <-> zlen s < count * size \/ 2 ^ 64 <= count * size)).
  { unfold b_read_slice, slice_from_bytes, cmul, get_from.
    destruct (Z.ltb_spec (count * size) (2 ^ 64)); cbn [of_opt bind fst].
    - destruct ((0 <=? count * size) && (count * size <=? zlen s)) eqn:E; cbn [of_opt bind fst].
      + split; [discriminate|]. lia.
      + split; [|reflexivity]. intros _. left. assert (0 <= count * size) by nia. lia.
    - split; [|reflexivity]. auto. }
  repeat split; intros.
  - destruct E1 as [(-> & ? & _)|(-> & ? & _)]; [discriminate|lia].
  - destruct E1 as [(-> & ? & _)|(-> & ? & _)]; [lia|reflexivity].
  - destruct E2 as [(? & -> & ? & _)|(-> & ? & _)]; [discriminate|lia].
  - destruct E2 as [(? & -> & ? & _)|(-> & ? & _)]; [lia|reflexivity].
  - destruct E3 as [(? & -> & ? & _)|(-> & ? & _)]; [discriminate|lia].
  - destruct E3 as [(? & -> & ? & _)|(-> & ? & _)]; [lia|reflexivity].
  - apply E4; assumption.
  - apply E4; assumption.
  - destruct E5 as [(? & -> & ? & _)|(-> & ? & _)]; [discriminate|assumption].
  - destruct E5 as [(? & -> & -> & _)|(-> & ? & _)]; [|reflexivity].
    exfalso. apply H. apply in_or_app. right; left; reflexivity.
Qed.
