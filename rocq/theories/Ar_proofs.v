From Verif Require Import Ar_spec.
From Verif Require Import Base Core_proofs Str_proofs Util_proofs Hash_proofs File_proofs Rel_proofs Obj_proofs.

(** * Reads *)
Lemma rr_read_eq F o n : zlen F < 2 ^ 63 -> 0 <= o -> 0 < n ->
  rr_read F o n = if o + n <=? zlen F then (Ok (zslice o n F), o + n) else (Err, o).
Proof.
  intros HF Ho Hn. unfold rr_read, rr_read_bytes. rewrite rr_read_bytes_at_eq by lia.
  destruct (Z.eqb_spec n 0); [lia|]. destruct (Z.leb_spec (o + n) (zlen F)); [|reflexivity].
  rewrite from_bytes_all by (rewrite zlen_zslice; lia). unfold wrap_u. rewrite Z.mod_small by lia. reflexivity.
Qed.
Lemma rr_read_bytes_eq F o n : zlen F < 2 ^ 63 -> 0 <= o -> o <= zlen F -> 0 <= n ->
  rr_read_bytes F o n = if o + n <=? zlen F then (Ok (zslice o n F), o + n) else (Err, o).
Proof.
  intros HF Ho Ho2 Hn. unfold rr_read_bytes. rewrite rr_read_bytes_at_eq by lia.
  destruct (Z.eqb_spec n 0) as [->|].
  - rewrite Z.add_0_r. destruct (Z.leb_spec o (zlen F)); [|lia]. unfold wrap_u. rewrite Z.mod_small by lia. reflexivity.
  - destruct (Z.leb_spec (o + n) (zlen F)); [|reflexivity]. unfold wrap_u. rewrite Z.mod_small by lia. reflexivity.
Qed.
Lemma holds_zslice F o n : 0 <= o -> 0 <= n -> o + n <= zlen F -> holds F o (zslice o n F).
Proof. intros. apply holds_iff. rewrite zlen_zslice by lia. repeat split; lia. Qed.

(** * Numbers *)
Lemma value_go radix ds acc : 1 < radix -> 0 <= acc -> Forall (fun d => 0 <= d < radix) ds ->
  acc <= fold_left (fun n d => n * radix + d) ds acc.
Proof.
  intros Hr. revert acc. induction ds as [|d ds IH]; intros acc Ha HF; cbn [fold_left]; [lia|].
  inversion HF; subst. specialize (IH (acc * radix + d)). assert (acc <= acc * radix) by nia. specialize (IH ltac:(lia) H2). lia.
Qed.
Lemma digits_loop_iff dg sp zero radix f acc n : 1 < radix ->
  (forall c x, dg c = Some x <-> c = zero + x /\ 0 <= x < radix) -> (forall x, 0 <= x < radix -> zero + x <> sp) ->
  0 <= acc < 2 ^ 64 ->
  (digits_loop dg sp radix f acc = Some n <->
   exists ds pad, f = map (fun d => zero + d) ds ++ pad /\ Forall (fun d => 0 <= d < radix) ds /\
     (pad = [] \/ exists tl, pad = sp :: tl) /\ n = fold_left (fun n d => n * radix + d) ds acc /\ n < 2 ^ 64).
Proof.
  intros Hr Hd Hs. revert acc. induction f as [|c f IH]; intros acc Ha; cbn [digits_loop].
  - split.
    + intros [= <-]. exists [], []. repeat split; auto; cbn [fold_left]; lia.
    + intros ([|d ds] & pad & E & _ & _ & En & _); [cbn in En; congruence|discriminate].
  - destruct (Z.eqb_spec c sp) as [->|Hc].
    + split.
      * intros [= <-]. exists [], (sp :: f). repeat split; eauto; cbn [fold_left]; lia.
      * intros ([|d ds] & pad & E & Hds & _ & En & _); [cbn in En; congruence|].
        inversion E; subst. inversion Hds; subst. exfalso. eapply Hs; eauto.
    + destruct (dg c) as [x|] eqn:Ex.
      * apply Hd in Ex. destruct Ex as [-> Hx]. unfold cmul, cadd.
        split.
        -- destruct (Z.ltb_spec (acc * radix) (2 ^ 64)); [|discriminate].
           destruct (Z.ltb_spec (acc * radix + x) (2 ^ 64)); [|discriminate].
           intro H1. apply IH in H1; [|nia]. destruct H1 as (ds & pad & -> & H2 & H3 & H4 & H5).
           exists (x :: ds), pad. repeat split; auto.
        -- intros ([|d ds] & pad & E & Hds & Hpad & En & Hn).
           ++ cbn in E. destruct Hpad as [->|[tl ->]]; [discriminate|]. congruence.
           ++ inversion E; subst. assert (d = x) by lia. subst d. inversion Hds; subst. cbn [fold_left] in *.
              assert (0 <= acc * radix + x) by nia.
              pose proof (value_go radix ds (acc * radix + x) Hr H H3).
              destruct (Z.ltb_spec (acc * radix) (2 ^ 64)); [|lia].
              destruct (Z.ltb_spec (acc * radix + x) (2 ^ 64)); [|lia].
              apply IH; [lia|]. exists ds, pad. repeat split; auto.
      * split; [discriminate|]. intros ([|d ds] & pad & E & Hds & Hpad & En & Hn).
        -- cbn in E. destruct Hpad as [->|[tl ->]]; [discriminate|]. congruence.
        -- inversion E; subst. inversion Hds; subst. pose proof (proj2 (Hd (zero + d) d) (conj eq_refl H1)). congruence.
Qed.
Lemma to_digit_iff radix c x : to_digit radix c = Some x <-> c = 48 + x /\ 0 <= x < radix.
Proof.
  unfold to_digit. destruct ((48 <=? c) && (c - 48 <? radix)) eqn:E; split; intro H; try discriminate; try lia.
  - injection H as <-. lia.
  - f_equal. lia.
Qed.
Lemma ebcdic_to_digit_iff radix c x : radix = 8 \/ radix = 10 -> ebcdic_to_digit radix c = Some x <-> c = 240 + x /\ 0 <= x < radix.
Proof.
  intros Hr. unfold ebcdic_to_digit.
  destruct ((radix =? 8) && ((240 <=? c) && (c <=? 247)) || (radix =? 10) && ((240 <=? c) && (c <=? 249))) eqn:E; split; intro H;
    try discriminate; try lia.
  - injection H as <-. lia.
  - f_equal. lia.
Qed.
Lemma number_glue dg sp zero radix f n : 1 < radix -> f <> [] ->
  (forall c x, dg c = Some x <-> c = zero + x /\ 0 <= x < radix) -> (forall x, 0 <= x < radix -> zero + x <> sp) ->
  ((exists c tl, f = c :: tl /\ c <> sp /\ digits_loop dg sp radix f 0 = Some n) <-> number zero sp radix f n).
Proof.
  intros Hr Hf Hd Hs. unfold number. split.
  - intros (c & tl & -> & Hc & H). apply digits_loop_iff with (zero := zero) in H; try assumption; [|lia].
    destruct H as (ds & pad & E & H1 & H2 & H3 & H4). exists ds, pad. repeat split; auto.
    intros ->. cbn in E. destruct H2 as [->|[? ->]]; congruence.
  - intros (ds & pad & E & Hne & H1 & H2 & H3 & H4). destruct f as [|c f]; [congruence|].
    exists c, f. split; [reflexivity|]. split.
    + intros ->. destruct ds as [|d ds]; [congruence|]. inversion E; subst. inversion H1; subst. eapply Hs; eauto.
    + apply digits_loop_iff with (zero := zero); try assumption; [lia|]. exists ds, pad. auto.
Qed.
Lemma parse_u64_digits_iff f radix n : 1 < radix <= 10 -> f <> [] -> parse_u64_digits f radix = Some n <-> ascii_number radix f n.
Proof.
  intros Hr Hf. unfold ascii_number. rewrite <- (number_glue (to_digit radix)); [|lia|assumption|apply to_digit_iff|intros; lia].
  unfold parse_u64_digits. destruct f as [|c f]; [congruence|]. split.
  - intro H. exists c, f. split; [reflexivity|]. destruct (Z.eq_dec c 32) as [->|]; [discriminate|]. split; [assumption|].
    destruct c as [|p|p]; try exact H. do 6 (destruct p as [p|p|]; try exact H). contradiction.
  - intros (c' & f' & E & Hc & H). injection E as <- <-. 
    destruct c as [|p|p]; try exact H. do 6 (destruct p as [p|p|]; try exact H). contradiction.
Qed.
Lemma parse_u64_ebcdic_digits_iff f radix n : radix = 8 \/ radix = 10 -> f <> [] ->
  parse_u64_ebcdic_digits f radix = Some n <-> ebcdic_number radix f n.
Proof.
  intros Hr Hf. unfold ebcdic_number. rewrite <- (number_glue (ebcdic_to_digit radix));
    [|lia|assumption|intros; apply ebcdic_to_digit_iff; assumption|intros; lia].
  unfold parse_u64_ebcdic_digits. destruct f as [|c f]; [congruence|]. split.
  - intro H. exists c, f. split; [reflexivity|]. destruct (Z.eq_dec c 64) as [->|]; [discriminate|]. split; [assumption|].
    destruct c as [|p|p]; try exact H. do 7 (destruct p as [p|p|]; try exact H). contradiction.
  - intros (c' & f' & E & Hc & H). injection E as <- <-.
    destruct c as [|p|p]; try exact H. do 7 (destruct p as [p|p|]; try exact H). contradiction.
Qed.
Lemma number_bound zero sp radix f n : 1 < radix -> number zero sp radix f n -> 0 <= n < 2 ^ 64.
Proof.
  intros Hr (ds & pad & _ & _ & H1 & _ & -> & H). unfold value in *. pose proof (value_go radix ds 0 Hr (Z.le_refl 0) H1). lia.
Qed.
Lemma number_fun zero sp radix f n n' : (forall x, 0 <= x < radix -> zero + x <> sp) ->
  number zero sp radix f n -> number zero sp radix f n' -> n = n'.
Proof.
  intros Hs (ds & pad & E & _ & H1 & H2 & -> & _) (ds' & pad' & E' & _ & H1' & H2' & -> & _). f_equal.
  rewrite E in E'. clear E. revert ds' H1' E'. induction ds as [|d ds IH]; intros [|d' ds'] H1' E'; try reflexivity.
  - exfalso. cbn in E'. destruct H2 as [->|[tl ->]]; [discriminate|]. injection E' as E _. inversion H1'; subst. eapply Hs; eauto.
  - exfalso. cbn in E'. destruct H2' as [->|[tl ->]]; [discriminate|]. injection E' as E _. inversion H1; subst. eapply Hs; eauto.
  - injection E' as E1 E2. inversion H1; inversion H1'; subst. f_equal; [lia|]. apply IH; assumption.
Qed.

(** * Names *)
Lemma until_iff stop b name :
  unwrap (get_to b (match memchr stop b with Some n => n | None => zlen b end)) = Ok name <-> until stop b name.
Proof.
  unfold until. split.
  - destruct (memchr stop b) as [n|] eqn:E.
    + destruct (memchr_Some _ _ _ E) as (H1 & H2 & H3). unfold get_to.
      destruct ((0 <=? n) && (n <=? zlen b)) eqn:E2; [|lia]. cbn [unwrap]. intros [= <-]. split; [assumption|]. right.
      exists (zdrop (n + 1) b). rewrite <- zdrop_cons with (i := n) by (try lia; assumption).
      unfold ztake, zdrop. symmetry. apply firstn_skipn.
    + apply memchr_None in E. unfold get_to. pose proof (zlen_nonneg b).
      destruct ((0 <=? zlen b) && (zlen b <=? zlen b)) eqn:E2; [|lia]. cbn [unwrap].
      replace (ztake (zlen b) b) with b by (symmetry; rewrite <- (app_nil_r b) at 2; apply ztake_app_eq; reflexivity).
      intros [= <-]. split; [assumption|]. left; reflexivity.
  - intros [Hn [->|[tl ->]]].
    + apply memchr_None in Hn. rewrite Hn. unfold get_to. pose proof (zlen_nonneg b).
      destruct ((0 <=? zlen b) && (zlen b <=? zlen b)) eqn:E2; [|lia]. cbn [unwrap]. f_equal.
      rewrite <- (app_nil_r b) at 2. apply ztake_app_eq; reflexivity.
    + rewrite memchr_app by assumption. rewrite get_to_app by reflexivity. reflexivity.
Qed.
Lemma until_ok stop b : exists name, until stop b name.
Proof.
  destruct (unwrap (get_to b (match memchr stop b with Some n => n | None => zlen b end))) as [name| |] eqn:E.
  - exists name. apply until_iff. exact E.
  - exfalso. destruct (get_to b _); discriminate.
  - exfalso. destruct (memchr stop b) as [n|] eqn:E1.
    + apply memchr_Some in E1. unfold get_to in E. destruct ((0 <=? n) && (n <=? zlen b)) eqn:E2; [discriminate|lia].
    + unfold get_to in E. pose proof (zlen_nonneg b). destruct ((0 <=? zlen b) && (zlen b <=? zlen b)) eqn:E2; [discriminate|lia].
Qed.
Lemma until_compute stop b name : until stop b name ->
  unwrap (get_to b (match memchr stop b with Some n => n | None => zlen b end)) = Ok name.
Proof. apply until_iff. Qed.
Lemma until_fun stop b n n' : until stop b n -> until stop b n' -> n = n'.
Proof. intros H H'. apply until_iff in H, H'. congruence. Qed.

Lemma memchr2_Some a b l i : memchr2 a b l = Some i ->
  0 <= i < zlen l /\ (zget l i = Some a \/ zget l i = Some b) /\ ~ In a (ztake i l) /\ ~ In b (ztake i l).
Proof.
  revert i; induction l as [|c l IH]; intros i; cbn [memchr2]; [discriminate|].
  destruct ((c =? a) || (c =? b)) eqn:E.
  - intro H; inversion H; subst. rewrite zlen_cons, zget_0, ztake_0. pose proof (zlen_nonneg l).
    repeat split; try lia; [|intros []|intros []].
    destruct (Z.eqb_spec c a); [left; congruence|]. destruct (Z.eqb_spec c b); [right; congruence|discriminate].
  - destruct (memchr2 a b l) as [j|] eqn:E2; [|discriminate].
    intro H; inversion H; subst. destruct (IH j eq_refl) as (Hj & Hg & Hn & Hm).
    rewrite zlen_cons, zget_S by lia. replace (j + 1 - 1) with j by lia.
    assert (ztake (j + 1) (c :: l) = c :: ztake j l) as ->
      by (unfold ztake; replace (Z.to_nat (j + 1)) with (S (Z.to_nat j)) by lia; reflexivity).
    repeat split; try lia; [exact Hg|..].
    + intros [->|Hin]; [lia|exact (Hn Hin)].
    + intros [->|Hin]; [lia|exact (Hm Hin)].
Qed.
Lemma memchr2_app a b x l tl : ~ In a l -> ~ In b l -> x = a \/ x = b -> memchr2 a b (l ++ x :: tl) = Some (zlen l).
Proof.
  intros Ha Hb Hx. induction l as [|c l IH]; cbn [app memchr2].
  - destruct ((x =? a) || (x =? b)) eqn:E; [reflexivity|lia].
  - destruct ((c =? a) || (c =? b)) eqn:E.
    + exfalso. destruct (Z.eqb_spec c a); [apply Ha; left; assumption|]. destruct (Z.eqb_spec c b); [apply Hb; left; assumption|discriminate].
    + rewrite IH; [rewrite zlen_cons; cbn [option_map]; f_equal; lia| |]; intro; [apply Ha|apply Hb]; right; assumption.
Qed.

Lemma sysv_name_iff ds names name : ds <> [] ->
  sysv_name ds names = Ok name <->
  exists k fin, ascii_number 10 ds k /\ holds names k (name ++ fin) /\ (fin = [47; 10] \/ fin = [0]) /\ ~ In 10 name /\ ~ In 0 name.
Proof.
  intros Hne. unfold sysv_name. split.
  - destruct (parse_u64_digits ds 10) as [k|] eqn:Ek; [|discriminate]. apply parse_u64_digits_iff in Ek; [|lia|assumption].
    cbn [of_opt bind]. rewrite get_from_eq. destruct ((0 <=? k) && (k <=? zlen names)) eqn:Eb; [|discriminate]. cbn [of_opt bind].
    destruct (memchr2 10 0 (zdrop k names)) as [len|] eqn:El; [|discriminate]. cbn [of_opt bind].
    destruct (memchr2_Some _ _ _ _ El) as (H1 & H2 & H3 & H4). rewrite zlen_zdrop in H1 by lia.
    set (nd := zdrop k names) in *.
    assert (Hnd : zlen nd = zlen names - k) by (unfold nd; rewrite zlen_zdrop; lia).
    assert (Hh : forall b tl, nd = b ++ tl -> holds names k b).
    { intros b tl E. exists (ztake k names), tl. split; [|rewrite zlen_ztake_min; lia]. rewrite <- E. unfold nd, ztake, zdrop. symmetry. apply firstn_skipn. }
    assert (Hd : forall c, zget nd len = Some c -> nd = ztake len nd ++ c :: zdrop (len + 1) nd).
    { intros c E. rewrite <- zdrop_cons with (i := len) by (try lia; assumption). unfold ztake, zdrop. symmetry. apply firstn_skipn. }
    clearbody nd.
    destruct H2 as [H2|H2]; rewrite H2; cbn [unwrap bind]; rewrite ?Z.eqb_refl.
    + destruct (Z.ltb_spec len 1); [discriminate|]. unfold psub. destruct (Z.leb_spec 1 len); [|lia]. cbn [bind].
      destruct (zget nd (len - 1)) as [p|] eqn:Ep; [|discriminate]. cbn [unwrap bind].
      destruct (Z.eqb_spec p 47) as [->|]; [|discriminate]. cbn [negb].
      unfold get_to. destruct ((0 <=? len - 1) && (len - 1 <=? zlen nd)) eqn:E; [|lia]. cbn [unwrap]. intros [= <-].
      assert (Hsp : nd = ztake (len - 1) nd ++ 47 :: 10 :: zdrop (len + 1) nd).
      { rewrite <- (zdrop_cons nd len 10) by (try lia; assumption).
        replace len with (len - 1 + 1) at 2 by lia.
        rewrite <- (zdrop_cons nd (len - 1) 47) by (try lia; assumption).
        unfold ztake, zdrop. symmetry. apply firstn_skipn. }
      assert (Hin : forall x, In x (ztake (len - 1) nd) -> In x (ztake len nd)).
      { intros x Hx. apply In_zget in Hx. destruct Hx as [i Hi]. pose proof (zget_Some_lt _ _ _ Hi) as Hb.
        rewrite zlen_ztake_min in Hb by lia. rewrite zget_ztake in Hi by lia. apply zget_In with (i := i). rewrite zget_ztake by lia. exact Hi. }
      exists k, [47; 10]. repeat split; auto. apply Hh with (tl := zdrop (len + 1) nd). rewrite <- app_assoc. exact Hsp.
    + change (0 =? 10) with false. cbv iota.
      unfold get_to. destruct ((0 <=? len) && (len <=? zlen nd)) eqn:E; [|lia]. cbn [unwrap]. intros [= <-].
      exists k, [0]. repeat split; auto. apply Hh with (tl := zdrop (len + 1) nd). rewrite <- app_assoc. apply Hd. assumption.
  - intros (k & fin & Hk & Hh & Hf & H10 & H0). pose proof Hk as Hkb. apply number_bound in Hkb; [|lia].
    apply parse_u64_digits_iff in Hk; [|lia|assumption]. rewrite Hk. cbn [of_opt bind].
    destruct Hh as (a & c & -> & <-). rewrite get_from_app by reflexivity. cbn [of_opt bind].
    destruct Hf as [-> | ->]; rewrite <- app_assoc; cbn [app].
    + replace (name ++ 47 :: 10 :: c) with ((name ++ [47]) ++ 10 :: c) by (rewrite <- app_assoc; reflexivity).
      rewrite memchr2_app; [|intro Hi; apply in_app_or in Hi as [Hi|[Hi|[]]]; [tauto|lia]|intro Hi; apply in_app_or in Hi as [Hi|[Hi|[]]]; [tauto|lia]|auto].
      cbn [of_opt bind]. rewrite zget_mid by reflexivity. cbn [unwrap bind]. change (10 =? 10) with true. cbv iota.
      rewrite zlen_app. change (zlen [47]) with 1. pose proof (zlen_nonneg name). destruct (Z.ltb_spec (zlen name + 1) 1); [lia|].
      unfold psub. destruct (Z.leb_spec 1 (zlen name + 1)); [|lia]. cbn [bind]. replace (zlen name + 1 - 1) with (zlen name) by lia.
      rewrite <- app_assoc. cbn [app]. rewrite zget_mid by reflexivity. cbn [unwrap bind]. change (47 =? 47) with true. cbn [negb].
      rewrite get_to_app by reflexivity. reflexivity.
    + rewrite memchr2_app by auto. cbn [of_opt bind]. rewrite zget_mid by reflexivity. cbn [unwrap bind]. change (0 =? 10) with false. cbv iota.
      rewrite get_to_app by reflexivity. reflexivity.
Qed.
Lemma sysv_name_no_panic ds names : sysv_name ds names <> Panic.
Proof.
  unfold sysv_name. destruct (parse_u64_digits ds 10) as [k|]; [|discriminate]. cbn [of_opt bind].
  destruct (get_from names k) as [nd|]; [|discriminate]. cbn [of_opt bind].
  destruct (memchr2 10 0 nd) as [len|] eqn:El; [|discriminate]. cbn [of_opt bind].
  destruct (memchr2_Some _ _ _ _ El) as (H1 & H2 & _).
  destruct H2 as [H2|H2]; rewrite H2; cbn [unwrap bind]; rewrite ?Z.eqb_refl.
  - destruct (Z.ltb_spec len 1); [discriminate|]. unfold psub. destruct (Z.leb_spec 1 len); [|lia]. cbn [bind].
    destruct (zget_lt_Some nd (len - 1) ltac:(lia)) as [p Ep]. rewrite Ep. cbn [unwrap bind]. destruct (negb (p =? 47)); [discriminate|].
    unfold get_to. destruct ((0 <=? len - 1) && (len - 1 <=? zlen nd)) eqn:E; [discriminate|lia].
  - change (0 =? 10) with false. cbv iota. unfold get_to. destruct ((0 <=? len) && (len <=? zlen nd)) eqn:E; [discriminate|lia].
Qed.

Lemma bsd_name_iff F o lo sz name doff dsz : zlen F < 2 ^ 63 -> 0 <= o <= zlen F -> (forall n, lo = Some n -> 0 <= n) ->
  bsd_name lo F o sz = Ok (name, doff, dsz) <->
  exists n raw, lo = Some n /\ n <= sz /\ holds F o raw /\ zlen raw = n /\ until 0 raw name /\ doff = o + n /\ dsz = sz - n.
Proof.
  intros HF Ho Hlo. unfold bsd_name. destruct lo as [n|]; [|split; [discriminate|intros (n & raw & H & _); discriminate]].
  specialize (Hlo n eq_refl). cbn [of_opt bind]. unfold csub. destruct (Z.leb_spec n sz); cycle 1.
  { split; [discriminate|]. intros (n' & raw & [= <-] & H1 & _). lia. }
  cbn [of_opt bind]. rewrite rr_read_bytes_eq by lia. destruct (Z.leb_spec (o + n) (zlen F)); cycle 1.
  { split; [discriminate|]. intros (n' & raw & [= <-] & _ & H1 & H2 & _). apply holds_bounds in H1. lia. }
  assert (Hr : forall raw, holds F o raw -> zlen raw = n -> raw = zslice o n F).
  { intros raw H1 <-. symmetry. apply holds_slice. assumption. }
  pose proof (until_iff 0 (zslice o n F) name) as Hu.
  pose proof (holds_zslice F o n ltac:(lia) ltac:(lia) ltac:(lia)) as Hh.
  assert (Hz : zlen (zslice o n F) = n) by (rewrite zlen_zslice; lia).
  set (raw := zslice o n F) in *. clearbody raw.
  destruct (memchr 0 raw) as [len|] eqn:E.
  - destruct (unwrap (get_to raw len)) as [nm| |] eqn:E2; cbn [bind].
    + split.
      * intros [= <- <- <-]. exists n, raw. repeat split; auto; apply Hu; reflexivity.
      * intros (n' & raw' & [= <-] & _ & H1 & H2 & H3 & -> & ->). rewrite (Hr raw' H1 H2) in H3. apply Hu in H3. congruence.
    + split; [discriminate|]. intros (n' & raw' & [= <-] & _ & H1 & H2 & H3 & -> & ->). rewrite (Hr raw' H1 H2) in H3. apply Hu in H3. congruence.
    + split; [discriminate|]. intros (n' & raw' & [= <-] & _ & H1 & H2 & H3 & -> & ->). rewrite (Hr raw' H1 H2) in H3. apply Hu in H3. congruence.
  - apply memchr_None in E. split.
    + intros [= <- <- <-]. exists n, raw. repeat split; auto.
    + intros (n' & raw' & [= <-] & _ & H1 & H2 & H3 & -> & ->). rewrite (Hr raw' H1 H2) in H3.
      rewrite (until_fun 0 raw name raw H3 (conj E (or_introl eq_refl))). reflexivity.
Qed.
Lemma bsd_name_no_panic F o lo sz : bsd_name lo F o sz <> Panic.
Proof.
  unfold bsd_name. destruct lo as [n|]; [|discriminate]. cbn [of_opt bind]. destruct (csub sz n); [|discriminate]. cbn [of_opt bind].
  pose proof (rr_read_bytes_no_panic F o n) as H. destruct (rr_read_bytes F o n) as [[raw| |] o']; [|discriminate|contradiction].
  destruct (memchr 0 raw) as [len|] eqn:E; [|discriminate]. apply memchr_Some in E.
  unfold get_to. destruct ((0 <=? len) && (len <=? zlen raw)) eqn:E2; [|lia]. discriminate.
Qed.

Lemma list3 (nf : bytes) a b c : zlen nf >= 3 -> bytes_eqb (ztake 3 nf) [a; b; c] = true <-> exists ds, nf = a :: b :: c :: ds.
Proof.
  intro Hl. split.
  - intro H. apply bytes_eqb_eq in H. exists (zdrop 3 nf). rewrite <- (firstn_skipn 3 nf) at 1. change (firstn 3 nf) with (ztake 3 nf).
    rewrite H. reflexivity.
  - intros (ds & ->). change (bytes_eqb [a; b; c] [a; b; c] = true). apply bytes_eqb_refl.
Qed.
Lemma digit_at_iff nf i d : zget nf i = Some d -> is_ascii_digit d = true <-> digit_at nf i.
Proof.
  intro H. unfold is_ascii_digit, digit_at. split.
  - intro E. exists d. split; [assumption|lia].
  - intros (d' & H' & Hd). rewrite H in H'. injection H' as <-. lia.
Qed.
Lemma common_name_iff F h names o sz name doff dsz : zlen F < 2 ^ 63 -> 0 <= o <= zlen F -> zlen h = 60 ->
  common_name F h names o sz = Ok (name, doff, dsz) <-> name_of F names (ah_name h) o sz name doff dsz.
Proof.
  intros HF Ho Hh. unfold common_name. assert (Hn : zlen (ah_name h) = 16) by (unfold ah_name; rewrite zlen_zslice; lia).
  set (nf := ah_name h) in *. clearbody nf. clear Hh h.
  destruct (zget_lt_Some nf 0 ltac:(lia)) as [n0 E0]. destruct (zget_lt_Some nf 1 ltac:(lia)) as [n1 E1].
  destruct (zget_lt_Some nf 3 ltac:(lia)) as [n3 E3]. rewrite E0, E1, E3. cbn [unwrap bind].
  pose proof (digit_at_iff nf 1 n1 E1) as D1. pose proof (digit_at_iff nf 3 n3 E3) as D3.
  assert (Hhd : forall x tl, nf = x :: tl -> n0 = x). { intros x tl ->. rewrite zget_0 in E0. congruence. }
  assert (Hcons : nf = n0 :: zdrop 1 nf). { exact (zdrop_cons nf 0 n0 E0). }
  destruct ((n0 =? 47) && is_ascii_digit n1) eqn:B1.
  { assert (n0 = 47) by lia. subst n0. assert (Hd1 : digit_at nf 1) by (apply D1; lia).
    assert (Hne : zdrop 1 nf <> []). { intro E. rewrite E in Hcons. rewrite Hcons in Hn. discriminate. }
    destruct (sysv_name (zdrop 1 nf) names) as [nm| |] eqn:E; cbn [bind].
    - apply sysv_name_iff in E; [|assumption]. destruct E as (k & fin & H1 & H2 & H3 & H4 & H5). split.
      + intros [= <- <- <-]. eapply nm_table; eauto.
      + intro H. destruct H as [ds' k' name fin' Ha Hb Hc Hd He Hf Hg|ds' n' raw' name Ha Hb Hc Hd He Hf Hg|tl' name Ha Hb Hc|name tl' Ha Hb Hc Hd|name Ha Hb].
        * assert (ds' = zdrop 1 nf) by congruence. subst ds'.
          assert (sysv_name (zdrop 1 nf) names = Ok name) as Hs by (apply sysv_name_iff; [assumption|]; exists k', fin'; auto).
          assert (sysv_name (zdrop 1 nf) names = Ok nm) as Hs' by (apply sysv_name_iff; [assumption|]; exists k, fin; auto).
          congruence.
        * specialize (Hhd _ _ Ha). lia.
        * contradiction.
        * exfalso. destruct name as [|x name]; [congruence|]. specialize (Hhd _ _ Ha). subst x. apply Hc. left. reflexivity.
        * exfalso. apply Ha. rewrite Hcons. left. reflexivity.
    - split; [discriminate|]. intro H. exfalso. destruct H as [ds' k' name fin' Ha Hb Hc Hd He Hf Hg|ds' n' raw' name Ha Hb Hc Hd He Hf Hg|tl' name Ha Hb Hc|name tl' Ha Hb Hc Hd|name Ha Hb].
      * assert (ds' = zdrop 1 nf) by congruence. subst ds'.
        assert (sysv_name (zdrop 1 nf) names = Ok name) as Hs by (apply sysv_name_iff; [assumption|]; exists k', fin'; auto). congruence.
      * specialize (Hhd _ _ Ha). lia.
      * contradiction.
      * destruct name as [|x name]; [congruence|]. specialize (Hhd _ _ Ha). subst x. apply Hc. left. reflexivity.
      * apply Ha. rewrite Hcons. left. reflexivity.
    - exfalso. eapply sysv_name_no_panic; eauto. }
  assert (N1 : ~ (n0 = 47 /\ digit_at nf 1)). { intros [H1 H2]. apply D1 in H2. lia. }
  destruct (bytes_eqb (ztake 3 nf) [35; 49; 47] && is_ascii_digit n3) eqn:B2.
  { apply andb_prop in B2 as [B2 B3]. apply list3 in B2; [|lia]. destruct B2 as [ds Eds]. apply D3 in B3.
    assert (zdrop 3 nf = ds) as -> by (rewrite Eds; reflexivity).
    assert (ds <> []). { intros ->. rewrite Eds in Hn. discriminate. }
    rewrite bsd_name_iff; [|assumption|assumption|]; cycle 1.
    { intros n E. apply parse_u64_digits_iff in E; [|lia|assumption]. apply number_bound in E; lia. }
    split.
    - intros (n & raw & H1 & H2 & H3 & H4 & H5 & -> & ->). apply parse_u64_digits_iff in H1; [|lia|assumption]. eapply nm_bsd; eauto.
    - intro H1. destruct H1 as [ds' k' name fin' Ha Hb Hc Hd He Hf Hg|ds' n' raw' name Ha Hb Hc Hd He Hf Hg|tl' name Ha Hb Hc|name tl' Ha Hb Hc Hd|name Ha Hb].
      + congruence.
      + assert (ds' = ds) by congruence. subst ds'. exists n', raw'. split; [apply parse_u64_digits_iff; [lia|assumption|assumption]|]. auto 10.
      + congruence.
      + exfalso. apply Hd. split; [|assumption]. rewrite Eds in Ha. destruct name as [|a [|b [|c name]]].
        * congruence.
        * cbn in Ha. congruence.
        * cbn in Ha. congruence.
        * cbn in Ha. assert (c = 47) by congruence. subst c. exfalso. apply Hc. right; right; left; reflexivity.
      + exfalso. apply Ha. rewrite Eds. right; right; left; reflexivity. }
  assert (N2 : ~ ((exists ds, nf = 35 :: 49 :: 47 :: ds) /\ digit_at nf 3)).
  { intros [H1 H2]. apply (list3 nf) in H1; [|lia]. apply D3 in H2. rewrite H1, H2 in B2. discriminate. }
  destruct (Z.eqb_spec n0 47) as [->|Hn0].
  { destruct (until_ok 32 nf) as [nm Hnm]. rewrite (until_compute _ _ _ Hnm). cbn [bind]. split.
    - intros [= <- <- <-]. eapply nm_special; eauto.
    - intro H. destruct H as [ds' k' name fin' Ha Hb Hc Hd He Hf Hg|ds' n' raw' name Ha Hb Hc Hd He Hf Hg|tl' name Ha Hb Hc|name tl' Ha Hb Hc Hd|name Ha Hb].
      + tauto.
      + specialize (Hhd _ _ Ha). lia.
      + rewrite (until_fun _ _ _ _ Hnm Hc). reflexivity.
      + exfalso. destruct name as [|x name]; [congruence|]. specialize (Hhd _ _ Ha). subst x. apply Hc. left. reflexivity.
      + exfalso. apply Ha. rewrite Hcons. left. reflexivity. }
  destruct (memchr 47 nf) as [n|] eqn:Em.
  { destruct (memchr_Some _ _ _ Em) as (M1 & M2 & M3).
    assert (Hsp : nf = ztake n nf ++ 47 :: zdrop (n + 1) nf).
    { rewrite <- (zdrop_cons nf n 47) by assumption. unfold ztake, zdrop. symmetry. apply firstn_skipn. }
    unfold get_to. destruct ((0 <=? n) && (n <=? zlen nf)) eqn:E; [|lia]. cbn [unwrap bind]. split.
    - intros [= <- <- <-]. eapply nm_slash; eauto.
      + intro E'. rewrite E' in Hsp. specialize (Hhd _ _ Hsp). lia.
      + intros [H1 H2]. rewrite H1 in Hsp. cbn in Hsp. eauto.
    - intro H. destruct H as [ds' k' name fin' Ha Hb Hc Hd He Hf Hg|ds' n' raw' name Ha Hb Hc Hd He Hf Hg|tl' name Ha Hb Hc|name tl' Ha Hb Hc Hd|name Ha Hb].
      + specialize (Hhd _ _ Ha). lia.
      + exfalso. eauto.
      + specialize (Hhd _ _ Ha). lia.
      + rewrite Ha in Em |- *. rewrite memchr_app in Em by assumption. injection Em as <-. rewrite ztake_app. reflexivity.
      + exfalso. apply Ha. eapply zget_In; eauto. }
  apply memchr_None in Em. destruct (until_ok 32 nf) as [nm Hnm]. rewrite (until_compute _ _ _ Hnm). cbn [bind]. split.
  - intros [= <- <- <-]. apply nm_space; assumption.
  - intro H. destruct H as [ds' k' name fin' Ha Hb Hc Hd He Hf Hg|ds' n' raw' name Ha Hb Hc Hd He Hf Hg|tl' name Ha Hb Hc|name tl' Ha Hb Hc Hd|name Ha Hb].
    + specialize (Hhd _ _ Ha). lia.
    + exfalso. eauto.
    + specialize (Hhd _ _ Ha). lia.
    + exfalso. apply Em. rewrite Ha. apply in_or_app. right; left; reflexivity.
    + rewrite (until_fun _ _ _ _ Hnm Hb). reflexivity.
Qed.

Lemma common_name_no_panic F h names o sz : zlen h = 60 -> common_name F h names o sz <> Panic.
Proof.
  intros Hh. unfold common_name. assert (Hn : zlen (ah_name h) = 16) by (unfold ah_name; rewrite zlen_zslice; lia).
  set (nf := ah_name h) in *. clearbody nf. clear Hh h.
  destruct (zget_lt_Some nf 0 ltac:(lia)) as [n0 E0]. destruct (zget_lt_Some nf 1 ltac:(lia)) as [n1 E1].
  destruct (zget_lt_Some nf 3 ltac:(lia)) as [n3 E3]. rewrite E0, E1, E3. cbn [unwrap bind].
  destruct ((n0 =? 47) && is_ascii_digit n1).
  { pose proof (sysv_name_no_panic (zdrop 1 nf) names). destruct (sysv_name (zdrop 1 nf) names); cbn [bind]; congruence. }
  destruct (bytes_eqb (ztake 3 nf) [35; 49; 47] && is_ascii_digit n3); [apply bsd_name_no_panic|].
  destruct (until_ok 32 nf) as [nm Hnm]. destruct (n0 =? 47).
  { rewrite (until_compute _ _ _ Hnm). discriminate. }
  destruct (memchr 47 nf) as [n|] eqn:Em; [|rewrite (until_compute _ _ _ Hnm); discriminate].
  apply memchr_Some in Em. unfold get_to. destruct ((0 <=? n) && (n <=? zlen nf)) eqn:E; [discriminate|lia].
Qed.
Lemma odd_land sz : 0 <= sz -> (if negb (Z.land sz 1 =? 0) then 1 else 0) = sz mod 2.
Proof. intro H. change 1 with (Z.ones 1) at 1. rewrite Z.land_ones by lia. change (2 ^ 1) with 2. pose proof (Z.mod_pos_bound sz 2). destruct (Z.eqb_spec (sz mod 2) 0); cbn [negb]; lia. Qed.
Lemma skip_data_eq o sz : 0 <= sz -> o + sz < 2 ^ 64 - 1 -> skip_data o sz = Ok (o + sz + sz mod 2).
Proof.
  intros Hs Ho. unfold skip_data, cadd. destruct (Z.ltb_spec (o + sz) (2 ^ 64)); [|lia]. cbn [of_opt bind].
  pose proof (odd_land sz Hs) as Hm. destruct (negb (Z.land sz 1 =? 0)); [|f_equal; lia].
  unfold sadd. destruct (Z.ltb_spec (o + sz + 1) (2 ^ 64)); [|lia]. f_equal. lia.
Qed.
Lemma number10_bound zero sp f n : zlen f = 10 -> number zero sp 10 f n -> 0 <= n < 10 ^ 10.
Proof.
  intros Hf (ds & pad & -> & _ & H1 & _ & -> & _).
  assert (Hl : zlen ds <= 10). { rewrite zlen_app in Hf. unfold zlen in *. rewrite map_length in Hf. lia. }
  assert (forall ds acc, Forall (fun d => 0 <= d < 10) ds -> 0 <= acc ->
    0 <= fold_left (fun n d => n * 10 + d) ds acc < (acc + 1) * 10 ^ zlen ds) as G.
  { clear. induction ds as [|d ds IH]; intros acc HF Ha; cbn [fold_left].
    - change (zlen (@nil Z)) with 0. lia.
    - inversion HF; subst. specialize (IH (acc * 10 + d) H2 ltac:(lia)). rewrite zlen_cons, Z.pow_add_r by (pose proof (zlen_nonneg ds); lia).
      change (10 ^ 1) with 10. assert (0 < 10 ^ zlen ds) by (apply Z.pow_pos_nonneg; [lia|apply zlen_nonneg]). nia. }
  specialize (G ds 0 H1 (Z.le_refl 0)). unfold value.
  assert (10 ^ zlen ds <= 10 ^ 10) by (apply Z.pow_le_mono_r; lia). lia.
Qed.
Lemma special_iff name : special name <-> negb (bytes_eqb name [47]) && negb (bytes_eqb name [47; 47]) && negb (bytes_eqb name [47; 83; 89; 77; 54; 52; 47]) = false.
Proof.
  unfold special, N_slash, N_names, N_sym64. split.
  - intros [-> | [-> | ->]]; reflexivity.
  - intro H. destruct (bytes_eqb name [47]) eqn:E1; [apply bytes_eqb_eq in E1; auto|].
    destruct (bytes_eqb name [47; 47]) eqn:E2; [apply bytes_eqb_eq in E2; auto|].
    destruct (bytes_eqb name [47; 83; 89; 77; 54; 52; 47]) eqn:E3; [apply bytes_eqb_eq in E3; auto|discriminate].
Qed.
Lemma bytes_eqb_iff a b : bytes_eqb a b = true <-> a = b.
Proof. split; [apply bytes_eqb_eq|intros ->; apply bytes_eqb_refl]. Qed.
Lemma member_iff F names thin off m next : file_ok F -> 0 <= off ->
  member_parse F off names thin = Ok (m, next) <-> member_at F names thin off m next.
Proof.
  intros [HFb HF] Ho. unfold member_parse. rewrite rr_read_eq by lia.
  destruct (Z.leb_spec (off + 60) (zlen F)) as [Hb|Hb]; cycle 1.
  { split; [discriminate|]. intros [h sz doff H1 H2]. apply holds_bounds in H1. lia. }
  pose proof (holds_zslice F off 60 ltac:(lia) ltac:(lia) ltac:(lia)) as Hh. assert (Hhl : zlen (zslice off 60 F) = 60) by (rewrite zlen_zslice; lia).
  assert (Hr : forall h, holds F off h -> zlen h = 60 -> h = zslice off 60 F).
  { intros h H1 H2. apply holds_slice in H1. rewrite H2 in H1. congruence. }
  set (h := zslice off 60 F) in *. clearbody h.
  destruct (bytes_eqb (ah_terminator h) AR_TERMINATOR) eqn:Et; cbn [negb]; cycle 1.
  { split; [discriminate|]. intros [h' sz doff H1 H2 H3]. rewrite (Hr h' H1 H2) in H3. rewrite H3 in Et. discriminate. }
  apply bytes_eqb_eq in Et.
  assert (Hsl : zlen (ah_size h) = 10) by (unfold ah_size; rewrite zlen_zslice; lia).
  assert (Hsn : ah_size h <> []) by (intro E; rewrite E in Hsl; discriminate).
  destruct (parse_u64_digits (ah_size h) 10) as [sz|] eqn:Es; cbn [of_opt bind]; cycle 1.
  { split; [discriminate|]. intros [h' sz doff H1 H2 H3 H4]. rewrite (Hr h' H1 H2) in H4. apply parse_u64_digits_iff in H4; [congruence|lia|assumption]. }
  pose proof (proj1 (parse_u64_digits_iff (ah_size h) 10 sz ltac:(lia) Hsn) Es) as Hsz.
  pose proof (number10_bound _ _ _ _ Hsl Hsz) as Hszb. change (10 ^ 10) with 10000000000 in Hszb.
  assert (Hfun : forall sz', ascii_number 10 (ah_size h) sz' -> sz' = sz).
  { intros sz' H. eapply number_fun; [|exact H|exact Hsz]. intros; lia. }
  destruct (common_name F h names (off + 60) sz) as [[[name doff] dsz]| |] eqn:En; cbn [bind].
  - apply common_name_iff in En; [|lia|lia|assumption].
    rewrite skip_data_eq by lia. cbn [bind].
    assert (Hnm : forall h' sz' name' doff' dsz', holds F off h' -> zlen h' = 60 -> ascii_number 10 (ah_size h') sz' ->
      name_of F names (ah_name h') (off + 60) sz' name' doff' dsz' -> h' = h /\ sz' = sz /\ name' = name /\ doff' = doff /\ dsz' = dsz).
    { intros h' sz' name' doff' dsz' H1 H2 H3 H4. pose proof (Hr h' H1 H2). subst h'. rewrite (Hfun sz' H3) in *.
      apply common_name_iff in H4; [|lia|lia|assumption]. apply common_name_iff in En; [|lia|lia|assumption]. rewrite En in H4.
      injection H4 as <- <- <-. auto. }
    destruct (thin && negb (bytes_eqb name [47]) && negb (bytes_eqb name [47; 47]) && negb (bytes_eqb name [47; 83; 89; 77; 54; 52; 47])) eqn:Eth.
    + destruct thin; [|discriminate]. cbn [andb] in Eth. assert (Hns : ~ special name) by (rewrite special_iff; congruence).
      split.
      * intros [= <- <-]. apply (member_at_intro F names true off _ _ h sz doff); cbn [mb_name mb_size mb_header mb_offset]; auto.
      * intros [h' sz' doff' H1 H2 H3 H4 H5 H6 H7]. destruct (Hnm _ _ _ _ _ H1 H2 H4 H5) as (-> & -> & E1 & -> & E2).
        destruct m as [mh mn mo ms]. cbn in *. subst. destruct H7 as [(H7 & _)|(_ & -> & ->)]; [contradiction|reflexivity].
    + assert (Hif : forall m, mb_name m = name -> (mb_offset m = doff /\ next = off + 60 + sz + sz mod 2) <->
        (if thin then (special (mb_name m) /\ mb_offset m = doff /\ next = off + 60 + sz + sz mod 2) \/
                  (~ special (mb_name m) /\ mb_offset m = 0 /\ next = off + 60)
         else mb_offset m = doff /\ next = off + 60 + sz + sz mod 2)).
      { intros m0 ->. destruct thin; [|tauto]. cbn [andb] in Eth. apply special_iff in Eth. tauto. }
      split.
      * intros [= <- <-]. apply (member_at_intro F names thin off _ _ h sz doff); cbn [mb_name mb_size mb_header mb_offset]; auto.
        specialize (Hif {| mb_header := HCommon h; mb_name := name; mb_offset := doff; mb_size := dsz |} eq_refl). cbn [mb_name mb_size mb_header mb_offset] in Hif.
        apply Hif. auto.
      * intros [h' sz' doff' H1 H2 H3 H4 H5 H6 H7]. destruct (Hnm _ _ _ _ _ H1 H2 H4 H5) as (-> & -> & E1 & -> & E2).
        apply Hif in H7; [|assumption]. destruct m as [mh mn mo ms]. cbn in *. destruct H7 as [-> ->]. subst. reflexivity.
  - split; [discriminate|]. intros [h' sz' doff' H1 H2 H3 H4 H5 H6 H7]. pose proof (Hr h' H1 H2). subst h'. rewrite (Hfun sz' H4) in *.
    apply common_name_iff in H5; [|lia|lia|assumption]. congruence.
  - exfalso. eapply common_name_no_panic; eauto.
Qed.
Lemma member_no_panic F names thin off : file_ok F -> 0 <= off -> member_parse F off names thin <> Panic.
Proof.
  intros [HFb HF] Ho. unfold member_parse. rewrite rr_read_eq by lia.
  destruct (Z.leb_spec (off + 60) (zlen F)) as [Hb|Hb]; [|discriminate].
  assert (Hhl : zlen (zslice off 60 F) = 60) by (rewrite zlen_zslice; lia). set (h := zslice off 60 F) in *. clearbody h.
  destruct (negb (bytes_eqb (ah_terminator h) AR_TERMINATOR)); [discriminate|].
  destruct (parse_u64_digits (ah_size h) 10) as [sz|]; [|discriminate]. cbn [of_opt bind].
  pose proof (common_name_no_panic F h names (off + 60) sz Hhl) as Hn.
  destruct (common_name F h names (off + 60) sz) as [[[name doff] dsz]| |]; [|discriminate|contradiction]. cbn [bind].
  match goal with |- (if ?c then _ else _) <> _ => destruct c end; [discriminate|].
  unfold skip_data. destruct (cadd 64 (off + 60) sz); discriminate.
Qed.
(** Every member takes at least the 60 bytes of its header. *)
Lemma member_next F names thin off m next : member_at F names thin off m next -> off + 60 <= zlen F /\ off + 60 <= next.
Proof.
  intros [h sz doff H1 H2 H3 H4 H5 H6 H7]. apply holds_bounds in H1. split; [lia|]. pose proof H4 as Hb. apply number_bound in Hb; [|lia].
  pose proof (Z.mod_pos_bound sz 2). destruct thin; [destruct H7 as [(_ & _ & ->)|(_ & _ & ->)]|destruct H7 as (_ & ->)]; lia.
Qed.

(** * Iteration over the members *)
Lemma members_runs F names thin off l e st : file_ok F -> 0 <= off ->
  runs (members_next F names thin) (MCommon off (zlen F)) l e st -> members_from F names thin off l e.
Proof.
  intros HF Ho H. remember (MCommon off (zlen F)) as s eqn:Es. revert off Ho Es.
  induction H as [s s' H|s s' H|s s1 s' x l e H H2 IH]; intros off Ho ->; cbn [members_next] in H.
  - destruct (Z.leb_spec (zlen F) off); [apply mf_end; assumption|].
    destruct (member_parse F off names thin) as [[m o]| |]; discriminate.
  - destruct (Z.leb_spec (zlen F) off); [discriminate|].
    destruct (member_parse F off names thin) as [[m o]| |] eqn:E; try discriminate. apply mf_bad; [assumption|].
    intros m next Hm. apply member_iff in Hm; [congruence|assumption|assumption].
  - destruct (Z.leb_spec (zlen F) off); [discriminate|].
    destruct (member_parse F off names thin) as [[m o]| |] eqn:E; try discriminate.
    injection H as -> <-. apply member_iff in E; [|assumption|assumption]. eapply mf_cons; eauto. apply IH; [|reflexivity].
    apply member_next in E. lia.
Qed.
Lemma members_total F names thin off : file_ok F -> 0 <= off ->
  exists l e o, runs (members_next F names thin) (MCommon off (zlen F)) l e (MCommon o (zlen F)) /\ zlen F <= o.
Proof.
  intros HF. assert (exists n, zlen F - off <= Z.of_nat n) as [n Hn] by (exists (Z.to_nat (zlen F - off)); lia).
  revert off Hn. induction n as [|n IH]; intros off Hn Ho.
  - exists [], false, off. split; [|lia]. constructor. cbn [members_next]. destruct (Z.leb_spec (zlen F) off); [reflexivity|lia].
  - destruct (Z.leb_spec (zlen F) off).
    { exists [], false, off. split; [|lia]. constructor. cbn [members_next]. destruct (Z.leb_spec (zlen F) off); [reflexivity|lia]. }
    destruct (member_parse F off names thin) as [[m o]| |] eqn:E.
    + pose proof E as Em. apply member_iff in Em; [|assumption|assumption]. apply member_next in Em.
      destruct (IH o ltac:(lia) ltac:(lia)) as (l & e & o' & H1 & H2). exists (m :: l), e, o'. split; [|assumption].
      eapply runs_more; [|exact H1]. cbn [members_next]. destruct (Z.leb_spec (zlen F) off); [lia|]. rewrite E. reflexivity.
    + exists [], true, (zlen F). split; [|lia]. apply runs_err. cbn [members_next]. destruct (Z.leb_spec (zlen F) off); [lia|]. rewrite E. reflexivity.
    + exfalso. eapply member_no_panic; eauto.
Qed.
Lemma members_from_fun F names thin off l e l' e' : file_ok F -> 0 <= off ->
  members_from F names thin off l e -> members_from F names thin off l' e' -> l = l' /\ e = e'.
Proof.
  intros HF Ho H. revert l' e'. induction H as [off H|off H1 H2|off m next l e H1 H2 H3 IH]; intros l' e' H'; inversion H'; subst; try lia; auto.
  - exfalso. eapply H2; eauto.
  - exfalso. eapply H0; eauto.
  - apply member_iff in H2; [|assumption|assumption]. pose proof H0 as H0'. apply member_iff in H0; [|assumption|assumption].
    rewrite H2 in H0. injection H0 as <- <-. apply member_next in H0'. destruct (IH ltac:(lia) _ _ H4) as [-> ->]. auto.
Qed.
Lemma members_iff F names thin off l e : file_ok F -> 0 <= off ->
  (exists o, runs (members_next F names thin) (MCommon off (zlen F)) l e (MCommon o (zlen F)) /\ zlen F <= o) <-> members_from F names thin off l e.
Proof.
  intros HF Ho. split.
  - intros (o & H & _). eapply members_runs; eauto.
  - intro H. destruct (members_total F names thin off HF Ho) as (l' & e' & o & H1 & H2).
    pose proof (members_runs _ _ _ _ _ _ _ HF Ho H1) as H3. destruct (members_from_fun _ _ _ _ _ _ _ _ HF Ho H H3) as [-> ->]. eauto.
Qed.
Lemma members_count F names thin off l e : 0 <= off -> members_from F names thin off l e ->
  off <= zlen F -> 60 * zlen l <= zlen F - off.
Proof.
  intros Ho H. induction H as [off H|off H1 H2|off m next l e H1 H2 H3 IH]; intro Hf; change (zlen (@nil member)) with 0; try lia.
  rewrite zlen_cons. apply member_next in H2. destruct (Z.leb_spec next (zlen F)); [specialize (IH ltac:(lia) H); lia|].
  inversion H3; subst; [|lia|lia]. change (zlen (@nil member)) with 0. lia.
Qed.

(** * The special members *)
Lemma ar_next_iff F names thin off : file_ok F -> 0 <= off ->
  match ar_next F names thin off with
  | Ok None => zlen F <= off
  | Ok (Some (m, next)) => off < zlen F /\ member_at F names thin off m next
  | Err => off < zlen F /\ forall m next, ~ member_at F names thin off m next
  | Panic => False
  end.
Proof.
  intros HF Ho. unfold ar_next. destruct (Z.ltb_spec off (zlen F)); [|assumption].
  destruct (member_parse F off names thin) as [[m n]| |] eqn:E; cbn [bind].
  - apply member_iff in E; auto.
  - split; [assumption|]. intros m n Hm. apply member_iff in Hm; [congruence|assumption|assumption].
  - eapply member_no_panic; eauto.
Qed.
Lemma member_at_fun F names thin off m n m' n' : file_ok F -> 0 <= off ->
  member_at F names thin off m n -> member_at F names thin off m' n' -> m = m' /\ n = n'.
Proof. intros HF Ho H H'. apply member_iff in H, H'; try assumption. rewrite H in H'. injection H'. auto. Qed.
Lemma ar_next_none F names thin off : zlen F <= off -> ar_next F names thin off = Ok None.
Proof. intro H. unfold ar_next. destruct (Z.ltb_spec off (zlen F)); [lia|reflexivity]. Qed.
Lemma ar_next_some F names thin off m next : file_ok F -> 0 <= off -> off < zlen F -> member_at F names thin off m next ->
  ar_next F names thin off = Ok (Some (m, next)).
Proof.
  intros HF Ho H Hm. unfold ar_next. destruct (Z.ltb_spec off (zlen F)); [|lia]. apply member_iff in Hm; [|assumption|assumption]. rewrite Hm. reflexivity.
Qed.
(** The data of a member whose offset is not zero *)
Lemma name_of_offset F names nf off sz name doff dsz : zlen nf = 16 -> name_of F names nf off sz name doff dsz -> 0 <= off <= zlen F -> 0 <= sz ->
  off <= doff /\ 0 <= dsz /\ (doff <= zlen F).
Proof.
  intros Hnf [ds' k' nm fin' Ha Hb Hc Hd He Hf Hg|ds' n' raw' nm Ha Hb Hc Hd He Hf Hg|tl' nm Ha Hb Hc|nm tl' Ha Hb Hc Hd|nm Ha Hb]; intros Ho Hs; try lia.
  apply holds_bounds in He. pose proof (zlen_nonneg raw'). lia.
Qed.
Lemma member_data_iff F names thin off m next : file_ok F -> 0 <= off -> member_at F names thin off m next -> mb_offset m <> 0 ->
  forall d, mb_data F m = Ok d <-> contents F m d.
Proof.
  intros [HFb HF] Ho [h sz doff H1 H2 H3 H4 H5 H6 H7] Hnz d. apply holds_bounds in H1. rewrite H2 in H1.
  pose proof H4 as Hb. apply number_bound in Hb; [|lia].
  apply name_of_offset in H5; [|unfold ah_name; rewrite zlen_zslice; lia|lia|lia].
  assert (mb_offset m = doff) by (destruct thin; [destruct H7 as [(_ & Hx & _)|(_ & Hx & _)]; [exact Hx|lia]|destruct H7; assumption]).
  unfold mb_data, mb_is_thin, contents. destruct (Z.eqb_spec (mb_offset m) 0); [lia|]. rewrite rr_read_bytes_at_eq by lia.
  destruct (Z.eqb_spec (mb_size m) 0) as [E|].
  - split.
    + intros [= <-]. split; [apply holds_nil; lia|rewrite E; reflexivity].
    + intros [H8 H9]. rewrite E in H9. apply zlen_0_nil in H9. subst. reflexivity.
  - destruct (Z.leb_spec (mb_offset m + mb_size m) (zlen F)).
    + split.
      * intros [= <-]. split; [apply holds_zslice; lia|rewrite zlen_zslice; lia].
      * intros [H8 H9]. apply holds_slice in H8. rewrite H9 in H8. congruence.
    + split; [discriminate|]. intros [H8 H9]. apply holds_bounds in H8. lia.
Qed.
Lemma mb_data_no_panic F m : mb_data F m <> Panic.
Proof. unfold mb_data. destruct (mb_is_thin m); [discriminate|apply rr_read_bytes_at_no_panic]. Qed.
Lemma special_offset F names thin off m next : 0 <= off -> member_at F names thin off m next -> thin = false \/ special (mb_name m) -> mb_offset m <> 0.
Proof.
  intros Ho [h sz doff H1 H2 H3 H4 H5 H6 H7] Hs. apply holds_bounds in H1. pose proof H4 as Hb. apply number_bound in Hb; [|lia].
  apply name_of_offset in H5; [|unfold ah_name; rewrite zlen_zslice; lia|lia|lia].
  destruct thin; [destruct H7 as [(_ & -> & _)|(H7 & _)]; [lia|]|destruct H7; lia]. destruct Hs; [discriminate|contradiction].
Qed.

Lemma named_next F names thin off name m next : file_ok F -> 0 <= off -> named_at F names thin off name m next ->
  ar_next F names thin off = Ok (Some (m, next)) /\ bytes_eqb (mb_name m) name = true /\ 0 <= next.
Proof.
  intros HF Ho (H1 & H2 & H3). split; [apply ar_next_some; assumption|]. split; [rewrite H3; apply bytes_eqb_refl|].
  apply member_next in H2. lia.
Qed.
Lemma named_data F names thin off name m next d : file_ok F -> 0 <= off -> named_at F names thin off name m next ->
  special name -> contents F m d -> mb_data F m = Ok d.
Proof.
  intros HF Ho (H1 & H2 & H3) Hs Hc. eapply member_data_iff; eauto. eapply special_offset; eauto. right. congruence.
Qed.
Lemma next_not_next F names thin off l : file_ok F -> 0 <= off -> next_not F names thin off l ->
  ar_next F names thin off = Ok None \/ exists m next, ar_next F names thin off = Ok (Some (m, next)) /\ 0 <= next /\
    forall x, In x l -> bytes_eqb (mb_name m) x = false.
Proof.
  intros HF Ho [H|(m & next & H1 & H2 & H3)]; [left; apply ar_next_none; assumption|right].
  exists m, next. split; [apply ar_next_some; assumption|]. split; [apply member_next in H2; lia|].
  intros x Hx. destruct (bytes_eqb (mb_name m) x) eqn:E; [|reflexivity]. apply bytes_eqb_eq in E. subst x. contradiction.
Qed.
Ltac neq x E := match goal with H : x = ?Y |- _ => replace (bytes_eqb x E) with false by (rewrite H; reflexivity) end.
Lemma common_parse_of F thin k syms names off : file_ok F -> front F thin k syms names off ->
  ar_parse_common F thin 8 =
  Ok (ar_mk F thin k (match syms with Some m => (mb_offset m, mb_size m) | None => (0, 0) end) names off).
Proof.
  intros HF Hfr. unfold ar_parse_common. assert (P8 : 0 <= 8) by lia.
  destruct Hfr as [H|m n1 names H H2|m n1 H H2|m n1 m2 n2 names H H2 H3|m n1 H H2|m n1 m2 n2 names H H2 H3|m n1 nm H H2|m n1 nm H H2|
    m1 n1 m2 n2 names n3 n4 H H2 H3 H4].
  - apply next_not_next in H; [|assumption|lia]. destruct H as [H|(m & next & H & _ & Hx)]; rewrite H; cbn [bind]; [reflexivity|].
    rewrite !Hx by (cbn; tauto). reflexivity.
  - pose proof (named_next _ _ _ _ _ _ _ HF P8 H) as (E & En & _). rewrite E. cbn [bind]. apply bytes_eqb_eq in En.
    neq (mb_name m) N_slash. neq (mb_name m) N_sym64. rewrite En, bytes_eqb_refl.
    erewrite named_data; [reflexivity|exact HF| |exact H|right; left; reflexivity|exact H2]; lia.
  - pose proof (named_next _ _ _ _ _ _ _ HF P8 H) as (E & En & Hp). rewrite E. cbn [bind]. rewrite En.
    apply next_not_next in H2; [|assumption|assumption]. destruct H2 as [H2|(m2 & n2 & H2 & _ & Hx)]; rewrite H2; cbn [bind]; [reflexivity|].
    rewrite !Hx by (cbn; tauto). reflexivity.
  - pose proof (named_next _ _ _ _ _ _ _ HF P8 H) as (E & En & Hp). rewrite E. cbn [bind]. rewrite En.
    pose proof (named_next _ _ _ _ _ _ _ HF Hp H2) as (E2 & En2 & _). rewrite E2. cbn [bind]. rewrite En2.
    erewrite named_data; [reflexivity|exact HF|exact Hp|exact H2|right; left; reflexivity|exact H3].
  - pose proof (named_next _ _ _ _ _ _ _ HF P8 H) as (E & En & Hp). rewrite E. cbn [bind]. apply bytes_eqb_eq in En.
    neq (mb_name m) N_slash. rewrite En, bytes_eqb_refl.
    apply next_not_next in H2; [|assumption|assumption]. destruct H2 as [H2|(m2 & n2 & H2 & _ & Hx)]; rewrite H2; cbn [bind]; [reflexivity|].
    rewrite !Hx by (cbn; tauto). reflexivity.
  - pose proof (named_next _ _ _ _ _ _ _ HF P8 H) as (E & En & Hp). rewrite E. cbn [bind]. apply bytes_eqb_eq in En.
    neq (mb_name m) N_slash. rewrite En, bytes_eqb_refl.
    pose proof (named_next _ _ _ _ _ _ _ HF Hp H2) as (E2 & En2 & _). rewrite E2. cbn [bind]. rewrite En2.
    erewrite named_data; [reflexivity|exact HF|exact Hp|exact H2|right; left; reflexivity|exact H3].
  - pose proof (named_next _ _ _ _ _ _ _ HF P8 H) as (E & En & Hp). rewrite E. cbn [bind]. apply bytes_eqb_eq in En. rewrite En.
    destruct H2 as [-> | ->]; reflexivity.
  - pose proof (named_next _ _ _ _ _ _ _ HF P8 H) as (E & En & Hp). rewrite E. cbn [bind]. apply bytes_eqb_eq in En. rewrite En.
    destruct H2 as [-> | ->]; reflexivity.
  - pose proof (named_next _ _ _ _ _ _ _ HF P8 H) as (E & En & Hp). rewrite E. cbn [bind]. rewrite En.
    pose proof (named_next _ _ _ _ _ _ _ HF Hp H2) as (E2 & En2 & Hp2). rewrite E2. cbn [bind]. rewrite En2.
    apply bytes_eqb_eq in En2. neq (mb_name m2) N_names.
    destruct H3 as [(-> & -> & H3)|(m3 & H3 & Hc)].
    + pose proof H3 as H3'. apply next_not_next in H3; [|assumption|assumption]. destruct H4 as [(-> & H4)|(m4 & H4)].
      * apply next_not_next in H4; [|assumption|assumption]. destruct H3 as [H3|(m3 & n3 & H3 & _ & Hx)]; rewrite H3; cbn [bind].
        -- reflexivity.
        -- rewrite (Hx N_names) by (left; reflexivity). cbn [bind]. destruct H4 as [H4|(m4 & n4' & H4 & _ & Hx')]; [congruence|].
           assert (m3 = m4) by congruence. subst m4. rewrite (Hx' N_ec) by (left; reflexivity). reflexivity.
      * pose proof (named_next _ _ _ _ _ _ _ HF Hp2 H4) as (E4 & En4 & Hp4). rewrite E4. cbn [bind].
        apply bytes_eqb_eq in En4. neq (mb_name m4) N_names. cbn [bind]. rewrite En4, bytes_eqb_refl. reflexivity.
    + pose proof (named_next _ _ _ _ _ _ _ HF Hp2 H3) as (E3 & En3 & Hp3). rewrite E3. cbn [bind]. rewrite En3.
      erewrite named_data; [|exact HF|exact Hp2|exact H3|right; left; reflexivity|exact Hc]. cbn [bind].
      destruct H4 as [(-> & H4)|(m4 & H4)].
      * apply next_not_next in H4; [|assumption|assumption]. destruct H4 as [H4|(m4 & n4' & H4 & _ & Hx')]; rewrite H4; cbn [bind]; [reflexivity|].
        rewrite (Hx' N_ec) by (left; reflexivity). reflexivity.
      * pose proof (named_next _ _ _ _ _ _ _ HF Hp3 H4) as (E4 & En4 & Hp4). rewrite E4. cbn [bind]. rewrite En4. reflexivity.
Qed.
Ltac nxt HF Hp off :=
  match goal with |- context [ar_next ?F ?names ?thin off] =>
    let Hn := fresh "Hn" in pose proof (ar_next_iff F names thin off HF Hp) as Hn;
    destruct (ar_next F names thin off) as [[[? ?]|]| |]; cbn [bind]; [| |discriminate|contradiction]
  end.
Lemma named_of F names thin off name m n : off < zlen F /\ member_at F names thin off m n -> bytes_eqb (mb_name m) name = true ->
  named_at F names thin off name m n.
Proof. intros [H1 H2] H. apply bytes_eqb_eq in H. repeat split; assumption. Qed.
Lemma next_not_some F names thin off l m n : off < zlen F /\ member_at F names thin off m n -> (forall x, In x l -> bytes_eqb (mb_name m) x = false) ->
  next_not F names thin off l.
Proof.
  intros [H1 H2] H. right. exists m, n. split; [assumption|]. split; [assumption|]. intro Hi. specialize (H _ Hi). rewrite bytes_eqb_refl in H. discriminate.
Qed.
Lemma names_contents F names thin off m n d : file_ok F -> 0 <= off -> named_at F names thin off N_names m n -> mb_data F m = Ok d -> contents F m d.
Proof.
  intros HF Ho (H1 & H2 & H3) Hd. eapply member_data_iff; eauto. eapply special_offset; eauto. right. right. left. congruence.
Qed.
Lemma named_pos F names thin off name m n : 0 <= off -> named_at F names thin off name m n -> 0 <= n.
Proof. intros Ho (_ & H & _). apply member_next in H. lia. Qed.
Lemma common_parse_inv F thin a : file_ok F -> ar_parse_common F thin 8 = Ok a ->
  exists k syms names off, front F thin k syms names off /\
    a = ar_mk F thin k (match syms with Some m => (mb_offset m, mb_size m) | None => (0, 0) end) names off.
Proof.
  intros HF. unfold ar_parse_common. assert (P8 : 0 <= 8) by lia. nxt HF P8 8.
  2:{ intros [= <-]. exists AKUnknown, None, [], 8. split; [constructor; left; assumption|reflexivity]. }
  destruct (bytes_eqb (mb_name m) N_slash) eqn:B1.
  { pose proof (named_of _ _ _ _ _ _ _ Hn B1) as N1. pose proof (named_pos _ _ _ _ _ _ _ P8 N1) as P1. nxt HF P1 z.
    2:{ intros [= <-]. exists AKGnu, (Some m), [], z. split; [eapply fr_gnu; [exact N1|left; assumption]|reflexivity]. }
    destruct (bytes_eqb (mb_name m0) N_names) eqn:B2.
    { destruct (mb_data F m0) as [d| |] eqn:Ed; try discriminate. cbn [bind]. intros [= <-].
      pose proof (named_of _ _ _ _ _ _ _ Hn0 B2) as N2. exists AKGnu, (Some m), d, z0. split; [|reflexivity].
      eapply fr_gnu_names; [exact N1|exact N2|]. eapply names_contents; [exact HF|exact P1|exact N2|exact Ed]. }
    destruct (bytes_eqb (mb_name m0) N_slash) eqn:B3.
    2:{ intros [= <-]. exists AKGnu, (Some m), [], z. split; [eapply fr_gnu; [exact N1|]|reflexivity].
        eapply next_not_some; [exact Hn0|]. intros x [<-|[<-|[]]]; assumption. }
    pose proof (named_of _ _ _ _ _ _ _ Hn0 B3) as N2. pose proof (named_pos _ _ _ _ _ _ _ P1 N2) as P2.
    nxt HF P2 z0.
    2:{ intros [= <-]. exists AKCoff, (Some m0), [], z0. split; [|reflexivity].
        eapply fr_coff; [exact N1|exact N2|left|left]; repeat split; left; assumption. }
    destruct (bytes_eqb (mb_name m1) N_names) eqn:B4.
    - destruct (mb_data F m1) as [d| |] eqn:Ed; try discriminate. cbn [bind].
      pose proof (named_of _ _ _ _ _ _ _ Hn1 B4) as N3. pose proof (named_pos _ _ _ _ _ _ _ P2 N3) as P3.
      pose proof (names_contents _ _ _ _ _ _ _ HF P2 N3 Ed) as Hc. nxt HF P3 z1.
      + intros [= <-]. destruct (bytes_eqb (mb_name m2) N_ec) eqn:B5.
        * exists AKCoff, (Some m0), d, z2. split; [|reflexivity]. eapply fr_coff; [exact N1|exact N2|right|right]; eauto.
          eexists. eapply named_of; eauto.
        * exists AKCoff, (Some m0), d, z1. split; [|reflexivity]. eapply fr_coff; [exact N1|exact N2|right|left]; eauto.
          split; [reflexivity|]. eapply next_not_some; [exact Hn2|]. intros x [<-|[]]; assumption.
      + intros [= <-]. exists AKCoff, (Some m0), d, z1. split; [|reflexivity]. eapply fr_coff; [exact N1|exact N2|right|left]; eauto.
        split; [reflexivity|]. left; assumption.
    - cbn [bind]. intros [= <-].
      assert (NN : next_not F [] thin z0 [N_names]) by (eapply next_not_some; [exact Hn1|]; intros x [<-|[]]; assumption).
      destruct (bytes_eqb (mb_name m1) N_ec) eqn:B5.
      + exists AKCoff, (Some m0), [], z1. split; [|reflexivity]. eapply fr_coff; [exact N1|exact N2|left; repeat split; exact NN|right].
        eexists. eapply named_of; eauto.
      + exists AKCoff, (Some m0), [], z0. split; [|reflexivity]. eapply fr_coff; [exact N1|exact N2|left; repeat split; exact NN|left].
        split; [reflexivity|]. eapply next_not_some; [exact Hn1|]. intros x [<-|[]]; assumption. }
  destruct (bytes_eqb (mb_name m) N_sym64) eqn:B2.
  { pose proof (named_of _ _ _ _ _ _ _ Hn B2) as N1. pose proof (named_pos _ _ _ _ _ _ _ P8 N1) as P1. nxt HF P1 z.
    2:{ intros [= <-]. exists AKGnu64, (Some m), [], z. split; [eapply fr_gnu64; [exact N1|left; assumption]|reflexivity]. }
    destruct (bytes_eqb (mb_name m0) N_names) eqn:B3.
    { destruct (mb_data F m0) as [d| |] eqn:Ed; try discriminate. cbn [bind]. intros [= <-].
      pose proof (named_of _ _ _ _ _ _ _ Hn0 B3) as N2. exists AKGnu64, (Some m), d, z0. split; [|reflexivity].
      eapply fr_gnu64_names; [exact N1|exact N2|]. eapply names_contents; [exact HF|exact P1|exact N2|exact Ed]. }
    intros [= <-]. exists AKGnu64, (Some m), [], z. split; [eapply fr_gnu64; [exact N1|]|reflexivity].
    eapply next_not_some; [exact Hn0|]. intros x [<-|[]]; assumption. }
  destruct (bytes_eqb (mb_name m) N_names) eqn:B3.
  { destruct (mb_data F m) as [d| |] eqn:Ed; try discriminate. cbn [bind]. intros [= <-].
    pose proof (named_of _ _ _ _ _ _ _ Hn B3) as N2. exists AKGnu, None, d, z. split; [|reflexivity].
    eapply fr_names; [exact N2|]. eapply names_contents; [exact HF|exact P8|exact N2|exact Ed]. }
  destruct (bytes_eqb (mb_name m) N_symdef) eqn:B4; cbn [orb].
  { intros [= <-]. exists AKBsd, (Some m), [], z. split; [|reflexivity]. eapply fr_bsd; [eapply named_of; eauto|auto]. }
  destruct (bytes_eqb (mb_name m) N_symdef_sorted) eqn:B5; cbn [orb].
  { intros [= <-]. exists AKBsd, (Some m), [], z. split; [|reflexivity]. eapply fr_bsd; [eapply named_of; eauto|auto]. }
  destruct (bytes_eqb (mb_name m) N_symdef_64) eqn:B6; cbn [orb].
  { intros [= <-]. exists AKBsd64, (Some m), [], z. split; [|reflexivity]. eapply fr_bsd64; [eapply named_of; eauto|auto]. }
  destruct (bytes_eqb (mb_name m) N_symdef_64_sorted) eqn:B7; cbn [orb].
  { intros [= <-]. exists AKBsd64, (Some m), [], z. split; [|reflexivity]. eapply fr_bsd64; [eapply named_of; eauto|auto]. }
  intros [= <-]. exists AKUnknown, None, [], 8. split; [constructor|reflexivity].
  eapply next_not_some; [exact Hn|]. intros x Hx. cbn [In] in Hx. decompose [or] Hx; subst; try assumption. contradiction.
Qed.
Lemma common_parse_no_panic F thin : file_ok F -> ar_parse_common F thin 8 <> Panic.
Proof.
  intros HF. unfold ar_parse_common. assert (P8 : 0 <= 8) by lia.
  Ltac np_next HF := match goal with |- context [ar_next ?F ?names ?thin ?off] =>
    let Hn := fresh "Hn" in
    assert (Hn : 0 <= off) by (try lia; match goal with H : _ /\ member_at _ _ _ _ _ off |- _ => let H' := fresh in pose proof (member_next _ _ _ _ _ _ (proj2 H)) as H'; lia end);
    let Hn' := fresh in pose proof (ar_next_iff F names thin off HF Hn) as Hn'; destruct (ar_next F names thin off) as [[[? ?]|]| |]; cbn [bind]; [| |discriminate|contradiction]; try discriminate end.
  Ltac np_data := match goal with |- context [mb_data ?F ?m] => let H := fresh in pose proof (mb_data_no_panic F m) as H; destruct (mb_data F m); cbn [bind]; try congruence end.
  np_next HF. destruct (bytes_eqb (mb_name m) N_slash).
  { np_next HF. destruct (bytes_eqb (mb_name m0) N_names); [np_data|]. destruct (bytes_eqb (mb_name m0) N_slash); [|discriminate].
    np_next HF. destruct (bytes_eqb (mb_name m1) N_names); [|discriminate]. np_data. np_next HF. }
  destruct (bytes_eqb (mb_name m) N_sym64).
  { np_next HF. destruct (bytes_eqb (mb_name m0) N_names); [np_data|discriminate]. }
  destruct (bytes_eqb (mb_name m) N_names); [np_data|].
  destruct (bytes_eqb (mb_name m) N_symdef || bytes_eqb (mb_name m) N_symdef_sorted); [discriminate|].
  destruct (bytes_eqb (mb_name m) N_symdef_64 || bytes_eqb (mb_name m) N_symdef_64_sorted); discriminate.
Qed.

(** * z/OS *)
Lemma ebcdic_digit_at_iff nf i d : zget nf i = Some d -> is_ebcdic_digit d = true <-> ebcdic_digit_at nf i.
Proof.
  intro H. unfold is_ebcdic_digit, ebcdic_digit_at. split.
  - intro E. exists d. split; [assumption|lia].
  - intros (d' & H' & Hd). rewrite H in H'. injection H' as <-. lia.
Qed.
Lemma zos_member_iff F off m next : file_ok F -> 0 <= off ->
  member_parse_zos F off = Ok (m, next) <-> zos_member_at F off m next.
Proof.
  intros [HFb HF] Ho. unfold member_parse_zos. rewrite rr_read_eq by lia.
  destruct (Z.leb_spec (off + 60) (zlen F)) as [Hb|Hb]; cycle 1.
  { split; [discriminate|]. intros [h sz H1 H2]. apply holds_bounds in H1. lia. }
  pose proof (holds_zslice F off 60 ltac:(lia) ltac:(lia) ltac:(lia)) as Hh. assert (Hhl : zlen (zslice off 60 F) = 60) by (rewrite zlen_zslice; lia).
  assert (Hr : forall h, holds F off h -> zlen h = 60 -> h = zslice off 60 F).
  { intros h H1 H2. apply holds_slice in H1. rewrite H2 in H1. congruence. }
  set (h := zslice off 60 F) in *. clearbody h.
  destruct (bytes_eqb (ah_terminator h) AR_ZOS_TERMINATOR) eqn:Et; cbn [negb]; cycle 1.
  { split; [discriminate|]. intros [h' sz H1 H2 H3]. rewrite (Hr h' H1 H2) in H3. rewrite H3 in Et. discriminate. }
  apply bytes_eqb_eq in Et.
  assert (Hsl : zlen (ah_size h) = 10) by (unfold ah_size; rewrite zlen_zslice; lia).
  assert (Hsn : ah_size h <> []) by (intro E; rewrite E in Hsl; discriminate).
  assert (R10 : 10 = 8 \/ 10 = 10) by (right; reflexivity).
  destruct (parse_u64_ebcdic_digits (ah_size h) 10) as [sz|] eqn:Es; cbn [of_opt bind]; cycle 1.
  { split; [discriminate|]. intros [h' sz H1 H2 H3 H4]. rewrite (Hr h' H1 H2) in H4.
    apply parse_u64_ebcdic_digits_iff in H4; [congruence|assumption|assumption]. }
  pose proof (proj1 (parse_u64_ebcdic_digits_iff (ah_size h) 10 sz R10 Hsn) Es) as Hsz.
  pose proof (number10_bound _ _ _ _ Hsl Hsz) as Hszb. change (10 ^ 10) with 10000000000 in Hszb.
  assert (Hfun : forall sz', ebcdic_number 10 (ah_size h) sz' -> sz' = sz).
  { intros sz' H. eapply number_fun; [|exact H|exact Hsz]. intros; lia. }
  assert (Hn : zlen (ah_name h) = 16) by (unfold ah_name; rewrite zlen_zslice; lia).
  destruct (zget_lt_Some (ah_name h) 3 ltac:(lia)) as [n3 E3]. rewrite E3. cbn [unwrap bind].
  pose proof (ebcdic_digit_at_iff _ 3 n3 E3) as D3.
  assert (G : forall name doff dsz,
    (if bytes_eqb (ztake 3 (ah_name h)) [123; 241; 97] && is_ebcdic_digit n3
              then bsd_name (parse_u64_ebcdic_digits (zdrop 3 (ah_name h)) 10) F (off + 60) sz
              else
                name <- unwrap (get_to (ah_name h) (match memchr 64 (ah_name h) with Some n => n | None => zlen (ah_name h) end)) ;; Ok (name, off + 60, sz))
     = Ok (name, doff, dsz) <-> zos_name_of F (ah_name h) (off + 60) sz name doff dsz).
  { set (nf := ah_name h) in *. clearbody nf. intros name doff dsz.
    destruct (bytes_eqb (ztake 3 nf) [123; 241; 97] && is_ebcdic_digit n3) eqn:B.
    - apply andb_prop in B as [B1 B2]. apply list3 in B1; [|lia]. destruct B1 as [ds Eds]. apply D3 in B2.
      assert (zdrop 3 nf = ds) as -> by (rewrite Eds; reflexivity).
      assert (ds <> []) by (intros ->; rewrite Eds in Hn; discriminate).
      rewrite bsd_name_iff; [|assumption|lia|]; cycle 1.
      { intros n E. apply parse_u64_ebcdic_digits_iff in E; [|assumption|assumption]. apply number_bound in E; lia. }
      split.
      + intros (n & raw & H1 & H2 & H3 & H4 & H5 & -> & ->). apply parse_u64_ebcdic_digits_iff in H1; [|assumption|assumption]. eapply zn_bsd; eauto.
      + intros [ds' n' raw' nm Ha Hb' Hc Hd He Hf Hg|nm Ha Hb'].
        * assert (ds' = ds) by congruence. subst ds'. exists n', raw'. split; [apply parse_u64_ebcdic_digits_iff; assumption|]. auto 10.
        * exfalso. apply Ha. eauto.
    - assert (N : ~ ((exists ds, nf = 123 :: 241 :: 97 :: ds) /\ ebcdic_digit_at nf 3)).
      { intros [H1 H2]. apply (list3 nf) in H1; [|lia]. apply D3 in H2. rewrite H1, H2 in B. discriminate. }
      destruct (until_ok 64 nf) as [nm Hnm]. rewrite (until_compute _ _ _ Hnm). cbn [bind]. split.
      + intros [= <- <- <-]. apply zn_field; assumption.
      + intros [ds' n' raw' nm' Ha Hb' Hc Hd He Hf Hg|nm' Ha Hb'].
        * exfalso. apply N. eauto.
        * rewrite (until_fun _ _ _ _ Hnm Hb'). reflexivity. }
  match goal with |- bind ?r _ = _ <-> _ => change (forall name doff dsz, r = Ok (name, doff, dsz) <-> zos_name_of F (ah_name h) (off + 60) sz name doff dsz) in G; destruct r as [[[name doff] dsz]| |] end;
    cbn [bind].
  - pose proof (proj1 (G name doff dsz) eq_refl) as G0. rewrite skip_data_eq by lia. cbn [bind]. split.
    + intros [= <- <-]. eapply zos_member_at_intro; eauto.
    + intros [h' sz' H1 H2 H3 H4 H5 H6 ->]. pose proof (Hr h' H1 H2). subst h'. rewrite (Hfun sz' H4) in *. apply G in H5. injection H5 as -> -> ->.
      destruct m as [mh mn mo ms]. cbn in *. subst. reflexivity.
  - split; [discriminate|]. intros [h' sz' H1 H2 H3 H4 H5 H6 ->]. pose proof (Hr h' H1 H2). subst h'. rewrite (Hfun sz' H4) in *. apply G in H5. discriminate.
  - split; [discriminate|]. intros [h' sz' H1 H2 H3 H4 H5 H6 ->]. pose proof (Hr h' H1 H2). subst h'. rewrite (Hfun sz' H4) in *. apply G in H5. discriminate.
Qed.
Lemma zos_member_no_panic F off : file_ok F -> 0 <= off -> member_parse_zos F off <> Panic.
Proof.
  intros [HFb HF] Ho. unfold member_parse_zos. rewrite rr_read_eq by lia.
  destruct (Z.leb_spec (off + 60) (zlen F)) as [Hb|Hb]; [|discriminate].
  assert (Hhl : zlen (zslice off 60 F) = 60) by (rewrite zlen_zslice; lia). set (h := zslice off 60 F) in *. clearbody h.
  destruct (negb (bytes_eqb (ah_terminator h) AR_ZOS_TERMINATOR)); [discriminate|].
  destruct (parse_u64_ebcdic_digits (ah_size h) 10) as [sz|]; [|discriminate]. cbn [of_opt bind].
  assert (Hn : zlen (ah_name h) = 16) by (unfold ah_name; rewrite zlen_zslice; lia).
  destruct (zget_lt_Some (ah_name h) 3 ltac:(lia)) as [n3 E3]. rewrite E3. cbn [unwrap bind].
  match goal with |- bind (if ?c then _ else _) _ <> _ => destruct c end.
  - pose proof (bsd_name_no_panic F (off + 60) (parse_u64_ebcdic_digits (zdrop 3 (ah_name h)) 10) sz) as Hp.
    destruct (bsd_name (parse_u64_ebcdic_digits (zdrop 3 (ah_name h)) 10) F (off + 60) sz) as [[[name doff] dsz]| |]; [|discriminate|contradiction].
    cbn [bind]. unfold skip_data. destruct (cadd 64 (off + 60) sz); discriminate.
  - destruct (until_ok 64 (ah_name h)) as [nm Hnm]. rewrite (until_compute _ _ _ Hnm). cbn [bind]. unfold skip_data. destruct (cadd 64 (off + 60) sz); discriminate.
Qed.
Lemma zos_member_next F off m next : zos_member_at F off m next -> off + 60 <= zlen F /\ off + 60 <= next.
Proof.
  intros [h sz H1 H2 H3 H4 H5 H6 H7]. apply holds_bounds in H1. split; [lia|]. pose proof H4 as Hb. apply number_bound in Hb; [|lia].
  pose proof (Z.mod_pos_bound sz 2). lia.
Qed.
Lemma zos_members_runs F names thin off l e st : file_ok F -> 0 <= off ->
  runs (members_next F names thin) (MZos off (zlen F)) l e st -> zos_members_from F off l e.
Proof.
  intros HF Ho H. remember (MZos off (zlen F)) as s eqn:Es. revert off Ho Es.
  induction H as [s s' H|s s' H|s s1 s' x l e H H2 IH]; intros off Ho ->; cbn [members_next] in H.
  - destruct (Z.leb_spec (zlen F) off); [apply zf_end; assumption|].
    destruct (member_parse_zos F off) as [[m o]| |]; discriminate.
  - destruct (Z.leb_spec (zlen F) off); [discriminate|].
    destruct (member_parse_zos F off) as [[m o]| |] eqn:E; try discriminate. apply zf_bad; [assumption|].
    intros m next Hm. apply zos_member_iff in Hm; [congruence|assumption|assumption].
  - destruct (Z.leb_spec (zlen F) off); [discriminate|].
    destruct (member_parse_zos F off) as [[m o]| |] eqn:E; try discriminate.
    injection H as -> <-. apply zos_member_iff in E; [|assumption|assumption]. eapply zf_cons; eauto. apply IH; [|reflexivity].
    apply zos_member_next in E. lia.
Qed.
Lemma zos_members_total F names thin off : file_ok F -> 0 <= off ->
  exists l e o, runs (members_next F names thin) (MZos off (zlen F)) l e (MZos o (zlen F)) /\ zlen F <= o.
Proof.
  intros HF. assert (exists n, zlen F - off <= Z.of_nat n) as [n Hn] by (exists (Z.to_nat (zlen F - off)); lia).
  revert off Hn. induction n as [|n IH]; intros off Hn Ho.
  - exists [], false, off. split; [|lia]. constructor. cbn [members_next]. destruct (Z.leb_spec (zlen F) off); [reflexivity|lia].
  - destruct (Z.leb_spec (zlen F) off).
    { exists [], false, off. split; [|lia]. constructor. cbn [members_next]. destruct (Z.leb_spec (zlen F) off); [reflexivity|lia]. }
    destruct (member_parse_zos F off) as [[m o]| |] eqn:E.
    + pose proof E as Em. apply zos_member_iff in Em; [|assumption|assumption]. apply zos_member_next in Em.
      destruct (IH o ltac:(lia) ltac:(lia)) as (l & e & o' & H1 & H2). exists (m :: l), e, o'. split; [|assumption].
      eapply runs_more; [|exact H1]. cbn [members_next]. destruct (Z.leb_spec (zlen F) off); [lia|]. rewrite E. reflexivity.
    + exists [], true, (zlen F). split; [|lia]. apply runs_err. cbn [members_next]. destruct (Z.leb_spec (zlen F) off); [lia|]. rewrite E. reflexivity.
    + exfalso. eapply zos_member_no_panic; eauto.
Qed.

(** * AIX *)
Lemma aix_member_iff F off m : file_ok F -> 0 <= off ->
  member_parse_aix F off = Ok m <-> aix_member_at F off m.
Proof.
  intros [HFb HF] Ho. unfold member_parse_aix. rewrite rr_read_eq by lia.
  destruct (Z.leb_spec (off + 112) (zlen F)) as [Hb|Hb]; cycle 1.
  { split; [discriminate|]. intros [h n pos H1 H2]. apply holds_bounds in H1. lia. }
  pose proof (holds_zslice F off 112 ltac:(lia) ltac:(lia) ltac:(lia)) as Hh. assert (Hhl : zlen (zslice off 112 F) = 112) by (rewrite zlen_zslice; lia).
  assert (Hr : forall h, holds F off h -> zlen h = 112 -> h = zslice off 112 F).
  { intros h H1 H2. apply holds_slice in H1. rewrite H2 in H1. congruence. }
  set (h := zslice off 112 F) in *. clearbody h.
  assert (Hnl : zlen (xh_namlen h) = 4) by (unfold xh_namlen; rewrite zlen_zslice; lia).
  assert (Hnn : xh_namlen h <> []) by (intro E; rewrite E in Hnl; discriminate).
  assert (Hsl : zlen (xh_size h) = 20) by (unfold xh_size; rewrite zlen_zslice; lia).
  assert (Hsn : xh_size h <> []) by (intro E; rewrite E in Hsl; discriminate).
  destruct (parse_u64_digits (xh_namlen h) 10) as [n|] eqn:En; cbn [of_opt bind]; cycle 1.
  { split; [discriminate|]. intros [h' n pos H1 H2 H3]. rewrite (Hr h' H1 H2) in H3. apply parse_u64_digits_iff in H3; [congruence|lia|assumption]. }
  apply parse_u64_digits_iff in En; [|lia|assumption]. pose proof En as Hnb. apply number_bound in Hnb; [|lia].
  assert (Hnf : forall n', ascii_number 10 (xh_namlen h) n' -> n' = n).
  { intros n' H. eapply number_fun; [|exact H|exact En]. intros; lia. }
  rewrite rr_read_bytes_eq by lia. destruct (Z.leb_spec (off + 112 + n) (zlen F)) as [Hb2|Hb2]; cycle 1.
  { split; [discriminate|]. intros [h' n' pos H1 H2 H3 H4 H5]. rewrite (Hr h' H1 H2) in *. rewrite (Hnf _ H3) in *. apply holds_bounds in H4. lia. }
  set (o := off + 112 + n) in *.
  assert (Ho2 : (if negb (Z.land o 1 =? 0) then sadd 64 o 1 else o) = o + o mod 2).
  { pose proof (odd_land o ltac:(lia)) as Hm. destruct (negb (Z.land o 1 =? 0)); [|lia].
    unfold sadd. destruct (Z.ltb_spec (o + 1) (2 ^ 64)); lia. }
  rewrite Ho2. set (pos := o + o mod 2) in *. pose proof (Z.mod_pos_bound o 2 ltac:(lia)) as Hm2.
  assert (Hpos : o <= pos <= o + 1) by (unfold pos; lia).
  destruct (Z.leb_spec (pos + 2) (zlen F)) as [Hb3|Hb3]; cycle 1.
  { assert (fst (rr_read_bytes F pos 2) = Err) as Hx.
    { unfold rr_read_bytes. rewrite rr_read_bytes_at_eq by lia. destruct (Z.eqb_spec 2 0); [lia|]. destruct (Z.leb_spec (pos + 2) (zlen F)); [lia|reflexivity]. }
    destruct (rr_read_bytes F pos 2) as [r o']. cbn in Hx. subst r. split; [discriminate|].
    intros [h' n' pos' H1 H2 H3 H4 H5 H6 H7]. rewrite (Hr h' H1 H2) in *. rewrite (Hnf _ H3) in *. apply holds_bounds in H7. change (zlen AR_TERMINATOR) with 2 in H7. lia. }
  rewrite rr_read_bytes_eq by lia. destruct (Z.leb_spec (pos + 2) (zlen F)) as [_|?]; [|lia].
  destruct (bytes_eqb (zslice pos 2 F) AR_TERMINATOR) eqn:Et; cbn [negb]; cycle 1.
  { split; [discriminate|]. intros [h' n' pos' H1 H2 H3 H4 H5 H6 H7]. rewrite (Hr h' H1 H2) in *. rewrite (Hnf _ H3) in *.
    apply holds_slice in H7. change (zlen AR_TERMINATOR) with 2 in H7. assert (Hpp : pos' = pos) by (unfold pos, o; lia). rewrite Hpp in H7. rewrite H7 in Et. discriminate. }
  apply bytes_eqb_eq in Et.
  destruct (parse_u64_digits (xh_size h) 10) as [sz|] eqn:Es; cbn [of_opt bind]; cycle 1.
  { split; [discriminate|]. intros [h' n' pos' H1 H2 H3 H4 H5 H6 H7 H8]. rewrite (Hr h' H1 H2) in *. apply parse_u64_digits_iff in H8; [congruence|lia|assumption]. }
  apply parse_u64_digits_iff in Es; [|lia|assumption].
  split.
  - intros [= <-]. eapply aix_member_at_intro with (pos := pos); cbn [mb_name mb_size mb_offset mb_header]; eauto.
    + apply holds_zslice; lia.
    + rewrite zlen_zslice; lia.
    + rewrite <- Et. apply holds_zslice; lia.
  - intros [h' n' pos' H1 H2 H3 H4 H5 H6 H7 H8 H9 H10]. pose proof (Hr h' H1 H2). subst h'. rewrite (Hnf _ H3) in *.
    assert (Hpp : pos' = pos) by (unfold pos, o; lia). rewrite Hpp in H9. apply holds_slice in H4. rewrite H5 in H4.
    destruct m as [mh mn mo ms]. cbn in *. rewrite H4, H9, H10. repeat f_equal. eapply number_fun; [|exact Es|exact H8]. intros; lia.
Qed.
Lemma aix_member_no_panic F off : member_parse_aix F off <> Panic.
Proof.
  unfold member_parse_aix. pose proof (rr_read_no_panic F off 112) as H1. destruct (rr_read F off 112) as [[h| |] o]; [|discriminate|contradiction].
  destruct (parse_u64_digits (xh_namlen h) 10) as [n|]; [|discriminate]. cbn [of_opt bind].
  pose proof (rr_read_bytes_no_panic F o n) as H2. destruct (rr_read_bytes F o n) as [[nm| |] o2]; [|discriminate|contradiction].
  match goal with |- context [rr_read_bytes F ?x 2] => pose proof (rr_read_bytes_no_panic F x 2) as H3; destruct (rr_read_bytes F x 2) as [[t| |] o3] end; [|discriminate|contradiction].
  destruct (negb (bytes_eqb t AR_TERMINATOR)); [discriminate|]. destruct (parse_u64_digits (xh_size h) 10); discriminate.
Qed.
Definition read_index (d : bytes) : out (list bytes) :=
  match b_read_slice d 1 20 with
  | (Ok count_bytes, d) =>
    members_count <- of_opt (parse_u64_digits (concat count_bytes) 10) ;;
    match b_read_slice d 20 members_count with
    | (Ok index, _) => Ok index
    | (Err, _) => Err
    | (Panic, _) => Panic
    end
  | (Err, _) => Err
  | (Panic, _) => Panic
  end.
Lemma concat_singletons (c : bytes) : concat (map (fun x => [x]) c) = c.
Proof. induction c; cbn; congruence. Qed.
Lemma read_index_iff d index : zlen d < 2 ^ 63 -> read_index d = Ok index <-> aix_index d index.
Proof.
  intros Hd. unfold read_index, aix_index. split.
  - destruct (b_read_slice d 1 20) as [r d'] eqn:E. apply b_read_slice_spec in E; [|lia|lia].
    destruct E as [(cs & -> & H1 & H2 & ->)|(-> & _)]; [|discriminate].
    assert (Hc : zlen (concat cs) = 20) by (rewrite (zlen_concat_const 1) by assumption; lia).
    assert (Hne : concat cs <> []) by (intro E; rewrite E in Hc; discriminate).
    destruct (parse_u64_digits (concat cs) 10) as [n|] eqn:En; [|discriminate]. cbn [of_opt bind].
    apply parse_u64_digits_iff in En; [|lia|assumption]. pose proof En as Hb. apply number_bound in Hb; [|lia].
    destruct (b_read_slice d' 20 n) as [r d2] eqn:E. apply b_read_slice_spec in E; [|lia|lia].
    destruct E as [(ix & -> & H3 & H4 & ->)|(-> & _)]; [|discriminate].
    intros [= <-]. exists (concat cs), n, d2. auto.
  - intros (c & n & tl & -> & Hc & Hn & Hi & Hf).
    rewrite <- (concat_singletons c) at 1. rewrite b_read_slice_app; [|lia| | |].
    + rewrite concat_singletons. assert (Hne : c <> []) by (intro E; rewrite E in Hc; discriminate).
      apply parse_u64_digits_iff in Hn; [|lia|assumption]. rewrite Hn. cbn [of_opt bind].
      rewrite b_read_slice_app; [reflexivity|lia|assumption|lia|].
      rewrite !zlen_app, (zlen_concat_const 20) in Hd by assumption. pose proof (zlen_nonneg tl). lia.
    + rewrite Forall_map. apply Forall_forall. intros; reflexivity.
    + unfold zlen in *. rewrite map_length. lia.
    + unfold zlen in *. rewrite map_length. lia.
Qed.
Lemma read_index_no_panic d : read_index d <> Panic.
Proof.
  unfold read_index. destruct (b_read_slice d 1 20) as [r d'] eqn:E. apply b_read_slice_spec in E; [|lia|lia].
  destruct E as [(cs & -> & _)|(-> & _)]; [|discriminate]. destruct (parse_u64_digits (concat cs) 10) as [n|]; [|discriminate]. cbn [of_opt bind].
  unfold b_read_slice. destruct (slice_from_bytes d' 20 n) as [[v tl]| |]; discriminate.
Qed.
Lemma aix_data_iff F off m d : file_ok F -> 0 <= off -> aix_member_at F off m -> mb_data F m = Ok d <-> contents F m d.
Proof.
  intros [HFb HF] Ho [h n pos H1 H2 H3 H4 H5 H6 H7 H8 H9 H10]. apply number_bound in H3; [|lia]. apply number_bound in H8; [|lia].
  apply holds_bounds in H7. change (zlen AR_TERMINATOR) with 2 in H7. pose proof (Z.mod_pos_bound (off + 112 + n) 2).
  unfold mb_data, mb_is_thin, contents. destruct (Z.eqb_spec (mb_offset m) 0); [lia|]. rewrite rr_read_bytes_at_eq by lia.
  destruct (Z.eqb_spec (mb_size m) 0) as [E|].
  - split.
    + intros [= <-]. split; [apply holds_nil; lia|rewrite E; reflexivity].
    + intros [Ha Hb]. rewrite E in Hb. apply zlen_0_nil in Hb. subst. reflexivity.
  - destruct (Z.leb_spec (mb_offset m + mb_size m) (zlen F)).
    + split.
      * intros [= <-]. split; [apply holds_zslice; lia|rewrite zlen_zslice; lia].
      * intros [Ha Hb]. apply holds_slice in Ha. rewrite Hb in Ha. congruence.
    + split; [discriminate|]. intros [Ha Hb]. apply holds_bounds in Ha. lia.
Qed.
Lemma xf_field fh (f : bytes -> bytes) o : zlen fh = 128 -> (f = fun h => zslice o 20 h) -> 0 <= o <= 108 -> f fh <> [].
Proof. intros H -> Ho E. assert (zlen (zslice o 20 fh) = 20) by (rewrite zlen_zslice; lia). rewrite E in *. discriminate. Qed.
Lemma aix_parse_iff F a : file_ok F -> holds F 0 AR_AIX_BIG_MAGIC -> ar_parse_aix F = Ok a <-> aix_archive F a.
Proof.
  intros HF Hm. pose proof HF as [HFb HFl]. unfold ar_parse_aix, aix_archive. rewrite rr_read_eq by lia.
  destruct (Z.leb_spec (0 + 128) (zlen F)) as [Hb|Hb]; cycle 1.
  { split; [discriminate|]. intros (_ & _ & _ & _ & fh & H1 & H2 & _). apply holds_bounds in H1. lia. }
  pose proof (holds_zslice F 0 128 ltac:(lia) ltac:(lia) ltac:(lia)) as Hh. assert (Hhl : zlen (zslice 0 128 F) = 128) by (rewrite zlen_zslice; lia).
  assert (Hr : forall h, holds F 0 h -> zlen h = 128 -> h = zslice 0 128 F).
  { intros h H1 H2. apply holds_slice in H1. rewrite H2 in H1. congruence. }
  assert (Hmg : zslice 0 8 (zslice 0 128 F) = AR_AIX_BIG_MAGIC).
  { rewrite zslice_zslice by lia. apply holds_slice in Hm. exact Hm. }
  set (fh := zslice 0 128 F) in *. clearbody fh.
  rewrite Hmg, bytes_eqb_refl. cbn [negb].
  assert (Hmh : holds fh 0 AR_AIX_BIG_MAGIC) by (rewrite <- Hmg; apply holds_zslice; lia).
  pose proof (xf_field fh xf_gst64off 48 Hhl eq_refl ltac:(lia)) as N64. pose proof (xf_field fh xf_gstoff 28 Hhl eq_refl ltac:(lia)) as Ng.
  pose proof (xf_field fh xf_memoff 8 Hhl eq_refl ltac:(lia)) as Nm.
  set (S := symtbl64 <- of_opt (parse_u64_digits (xf_gst64off fh) 10) ;;
    (if 0 <? symtbl64 then m <- member_parse_aix F symtbl64 ;; Ok (mb_range m)
                else
                  symtbl <- of_opt (parse_u64_digits (xf_gstoff fh) 10) ;;
                  if 0 <? symtbl then m <- member_parse_aix F symtbl ;; Ok (mb_range m) else Ok (0, 0))).
  assert (HS : forall s, S = Ok s <-> exists g64, ascii_number 10 (xf_gst64off fh) g64 /\
     if 0 <? g64 then exists m, aix_member_at F g64 m /\ s = (mb_offset m, mb_size m)
     else exists g, ascii_number 10 (xf_gstoff fh) g /\
       if 0 <? g then exists m, aix_member_at F g m /\ s = (mb_offset m, mb_size m) else s = (0, 0)).
  { assert (HM : forall g s, 0 <= g -> (m <- member_parse_aix F g ;; Ok (mb_range m)) = Ok s <-> exists m, aix_member_at F g m /\ s = (mb_offset m, mb_size m)).
    { intros g s Hg. destruct (member_parse_aix F g) as [m| |] eqn:E; cbn [bind].
      - apply aix_member_iff in E; [|assumption|assumption]. split.
        + intros [= <-]. exists m. split; [assumption|reflexivity].
        + intros (m' & H1 & ->). apply aix_member_iff in E, H1; try assumption. assert (m = m') by congruence. subst. reflexivity.
      - split; [discriminate|]. intros (m' & H1 & ->). apply aix_member_iff in H1; try assumption. congruence.
      - exfalso. eapply aix_member_no_panic; eauto. }
    intro s. unfold S. clear S. split.
    - destruct (parse_u64_digits (xf_gst64off fh) 10) as [g64|] eqn:E; [|discriminate]. cbn [of_opt bind].
      apply parse_u64_digits_iff in E; [|lia|assumption]. intro H. exists g64. split; [assumption|]. apply number_bound in E; [|lia].
      destruct (0 <? g64). { apply HM; [lia|assumption]. }
      destruct (parse_u64_digits (xf_gstoff fh) 10) as [g|] eqn:E2; [|discriminate]. cbn [of_opt bind] in H.
      apply parse_u64_digits_iff in E2; [|lia|assumption]. exists g. split; [assumption|]. apply number_bound in E2; [|lia].
      destruct (0 <? g); [apply HM; [lia|assumption]|congruence].
    - intros (g64 & E & H). pose proof (number_bound _ _ _ _ _ (eq_refl : 1 < 10) E) as B. apply parse_u64_digits_iff in E; [|lia|assumption].
      rewrite E. cbn [of_opt bind]. destruct (0 <? g64). { apply HM; [lia|assumption]. }
      destruct H as (g & E2 & H). pose proof (number_bound _ _ _ _ _ (eq_refl : 1 < 10) E2) as B2. apply parse_u64_digits_iff in E2; [|lia|assumption].
      rewrite E2. cbn [of_opt bind]. destruct (0 <? g); [apply HM; [lia|assumption]|congruence]. }
  match goal with |- ?l = _ <-> _ => assert (El : l = (symbols <- S ;; member_table_offset <- of_opt (parse_u64_digits (xf_memoff fh) 10) ;;
    index <- (if member_table_offset =? 0 then Ok [] else m <- member_parse_aix F member_table_offset ;; d <- mb_data F m ;; read_index d) ;;
    Ok {| ar_data := F; ar_kind := AKAixBig; ar_members := MAix index; ar_symbols := symbols; ar_names := []; ar_thin := false |})) end.
  { unfold S. destruct (parse_u64_digits (xf_gst64off fh) 10) as [g64|]; [|reflexivity]. cbn [of_opt bind].
    match goal with |- bind ?x _ = bind ?x _ => destruct x as [s| |]; [|reflexivity|reflexivity] end. cbn [bind].
    destruct (parse_u64_digits (xf_memoff fh) 10) as [mo|]; [|reflexivity]. cbn [of_opt bind].
    destruct (mo =? 0); [reflexivity|]. destruct (member_parse_aix F mo) as [m| |]; [|reflexivity|reflexivity]. cbn [bind].
    destruct (mb_data F m) as [d| |]; [|reflexivity|reflexivity]. cbn [bind]. unfold read_index.
    destruct (b_read_slice d 1 20) as [[cb| |] d']; [|reflexivity|reflexivity]. destruct (parse_u64_digits (concat cb) 10) as [n|]; [|reflexivity]. cbn [of_opt bind].
    destruct (b_read_slice d' 20 n) as [[ix| |] d2]; reflexivity. }
  rewrite El. clear El. clearbody S.
  assert (HI : forall mo ix, 0 <= mo -> (if mo =? 0 then Ok [] else m <- member_parse_aix F mo ;; d <- mb_data F m ;; read_index d) = Ok ix <->
    if mo =? 0 then MAix ix = MAix [] else exists m d index, aix_member_at F mo m /\ contents F m d /\ aix_index d index /\ MAix ix = MAix index).
  { intros mo ix Hmo. destruct (mo =? 0); [split; congruence|].
    split.
    - destruct (member_parse_aix F mo) as [m| |] eqn:E; try discriminate. cbn [bind]. apply aix_member_iff in E; [|assumption|assumption].
      destruct (mb_data F m) as [d| |] eqn:Ed; try discriminate. cbn [bind]. apply (aix_data_iff _ _ _ _ HF Hmo E) in Ed.
      intro Hi. apply read_index_iff in Hi; [|destruct Ed as [Ed1 Ed2]; apply holds_bounds in Ed1; lia]. exists m, d, ix. auto.
    - intros (m & d & ix' & H1 & H2 & H3 & [= <-]). pose proof (proj2 (aix_data_iff _ _ _ _ HF Hmo H1) H2) as Ed. apply aix_member_iff in H1; [|assumption|assumption].
      rewrite H1. cbn [bind]. rewrite Ed. cbn [bind]. apply read_index_iff; [destruct H2 as [Ed1 Ed2]; apply holds_bounds in Ed1; lia|assumption]. }
  split.
  - destruct S as [s| |]; try discriminate. cbn [bind]. destruct (parse_u64_digits (xf_memoff fh) 10) as [mo|] eqn:E; [|discriminate]. cbn [of_opt bind].
    apply parse_u64_digits_iff in E; [|lia|assumption]. pose proof E as B. apply number_bound in B; [|lia].
    match goal with |- bind ?x _ = _ -> _ => destruct x as [ix| |] eqn:Ei; try discriminate end. cbn [bind]. intros [= <-].
    cbn [ar_data ar_kind ar_names ar_thin ar_symbols ar_members]. repeat (split; [reflexivity|]). exists fh. repeat (split; [assumption|]).
    split; [apply HS; reflexivity|]. exists mo. split; [assumption|]. apply HI in Ei; [exact Ei|lia].
  - intros (H1 & H2 & H3 & H4 & fh' & H5 & H6 & H7 & H8 & mo & H9 & H10). pose proof (Hr _ H5 H6). subst fh'. apply HS in H8. rewrite H8. cbn [bind].
    pose proof (number_bound _ _ _ _ _ (eq_refl : 1 < 10) H9) as B. apply parse_u64_digits_iff in H9; [|lia|assumption]. rewrite H9. cbn [of_opt bind].
    destruct a as [ad ak am asy an ath]. cbn in *. subst.
    assert (exists ix, am = MAix ix) as [ix ->]. { destruct (mo =? 0); [eauto|]. destruct H10 as (? & ? & ? & _ & _ & _ & ->). eauto. }
    apply HI in H10; [|lia]. rewrite H10. reflexivity.
Qed.
Lemma aix_parse_no_panic F : file_ok F -> holds F 0 AR_AIX_BIG_MAGIC -> ar_parse_aix F <> Panic.
Proof.
  intros [HFb HF] Hm. unfold ar_parse_aix. rewrite rr_read_eq by lia. destruct (Z.leb_spec (0 + 128) (zlen F)) as [Hb|Hb]; [|discriminate].
  assert (Hmg : zslice 0 8 (zslice 0 128 F) = AR_AIX_BIG_MAGIC).
  { rewrite zslice_zslice by lia. apply holds_slice in Hm. exact Hm. }
  rewrite Hmg, bytes_eqb_refl. cbn [negb]. set (fh := zslice 0 128 F). clearbody fh.
  assert (HM : forall {A} g (f : member -> out A), (forall m, f m <> Panic) -> (m <- member_parse_aix F g ;; f m) <> Panic).
  { intros A g f Hf. pose proof (aix_member_no_panic F g). destruct (member_parse_aix F g); [apply Hf|discriminate|contradiction]. }
  destruct (parse_u64_digits (xf_gst64off fh) 10) as [g64|]; [|discriminate]. cbn [of_opt bind].
  match goal with |- bind ?x _ <> _ => assert (Hx : x <> Panic); [|destruct x as [s| |]; [|discriminate|contradiction]] end.
  { destruct (0 <? g64); [apply HM; discriminate|]. destruct (parse_u64_digits (xf_gstoff fh) 10) as [g|]; [|discriminate]. cbn [of_opt bind].
    destruct (0 <? g); [apply HM; discriminate|discriminate]. }
  cbn [bind]. destruct (parse_u64_digits (xf_memoff fh) 10) as [mo|]; [|discriminate]. cbn [of_opt bind].
  destruct (mo =? 0); [discriminate|]. apply HM. intro m. pose proof (mb_data_no_panic F m) as Hp. destruct (mb_data F m) as [d| |]; [|discriminate|contradiction].
  cbn [bind]. pose proof (read_index_no_panic d) as Hi. unfold read_index in Hi.
  destruct (b_read_slice d 1 20) as [[cb| |] d']; [|discriminate|contradiction]. destruct (parse_u64_digits (concat cb) 10) as [n|]; [|discriminate]. cbn [of_opt bind] in *.
  destruct (b_read_slice d' 20 n) as [[ix| |] d2]; [discriminate|discriminate|contradiction].
Qed.
Lemma zos_parse_iff F a : file_ok F -> holds F 0 AR_ZOS_MAGIC -> ar_parse_zos F = Ok a <-> zos_archive F a.
Proof.
  intros HF Hm. pose proof HF as [HFb HFl]. pose proof (holds_bounds _ _ _ Hm) as Hb. change (zlen AR_ZOS_MAGIC) with 8 in Hb.
  unfold ar_parse_zos. rewrite rr_read_bytes_eq by lia. destruct (Z.leb_spec (0 + 8) (zlen F)); [|lia].
  assert (zslice 0 8 F = AR_ZOS_MAGIC) as -> by (apply holds_slice in Hm; exact Hm). rewrite bytes_eqb_refl. cbn [negb].
  change (0 + 8) with 8. unfold zos_archive.
  assert (P8 : 0 <= 8) by lia.
  destruct (Z.ltb_spec 8 (zlen F)) as [Hl|Hl]; cycle 1.
  { split.
    - intros [= <-]. repeat (split; [first [reflexivity|assumption]|]). right. split; [left; assumption|]. split; reflexivity.
    - intros (H1 & H2 & H3 & H4 & _ & [(m & next & H5 & _)|(_ & H5 & H6)]); [lia|]. destruct a; cbn in *; subst. reflexivity. }
  split.
  - destruct (member_parse_zos F 8) as [[m t]| |] eqn:E; try discriminate. cbn [bind]. apply zos_member_iff in E; [|assumption|assumption].
    destruct (bytes_eqb (mb_name m) N_symdef_ebcdic) eqn:En.
    + apply bytes_eqb_eq in En. intros [= <-]. repeat (split; [first [reflexivity|assumption]|]). left. exists m, t. repeat (split; [assumption|]). split; reflexivity.
    + intros [= <-]. repeat (split; [first [reflexivity|assumption]|]). right. split; [|split; reflexivity]. right. exists m, t. split; [assumption|].
      intro H'. rewrite H', bytes_eqb_refl in En. discriminate.
  - intros (H1 & H2 & H3 & H4 & _ & [(m & next & H5 & H6 & H7 & H8 & H9)|([H5|(m & next & H5 & H5')] & H6 & H7)]).
    + apply zos_member_iff in H6; [|assumption|assumption]. rewrite H6. cbn [bind]. rewrite H7, bytes_eqb_refl. destruct a; cbn in *; subst. reflexivity.
    + lia.
    + apply zos_member_iff in H5; [|assumption|assumption]. rewrite H5. cbn [bind]. destruct (bytes_eqb (mb_name m) N_symdef_ebcdic) eqn:En.
      * apply bytes_eqb_eq in En. contradiction.
      * destruct a; cbn in *; subst. reflexivity.
Qed.
Lemma zos_parse_no_panic F : file_ok F -> holds F 0 AR_ZOS_MAGIC -> ar_parse_zos F <> Panic.
Proof.
  intros HF Hm. pose proof HF as [HFb HFl]. pose proof (holds_bounds _ _ _ Hm) as Hb. change (zlen AR_ZOS_MAGIC) with 8 in Hb.
  unfold ar_parse_zos. rewrite rr_read_bytes_eq by lia. destruct (Z.leb_spec (0 + 8) (zlen F)); [|lia].
  assert (zslice 0 8 F = AR_ZOS_MAGIC) as -> by (apply holds_slice in Hm; exact Hm). rewrite bytes_eqb_refl. cbn [negb].
  change (0 + 8) with 8. destruct (8 <? zlen F); [|discriminate]. pose proof (zos_member_no_panic F 8 HF ltac:(lia)) as Hp.
  destruct (member_parse_zos F 8) as [[m t]| |]; [|discriminate|contradiction]. cbn [bind]. destruct (bytes_eqb (mb_name m) N_symdef_ebcdic); discriminate.
Qed.
Lemma ar_magic F m : zlen F < 2 ^ 63 -> 8 <= zlen F -> zlen m = 8 -> holds F 0 m <-> zslice 0 8 F = m.
Proof.
  intros HF H8 Hm. split.
  - intro H. apply holds_slice in H. rewrite Hm in H. exact H.
  - intros <-. apply holds_zslice; lia.
Qed.
Lemma ar_parse_cases F : file_ok F ->
  (zlen F < 8 /\ ar_parse F = Err) \/
  (holds F 0 AR_AIX_BIG_MAGIC /\ ar_parse F = ar_parse_aix F) \/
  (holds F 0 AR_ZOS_MAGIC /\ ar_parse F = ar_parse_zos F) \/
  (holds F 0 AR_THIN_MAGIC /\ ar_parse F = ar_parse_common F true 8) \/
  (holds F 0 AR_MAGIC /\ ar_parse F = ar_parse_common F false 8) \/
  (8 <= zlen F /\ ~ holds F 0 AR_AIX_BIG_MAGIC /\ ~ holds F 0 AR_ZOS_MAGIC /\ ~ holds F 0 AR_THIN_MAGIC /\ ~ holds F 0 AR_MAGIC /\ ar_parse F = Err).
Proof.
  intros [HFb HF]. pose proof (zlen_nonneg F). unfold ar_parse. rewrite rr_read_bytes_eq by lia. destruct (Z.leb_spec (0 + 8) (zlen F)); [|left; split; [lia|reflexivity]].
  right. pose proof (fun m => ar_magic F m HF ltac:(lia)) as Hm. set (s := zslice 0 8 F) in *. clearbody s. change (0 + 8) with 8.
  destruct (bytes_eqb s AR_AIX_BIG_MAGIC) eqn:E1. { left. apply bytes_eqb_eq in E1. split; [apply Hm; auto|reflexivity]. } right.
  destruct (bytes_eqb s AR_ZOS_MAGIC) eqn:E2. { left. apply bytes_eqb_eq in E2. split; [apply Hm; auto|reflexivity]. } right.
  destruct (bytes_eqb s AR_THIN_MAGIC) eqn:E3. { left. apply bytes_eqb_eq in E3. split; [apply Hm; auto|reflexivity]. } right.
  destruct (bytes_eqb s AR_MAGIC) eqn:E4. { left. apply bytes_eqb_eq in E4. split; [apply Hm; auto|reflexivity]. } right.
  split; [assumption|].
  assert (N : forall m, zlen m = 8 -> bytes_eqb s m = false -> ~ holds F 0 m).
  { intros m Hl Hf Hh. apply Hm in Hh; [|assumption]. rewrite Hh, bytes_eqb_refl in Hf. discriminate. }
  repeat split; try (apply N; [reflexivity|assumption]).
Qed.
Lemma holds_same F a b : holds F 0 a -> holds F 0 b -> zlen a = zlen b -> a = b.
Proof. intros Ha Hb E. apply holds_slice in Ha, Hb. congruence. Qed.
Lemma common_of F a k thin : a = ar_mk F thin k (ar_symbols a) (ar_names a) (match ar_members a with MCommon o _ => o | _ => 0 end) ->
  ar_data a = F /\ ar_thin a = thin /\ ar_kind a = k /\ exists o, ar_members a = MCommon o (zlen F).
Proof. intros ->. repeat split. eexists. reflexivity. Qed.
Lemma parse_iff F a : file_ok F -> ar_parse F = Ok a <-> common_archive F a \/ zos_archive F a \/ aix_archive F a.
Proof.
  intros HF.
  assert (Hz : zos_archive F a -> holds F 0 AR_ZOS_MAGIC) by (intros (_ & _ & _ & _ & H & _); exact H).
  assert (Hx : aix_archive F a -> holds F 0 AR_AIX_BIG_MAGIC).
  { intros (_ & _ & _ & _ & fh & H1 & _ & H2 & _). pose proof (holds_sub _ _ _ _ _ H1 H2). exact H. }
  assert (Hc : common_archive F a -> holds F 0 (if ar_thin a then AR_THIN_MAGIC else AR_MAGIC)) by (intros (_ & H & _); exact H).
  assert (Hcp : forall thin : bool, holds F 0 (if thin then AR_THIN_MAGIC else AR_MAGIC) -> ar_parse_common F thin 8 = Ok a <-> common_archive F a /\ ar_thin a = thin).
  { intros thin Hm. split.
    - intro H. apply common_parse_inv in H; [|assumption]. destruct H as (k & syms & names & off & Hf & ->). split; [|reflexivity].
      unfold common_archive, ar_mk. cbn [ar_data ar_kind ar_names ar_thin ar_symbols ar_members]. split; [reflexivity|]. split; [assumption|].
      exists syms, off. auto.
    - intros [(H1 & H2 & syms & off & Hf & H3 & H4) <-]. apply common_parse_of in Hf; [|assumption]. rewrite Hf. unfold ar_mk. destruct a; cbn in *; subst. reflexivity. }
  assert (Dm : forall m m', holds F 0 m -> holds F 0 m' -> zlen m = 8 -> zlen m' = 8 -> bytes_eqb m m' = true).
  { intros m m' H1 H2 H3 H4. rewrite (holds_same F m m' H1 H2) by lia. apply bytes_eqb_refl. }
  destruct (ar_parse_cases F HF) as [(H & ->)|[(H & ->)|[(H & ->)|[(H & ->)|[(H & ->)|(H & N1 & N2 & N3 & N4 & ->)]]]]].
  - split; [discriminate|]. intro Ha. exfalso. assert (exists m, holds F 0 m /\ zlen m = 8) as (m & H1 & H2).
    { destruct Ha as [Ha|[Ha|Ha]]; [apply Hc in Ha|apply Hz in Ha|apply Hx in Ha]; eexists; (split; [exact Ha|]); try reflexivity. destruct (ar_thin a); reflexivity. }
    apply holds_bounds in H1. lia.
  - rewrite aix_parse_iff by assumption. split; [auto|]. intros [Ha|[Ha|Ha]]; [| |assumption]; exfalso.
    + apply Hc in Ha. specialize (Dm _ _ H Ha eq_refl). destruct (ar_thin a); specialize (Dm eq_refl); discriminate.
    + apply Hz in Ha. specialize (Dm _ _ H Ha eq_refl eq_refl). discriminate.
  - rewrite zos_parse_iff by assumption. split; [auto|]. intros [Ha|[Ha|Ha]]; [|assumption|]; exfalso.
    + apply Hc in Ha. specialize (Dm _ _ H Ha eq_refl). destruct (ar_thin a); specialize (Dm eq_refl); discriminate.
    + apply Hx in Ha. specialize (Dm _ _ H Ha eq_refl eq_refl). discriminate.
  - rewrite (Hcp true H). split; [tauto|]. intros [Ha|[Ha|Ha]].
    + split; [assumption|]. apply Hc in Ha. destruct (ar_thin a); [reflexivity|]. specialize (Dm _ _ H Ha eq_refl eq_refl). discriminate.
    + exfalso. apply Hz in Ha. specialize (Dm _ _ H Ha eq_refl eq_refl). discriminate.
    + exfalso. apply Hx in Ha. specialize (Dm _ _ H Ha eq_refl eq_refl). discriminate.
  - rewrite (Hcp false H). split; [tauto|]. intros [Ha|[Ha|Ha]].
    + split; [assumption|]. apply Hc in Ha. destruct (ar_thin a); [|reflexivity]. specialize (Dm _ _ H Ha eq_refl eq_refl). discriminate.
    + exfalso. apply Hz in Ha. specialize (Dm _ _ H Ha eq_refl eq_refl). discriminate.
    + exfalso. apply Hx in Ha. specialize (Dm _ _ H Ha eq_refl eq_refl). discriminate.
  - split; [discriminate|]. intro Ha. exfalso. destruct Ha as [Ha|[Ha|Ha]].
    + apply Hc in Ha. destruct (ar_thin a); contradiction.
    + apply Hz in Ha. contradiction.
    + apply Hx in Ha. contradiction.
Qed.
Lemma parse_no_panic F : file_ok F -> ar_parse F <> Panic.
Proof.
  intros HF. destruct (ar_parse_cases F HF) as [(H & ->)|[(H & ->)|[(H & ->)|[(H & ->)|[(H & ->)|(H & N1 & N2 & N3 & N4 & ->)]]]]]; try discriminate.
  - apply aix_parse_no_panic; assumption.
  - apply zos_parse_no_panic; assumption.
  - apply common_parse_no_panic; assumption.
  - apply common_parse_no_panic; assumption.
Qed.

(** * Members of AIX archives *)
Lemma aix_index_member_iff F x m : file_ok F -> x <> [] ->
  member_parse_aix_index F x = Ok m <-> exists off, ascii_number 10 x off /\ aix_member_at F off m.
Proof.
  intros HF Hx. unfold member_parse_aix_index. split.
  - destruct (parse_u64_digits x 10) as [off|] eqn:E; [|discriminate]. cbn [of_opt bind]. apply parse_u64_digits_iff in E; [|lia|assumption].
    pose proof (number_bound _ _ _ _ _ (eq_refl : 1 < 10) E) as B. intro H. apply aix_member_iff in H; [|assumption|lia]. eauto.
  - intros (off & E & H). pose proof (number_bound _ _ _ _ _ (eq_refl : 1 < 10) E) as B. apply parse_u64_digits_iff in E; [|lia|assumption]. rewrite E. cbn [of_opt bind].
    apply aix_member_iff; [assumption|lia|assumption].
Qed.
Lemma aix_members_total F names thin index : exists l e, runs (members_next F names thin) (MAix index) l e (MAix []).
Proof.
  induction index as [|x index (l & e & IH)].
  - exists [], false. constructor. reflexivity.
  - destruct (member_parse_aix_index F x) as [m| |] eqn:E.
    + exists (m :: l), e. eapply runs_more; [|exact IH]. cbn [members_next]. rewrite E. reflexivity.
    + exists [], true. apply runs_err. cbn [members_next]. rewrite E. reflexivity.
    + exfalso. unfold member_parse_aix_index in E. destruct (parse_u64_digits x 10) as [off|]; [|discriminate]. cbn [of_opt bind] in E. eapply aix_member_no_panic; eauto.
Qed.
Lemma aix_members_runs F names thin index l e st : file_ok F -> Forall (fun x => zlen x = 20) index ->
  runs (members_next F names thin) (MAix index) l e st -> aix_members F index l e /\ st = MAix [].
Proof.
  intros HF HI H. remember (MAix index) as s eqn:Es. revert index HI Es.
  induction H as [s s' H|s s' H|s s1 s' x l e H H2 IH]; intros index HI ->; cbn [members_next] in H; (destruct index as [|y index]; [|pose proof (Forall_inv HI); pose proof (Forall_inv_tail HI);
    assert (y <> []) by (intros ->; discriminate)]).
  - injection H as <-. split; [constructor|reflexivity].
  - destruct (member_parse_aix_index F y) as [m| |]; discriminate.
  - discriminate.
  - destruct (member_parse_aix_index F y) as [m| |] eqn:E; try discriminate. injection H as <-. split; [|reflexivity]. apply xm_bad. intros off m H3 H4.
    assert (member_parse_aix_index F y = Ok m) by (apply aix_index_member_iff; eauto). congruence.
  - discriminate.
  - destruct (member_parse_aix_index F y) as [m| |] eqn:E; try discriminate. injection H as -> <-. destruct (IH index H1 eq_refl) as [I1 I2]. split; [|assumption].
    apply aix_index_member_iff in E; [|assumption|assumption]. destruct E as (off & E1 & E2). eapply xm_cons; eauto.
Qed.
