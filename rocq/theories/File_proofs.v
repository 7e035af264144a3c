(** Reading from files with known contents, and closed forms of the [ReadRef] functions. *)
From Verif Require Export File_spec.
From Verif Require Import Core_proofs Str_proofs Util_proofs.

Lemma holds_bounds F o b : holds F o b -> 0 <= o /\ o + zlen b <= zlen F.
Proof. intros (a & c & -> & <-). rewrite !zlen_app. pose proof (zlen_nonneg a). pose proof (zlen_nonneg c). lia. Qed.
Lemma holds_slice F o b : holds F o b -> zslice o (zlen b) F = b.
Proof.
  intros (a & c & -> & <-). rewrite zslice_app2 by lia. rewrite Z.sub_diag. rewrite zslice_app1; try lia; [|apply zlen_nonneg].
  apply zslice_all. reflexivity.
Qed.
Lemma holds_iff F o b : holds F o b <-> 0 <= o /\ o + zlen b <= zlen F /\ zslice o (zlen b) F = b.
Proof.
  split.
  - intro H. destruct (holds_bounds _ _ _ H). split; [assumption|]. split; [assumption|]. apply holds_slice; assumption.
  - intros (H0 & H1 & E). pose proof (zlen_nonneg b). exists (ztake o F), (zdrop (o + zlen b) F). split; [|rewrite zlen_ztake; lia].
    rewrite <- E at 1. rewrite <- (zdrop_zslice F o (zlen b)) by lia. symmetry. apply ztake_zdrop.
Qed.
Lemma holds_app F o a b : holds F o (a ++ b) <-> holds F o a /\ holds F (o + zlen a) b.
Proof.
  split.
  - intros (x & y & -> & <-). split.
    + exists x, (b ++ y). rewrite <- app_assoc. auto.
    + exists (x ++ a), y. rewrite zlen_app, <- !app_assoc. auto.
  - intros [P1 P2]. apply holds_iff in P1 as (H0 & H1 & E1), P2 as (H2 & H3 & E2). pose proof (zlen_nonneg a). pose proof (zlen_nonneg b).
    exists (ztake o F), (zdrop (o + zlen a + zlen b) F). split; [|rewrite zlen_ztake; lia].
    rewrite <- app_assoc. rewrite <- E2 at 1. rewrite <- (zdrop_zslice F (o + zlen a) (zlen b)) by lia.
    rewrite <- E1 at 1. rewrite <- (zdrop_zslice F o (zlen a)) by lia. symmetry. apply ztake_zdrop.
Qed.
Lemma holds_nil F o : 0 <= o <= zlen F -> holds F o [].
Proof. intro H. apply holds_iff. change (zlen (@nil Z)) with 0. split; [lia|]. split; [lia|]. reflexivity. Qed.
Lemma holds_mid F o a b c : holds F o (a ++ b ++ c) -> holds F (o + zlen a) b.
Proof. intro H. apply holds_app in H as [_ H]. apply holds_app in H as [H _]. exact H. Qed.
Lemma holds_sub F o b o' b' : holds F o b -> holds b o' b' -> holds F (o + o') b'.
Proof. intros H (x & y & -> & <-). apply (holds_mid _ _ x b' y H). Qed.

Lemma zget_ext' {A} (a b : list A) : (forall i, zget a i = zget b i) -> a = b.
Proof.
  intro H. apply zget_ext; [|intros; apply H]. pose proof (zlen_nonneg a). pose proof (zlen_nonneg b).
  destruct (Z.lt_trichotomy (zlen a) (zlen b)) as [L|[L|L]]; [|exact L|].
  - destruct (zget_lt_Some b (zlen a)) as [x Hx]; [lia|]. rewrite <- H in Hx. apply zget_Some_lt in Hx. lia.
  - destruct (zget_lt_Some a (zlen b)) as [x Hx]; [lia|]. rewrite H in Hx. apply zget_Some_lt in Hx. lia.
Qed.
(** a slice of a slice *)
Lemma zslice_zslice {A} a n o m (l : list A) : 0 <= a -> 0 <= o -> 0 <= m -> o + m <= n -> zslice o m (zslice a n l) = zslice (a + o) m l.
Proof.
  intros. unfold zslice. apply zget_ext'. intro i.
  destruct (Z_lt_dec i 0). { rewrite !(proj2 (zget_None _ _)) by lia. reflexivity. }
  destruct (Z_lt_dec i m).
  - rewrite !zget_ztake by lia. rewrite !zget_zdrop by lia. rewrite zget_ztake by lia. rewrite zget_zdrop by lia. f_equal. lia.
  - rewrite !(proj2 (zget_None _ _)); [reflexivity| |]; rewrite zlen_ztake_min by lia; lia.
Qed.

(** closed forms *)
Lemma rr_read_bytes_at_eq F o n : 0 <= o -> 0 <= n ->
  rr_read_bytes_at F o n = if n =? 0 then Ok [] else if o + n <=? zlen F then Ok (zslice o n F) else Err.
Proof.
  intros Ho Hn. unfold rr_read_bytes_at. destruct (Z.eqb_spec n 0) as [->|Hn0]; [reflexivity|].
  rewrite get_from_eq. destruct (Z.leb_spec (o + n) (zlen F)).
  - destruct ((0 <=? o) && (o <=? zlen F)) eqn:E; [|lia]. cbn [of_opt bind]. unfold get_to. rewrite zlen_zdrop by lia.
    destruct ((0 <=? n) && (n <=? zlen F - o)) eqn:E2; [|lia]. reflexivity.
  - destruct ((0 <=? o) && (o <=? zlen F)) eqn:E; [|reflexivity]. cbn [of_opt bind]. unfold get_to. rewrite zlen_zdrop by lia.
    destruct ((0 <=? n) && (n <=? zlen F - o)) eqn:E2; [lia|]. reflexivity.
Qed.
Lemma rr_read_at_eq F o n : 0 <= o -> 0 < n ->
  rr_read_at F o n = if o + n <=? zlen F then Ok (zslice o n F) else Err.
Proof.
  intros Ho Hn. unfold rr_read_at, rr_read, rr_read_bytes. rewrite rr_read_bytes_at_eq by lia.
  destruct (Z.eqb_spec n 0); [lia|]. destruct (Z.leb_spec (o + n) (zlen F)); [|reflexivity].
  rewrite from_bytes_all by (rewrite zlen_zslice; lia). reflexivity.
Qed.
Lemma rr_read_slice_at_eq F o n k : 0 <= o -> 0 < n -> 0 < k -> zlen F < 2 ^ 64 ->
  rr_read_slice_at F o n k = if o + k * n <=? zlen F then Ok (chunks n (Z.to_nat k) (zdrop o F)) else Err.
Proof.
  intros Ho Hn Hk HF. unfold rr_read_slice_at, rr_read_slice, rr_read_bytes, cmul. assert (0 < k * n) by nia.
  destruct (Z.ltb_spec (k * n) (2 ^ 64)).
  2: { cbn [fst]. destruct (Z.leb_spec (o + k * n) (zlen F)); [lia|reflexivity]. }
  rewrite rr_read_bytes_at_eq by lia. destruct (Z.eqb_spec (k * n) 0); [lia|].
  destruct (Z.leb_spec (o + k * n) (zlen F)); [|reflexivity].
  unfold slice_from_bytes, cmul. destruct (Z.ltb_spec (k * n) (2 ^ 64)); [|lia]. cbn [of_opt bind].
  rewrite get_from_eq, zlen_zslice by lia. destruct ((0 <=? k * n) && (k * n <=? k * n)) eqn:E; [|lia]. cbn [of_opt bind fst]. f_equal.
  assert (L : k * n <= zlen (zdrop o F)) by (rewrite zlen_zdrop; lia).
  destruct (chunks_concat n (Z.to_nat k) (zdrop o F)) as (C1 & C2 & C3); [lia|rewrite Z2Nat.id by lia; exact L|].
  rewrite Z2Nat.id in C1 by lia. unfold zslice. rewrite <- C1, <- (app_nil_r (concat _)).
  apply chunks_app; [assumption|]. symmetry; exact C3.
Qed.
Lemma zget_chunks n k l i : 0 < n -> 0 <= i < Z.of_nat k -> zget (chunks n k l) i = Some (zslice (i * n) n l).
Proof.
  intros Hn. revert l i. induction k as [|k IH]; intros l i Hi; [lia|]. cbn [chunks].
  destruct (Z.eq_dec i 0) as [->|].
  - reflexivity.
  - rewrite zget_S by lia. rewrite IH by lia. f_equal. unfold zslice. rewrite zdrop_zdrop by nia. do 2 f_equal. lia.
Qed.
Lemma zlen_chunks n k l : zlen (chunks n k l) = Z.of_nat k.
Proof. revert l. induction k as [|k IH]; intro l; cbn [chunks]; [reflexivity|]. rewrite zlen_cons, IH. lia. Qed.
Lemma slice_from_all_bytes_no_panic d n : slice_from_all_bytes d n <> Panic.
Proof.
  unfold slice_from_all_bytes, slice_from_bytes. destruct (cmul 64 _ n); cbn [of_opt bind]; [|discriminate].
  destruct (get_from d z); cbn [of_opt bind]; [|discriminate]. destruct l; discriminate.
Qed.
Lemma slice_from_all_bytes_concat cs n : 0 < n -> Forall (fun c => zlen c = n) cs -> zlen (concat cs) < 2 ^ 64 ->
  slice_from_all_bytes (concat cs) n = Ok cs.
Proof.
  intros Hn Hc Hl. unfold slice_from_all_bytes, slice_from_bytes. rewrite (zlen_concat_const n) in * by assumption.
  rewrite Z.div_mul by lia. unfold cmul. destruct (Z.ltb_spec (zlen cs * n) (2 ^ 64)); [|lia]. cbn [of_opt bind].
  rewrite <- (app_nil_r (concat cs)). rewrite get_from_app by (rewrite (zlen_concat_const n); auto). cbn [of_opt bind].
  rewrite chunks_app; [reflexivity|assumption|unfold zlen; lia].
Qed.

(** known contents *)
Lemma holds_read_bytes_at F o b n : holds F o b -> n = zlen b -> rr_read_bytes_at F o n = Ok b.
Proof. intros (a & c & -> & <-) ->. apply rr_read_bytes_at_app; reflexivity. Qed.
Lemma holds_read_at F o b n : holds F o b -> n = zlen b -> zlen F < 2 ^ 64 -> rr_read_at F o n = Ok b.
Proof.
  intros (a & c & -> & <-) -> H. apply rr_read_at_app; try reflexivity. rewrite !zlen_app in H. pose proof (zlen_nonneg c). lia.
Qed.
Lemma holds_slice_at F o cs n k : holds F o (concat cs) -> Forall (fun c => zlen c = n) cs -> 0 <= n -> k = zlen cs -> zlen F < 2 ^ 64 ->
  rr_read_slice_at F o n k = Ok cs.
Proof.
  intros (a & c & -> & <-) Hc Hn -> H. unfold rr_read_slice_at. rewrite !zlen_app, (zlen_concat_const n) in H by assumption.
  pose proof (zlen_nonneg c). rewrite (rr_read_slice_app a cs c) by (try assumption; try reflexivity; lia). reflexivity.
Qed.
Lemma string_at_get F start tab off name fin : holds F start tab -> string_at tab off name -> zlen F < 2 ^ 64 -> fin = start + zlen tab ->
  strtab_get (Some F) start fin off = Ok name.
Proof.
  intros H [Hs Hn] HF ->. unfold strtab_get, cadd. pose proof (holds_bounds _ _ _ H). pose proof (holds_bounds _ _ _ Hs) as [B1 B2].
  rewrite zlen_app in B2. change (zlen [0]) with 1 in B2. pose proof (zlen_nonneg name).
  destruct (Z.ltb_spec (start + off) (2 ^ 64)); [|lia]. cbn [of_opt bind].
  destruct (holds_sub _ _ _ _ _ H Hs) as (a & c & -> & Ha). rewrite <- app_assoc. cbn [app].
  apply rr_until_app; [symmetry; exact Ha| |exact Hn].
  rewrite !zlen_app in H0. rewrite !zlen_app, zlen_cons. change (zlen [0]) with 1 in *. lia.
Qed.
