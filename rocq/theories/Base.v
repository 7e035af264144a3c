(** Common vocabulary: bytes, machine integers, outcomes, list slicing. *)
From Coq Require Export List ZArith Lia Bool Arith.
From Coq Require Export ZifyBool ZifyNat.
Export ListNotations.
Global Open Scope Z_scope.

(** * Outcomes
    [Ok] is a Rust [Ok]/normal return, [Err] a Rust [Err]/[None] error return,
    [Panic] a panic path (unwrap on None, index out of bounds, debug overflow). *)
Inductive out (A : Type) : Type :=
| Ok (a : A)
| Err
| Panic.
Arguments Ok {A} a.
Arguments Err {A}.
Arguments Panic {A}.

Definition bind {A B} (m : out A) (k : A -> out B) : out B :=
  match m with Ok a => k a | Err => Err | Panic => Panic end.
Notation "x <- m ;; k" := (bind m (fun x => k))
  (at level 61, m at next level, right associativity).
Notation "' p <- m ;; k" := (bind m (fun p => k))
  (at level 61, p pattern, m at next level, right associativity).

Definition of_opt {A} (o : option A) : out A :=
  match o with Some a => Ok a | None => Err end.
(** [Option::unwrap] *)
Definition unwrap {A} (o : option A) : out A :=
  match o with Some a => Ok a | None => Panic end.
Definition is_ok {A} (o : out A) : bool := match o with Ok _ => true | _ => false end.

(** * Machine integers *)
Definition U8 := 2 ^ 8.
Definition U16 := 2 ^ 16.
Definition U32 := 2 ^ 32.
Definition U64 := 2 ^ 64.
Definition u16_ok (x : Z) := 0 <= x < 2 ^ 16.
Definition u32_ok (x : Z) := 0 <= x < 2 ^ 32.
Definition u64_ok (x : Z) := 0 <= x < 2 ^ 64.
Definition wrap_u (bits x : Z) : Z := x mod 2 ^ bits.
Definition wrap_s (bits x : Z) : Z := (x + 2 ^ (bits - 1)) mod 2 ^ bits - 2 ^ (bits - 1).

(** Unchecked arithmetic of a debug build: overflow panics. *)
Definition padd (bits a b : Z) : out Z := if a + b <? 2 ^ bits then Ok (a + b) else Panic.
Definition psub (a b : Z) : out Z := if b <=? a then Ok (a - b) else Panic.
Definition pmul (bits a b : Z) : out Z := if a * b <? 2 ^ bits then Ok (a * b) else Panic.
(** checked_add / checked_sub / checked_mul *)
Definition cadd (bits a b : Z) : option Z := if a + b <? 2 ^ bits then Some (a + b) else None.
Definition csub (a b : Z) : option Z := if b <=? a then Some (a - b) else None.
Definition cmul (bits a b : Z) : option Z := if a * b <? 2 ^ bits then Some (a * b) else None.
(** saturating_add / saturating_sub *)
Definition sadd (bits a b : Z) : Z := if a + b <? 2 ^ bits then a + b else 2 ^ bits - 1.
Definition ssub (a b : Z) : Z := if b <=? a then a - b else 0.

(** * Bytes *)
Notation bytes := (list Z).
Definition byte_ok (b : Z) : Prop := 0 <= b < 256.
Definition bytes_ok (l : bytes) : Prop := Forall byte_ok l.
Definition byte_okb (b : Z) : bool := (0 <=? b) && (b <? 256).

Definition zlen {A} (l : list A) : Z := Z.of_nat (length l).
Definition ztake {A} (n : Z) (l : list A) : list A := firstn (Z.to_nat n) l.
Definition zdrop {A} (n : Z) (l : list A) : list A := skipn (Z.to_nat n) l.
Definition zslice {A} (off n : Z) (l : list A) : list A := ztake n (zdrop off l).
(** index, with the bounds check made explicit *)
Definition zget {A} (l : list A) (i : Z) : option A :=
  if (0 <=? i) && (i <? zlen l) then nth_error l (Z.to_nat i) else None.
Definition zeros (n : Z) : bytes := repeat 0 (Z.to_nat n).

(** Rust slice operations: [s.get(off..)], [s.get(..n)], [s.get(a..b)]. *)
Definition get_from {A} (l : list A) (off : Z) : option (list A) :=
  if (0 <=? off) && (off <=? zlen l) then Some (zdrop off l) else None.
Definition get_to {A} (l : list A) (n : Z) : option (list A) :=
  if (0 <=? n) && (n <=? zlen l) then Some (ztake n l) else None.
Definition get_range {A} (l : list A) (a b : Z) : option (list A) :=
  if (0 <=? a) && (a <=? b) && (b <=? zlen l) then Some (zslice a (b - a) l) else None.

(** [memchr::memchr(d, s)]: the index of the first occurrence of [d]. *)
Fixpoint memchr (d : Z) (l : bytes) : option Z :=
  match l with
  | [] => None
  | b :: tl => if b =? d then Some 0 else
                 match memchr d tl with Some i => Some (i + 1) | None => None end
  end.

Fixpoint bytes_eqb (a b : bytes) : bool :=
  match a, b with
  | [], [] => true
  | x :: a, y :: b => (x =? y) && bytes_eqb a b
  | _, _ => false
  end.

(** * Lemmas *)
Lemma bytes_eqb_eq a b : bytes_eqb a b = true <-> a = b.
Proof.
  revert b; induction a as [|x a IH]; intros [|y b]; cbn [bytes_eqb]; split; intro H;
    try congruence; try reflexivity.
  - apply andb_true_iff in H as [H1 H2]. apply Z.eqb_eq in H1. apply IH in H2. congruence.
  - inversion H; subst. rewrite Z.eqb_refl. apply IH. reflexivity.
Qed.

Lemma bytes_eqb_refl a : bytes_eqb a a = true.
Proof. apply bytes_eqb_eq; reflexivity. Qed.

Lemma bytes_eqb_neq a b : bytes_eqb a b = false <-> a <> b.
Proof.
  rewrite <- not_true_iff_false, bytes_eqb_eq. tauto.
Qed.

Lemma bytes_eq_dec (a b : bytes) : {a = b} + {a <> b}.
Proof. apply list_eq_dec, Z.eq_dec. Qed.

Lemma zlen_nonneg {A} (l : list A) : 0 <= zlen l.
Proof. unfold zlen; lia. Qed.
Lemma zlen_nil {A} : zlen (@nil A) = 0.
Proof. reflexivity. Qed.
Lemma zlen_cons {A} (x : A) l : zlen (x :: l) = 1 + zlen l.
Proof. unfold zlen; cbn [length]; lia. Qed.
Lemma zlen_app {A} (a b : list A) : zlen (a ++ b) = zlen a + zlen b.
Proof. unfold zlen; rewrite app_length; lia. Qed.
Lemma zlen_rev {A} (a : list A) : zlen (rev a) = zlen a.
Proof. unfold zlen; rewrite rev_length; lia. Qed.
Lemma zlen_map {A B} (f : A -> B) l : zlen (map f l) = zlen l.
Proof. unfold zlen; rewrite map_length; lia. Qed.
Lemma zlen_repeat {A} (x : A) n : zlen (repeat x n) = Z.of_nat n.
Proof. unfold zlen; rewrite repeat_length; lia. Qed.
Lemma zlen_zeros n : 0 <= n -> zlen (zeros n) = n.
Proof. intro; unfold zeros; rewrite zlen_repeat; lia. Qed.
Lemma zlen_0_nil {A} (l : list A) : zlen l = 0 -> l = [].
Proof. destruct l; [reflexivity|rewrite zlen_cons; pose proof (zlen_nonneg l); lia]. Qed.

Lemma zlen_ztake {A} n (l : list A) : 0 <= n <= zlen l -> zlen (ztake n l) = n.
Proof. intro; unfold ztake, zlen in *; rewrite firstn_length; lia. Qed.
Lemma zlen_zdrop {A} n (l : list A) : 0 <= n <= zlen l -> zlen (zdrop n l) = zlen l - n.
Proof. intro; unfold zdrop, zlen in *; rewrite skipn_length; lia. Qed.
Lemma zlen_zdrop_max {A} n (l : list A) : 0 <= n -> zlen (zdrop n l) = Z.max 0 (zlen l - n).
Proof. intro; unfold zdrop, zlen in *; rewrite skipn_length; lia. Qed.
Lemma zlen_ztake_min {A} n (l : list A) : 0 <= n -> zlen (ztake n l) = Z.min n (zlen l).
Proof. intro; unfold ztake, zlen in *; rewrite firstn_length; lia. Qed.
Lemma zlen_zslice {A} o n (l : list A) :
  0 <= o -> 0 <= n -> o + n <= zlen l -> zlen (zslice o n l) = n.
Proof. intros; unfold zslice; rewrite zlen_ztake; [reflexivity|]. rewrite zlen_zdrop; lia. Qed.

Lemma ztake_zdrop {A} n (l : list A) : ztake n l ++ zdrop n l = l.
Proof. apply firstn_skipn. Qed.
Lemma ztake_app {A} (a b : list A) : ztake (zlen a) (a ++ b) = a.
Proof. unfold ztake, zlen. rewrite Nat2Z.id, firstn_app, Nat.sub_diag, firstn_all. cbn. apply app_nil_r. Qed.
Lemma zdrop_app {A} (a b : list A) : zdrop (zlen a) (a ++ b) = b.
Proof. unfold zdrop, zlen. rewrite Nat2Z.id, skipn_app, Nat.sub_diag, skipn_all. reflexivity. Qed.
Lemma ztake_app_eq {A} n (a b : list A) : n = zlen a -> ztake n (a ++ b) = a.
Proof. intros ->; apply ztake_app. Qed.
Lemma zdrop_app_eq {A} n (a b : list A) : n = zlen a -> zdrop n (a ++ b) = b.
Proof. intros ->; apply zdrop_app. Qed.
Lemma zslice_app_eq {A} o n (a b c : list A) :
  o = zlen a -> n = zlen b -> zslice o n (a ++ b ++ c) = b.
Proof. intros -> ->; unfold zslice; rewrite zdrop_app, ztake_app; reflexivity. Qed.
Lemma zdrop_0 {A} (l : list A) : zdrop 0 l = l.
Proof. reflexivity. Qed.
Lemma ztake_0 {A} (l : list A) : ztake 0 l = [].
Proof. reflexivity. Qed.
Lemma ztake_all {A} n (l : list A) : zlen l <= n -> ztake n l = l.
Proof. intro; unfold ztake, zlen in *; apply firstn_all2; lia. Qed.
Lemma zdrop_all {A} n (l : list A) : zlen l <= n -> zdrop n l = [].
Proof. intro; unfold zdrop, zlen in *; apply skipn_all2; lia. Qed.
Lemma zdrop_zdrop {A} a b (l : list A) : 0 <= a -> 0 <= b -> zdrop a (zdrop b l) = zdrop (a + b) l.
Proof.
  intros; unfold zdrop. replace (Z.to_nat (a + b)) with (Z.to_nat b + Z.to_nat a)%nat by lia.
  generalize (Z.to_nat a) (Z.to_nat b). intros x y. revert l.
  induction y as [|y IH]; intro l; [reflexivity|destruct l; cbn; [apply skipn_nil|apply IH]].
Qed.
Lemma zdrop_app_ge {A} n (a b : list A) : zlen a <= n -> zdrop n (a ++ b) = zdrop (n - zlen a) b.
Proof.
  intros; unfold zdrop, zlen in *. rewrite skipn_app, skipn_all2 by lia. cbn.
  f_equal. lia.
Qed.
Lemma zdrop_app_le {A} n (a b : list A) : 0 <= n <= zlen a -> zdrop n (a ++ b) = zdrop n a ++ b.
Proof.
  intros; unfold zdrop, zlen in *. rewrite skipn_app.
  replace (Z.to_nat n - length a)%nat with 0%nat by lia. reflexivity.
Qed.
Lemma ztake_app_le {A} n (a b : list A) : 0 <= n <= zlen a -> ztake n (a ++ b) = ztake n a.
Proof.
  intros; unfold ztake, zlen in *. rewrite firstn_app.
  replace (Z.to_nat n - length a)%nat with 0%nat by lia. apply app_nil_r.
Qed.
Lemma ztake_app_ge {A} n (a b : list A) : zlen a <= n -> ztake n (a ++ b) = a ++ ztake (n - zlen a) b.
Proof.
  intros; unfold ztake, zlen in *. rewrite firstn_app, firstn_all2 by lia. do 2 f_equal. lia.
Qed.

Lemma zget_Some_lt {A} (l : list A) i x : zget l i = Some x -> 0 <= i < zlen l.
Proof. unfold zget; intro H; destruct ((0 <=? i) && (i <? zlen l)) eqn:E; [lia|discriminate]. Qed.
Lemma zget_app1 {A} (a b : list A) i : i < zlen a -> zget (a ++ b) i = zget a i.
Proof.
  intros Hi; unfold zget; rewrite zlen_app; pose proof (zlen_nonneg b).
  destruct (Z.leb_spec 0 i); cbn [andb]; [|reflexivity].
  destruct (Z.ltb_spec i (zlen a)); [|lia].
  destruct (Z.ltb_spec i (zlen a + zlen b)); [|lia].
  apply nth_error_app1. unfold zlen in *; lia.
Qed.
Lemma zget_app2 {A} (a b : list A) i : zlen a <= i -> zget (a ++ b) i = zget b (i - zlen a).
Proof.
  intros Hi; unfold zget; rewrite zlen_app. pose proof (zlen_nonneg a).
  destruct (Z.leb_spec 0 i); [|lia]. destruct (Z.leb_spec 0 (i - zlen a)); [|lia].
  cbn [andb].
  destruct (Z.ltb_spec i (zlen a + zlen b)), (Z.ltb_spec (i - zlen a) (zlen b)); try lia; [|reflexivity].
  rewrite nth_error_app2 by (unfold zlen in *; lia). f_equal. unfold zlen; lia.
Qed.
Lemma zget_lt_Some {A} (l : list A) i : 0 <= i < zlen l -> exists x, zget l i = Some x.
Proof.
  intros H; unfold zget. destruct ((0 <=? i) && (i <? zlen l)) eqn:E; [|lia].
  destruct (nth_error l (Z.to_nat i)) eqn:En; [eauto|].
  apply nth_error_None in En. unfold zlen in *; lia.
Qed.
Lemma zget_None {A} (l : list A) i : zget l i = None <-> ~ (0 <= i < zlen l).
Proof.
  split; intros H.
  - intro Hi. destruct (zget_lt_Some l i Hi) as [x Hx]; congruence.
  - unfold zget. destruct ((0 <=? i) && (i <? zlen l)) eqn:E; [lia|reflexivity].
Qed.
Lemma zget_In {A} (l : list A) i x : zget l i = Some x -> In x l.
Proof.
  unfold zget; destruct (_ && _); [|discriminate]. apply nth_error_In.
Qed.
Lemma In_zget {A} (l : list A) x : In x l -> exists i, zget l i = Some x.
Proof.
  intro H. apply In_nth_error in H as [n Hn]. exists (Z.of_nat n).
  assert (n < length l)%nat by (apply nth_error_Some; congruence).
  unfold zget, zlen. destruct ((0 <=? Z.of_nat n) && (Z.of_nat n <? Z.of_nat (length l))) eqn:E; [|lia].
  rewrite Nat2Z.id. exact Hn.
Qed.
Lemma zget_0 {A} (x : A) l : zget (x :: l) 0 = Some x.
Proof. unfold zget. rewrite zlen_cons. pose proof (zlen_nonneg l). destruct (Z.ltb_spec 0 (1 + zlen l)); [reflexivity|lia]. Qed.
Lemma zget_S {A} (x : A) l i : 0 < i -> zget (x :: l) i = zget l (i - 1).
Proof.
  intros. change (x :: l) with ([x] ++ l). rewrite zget_app2; [reflexivity|]. unfold zlen; cbn [length]; lia.
Qed.
Lemma zget_zdrop {A} (l : list A) n i : 0 <= n -> 0 <= i -> zget (zdrop n l) i = zget l (n + i).
Proof.
  intros Hn Hi. destruct (Z.le_gt_cases n (zlen l)).
  - rewrite <- (ztake_zdrop n l) at 2. rewrite zget_app2; rewrite zlen_ztake by lia; [f_equal; lia|lia].
  - rewrite zdrop_all by lia. symmetry. replace (zget [] i) with (@None A).
    + apply zget_None. lia.
    + symmetry. apply zget_None. unfold zlen; cbn [length]; lia.
Qed.
Lemma zget_ztake {A} (l : list A) n i : i < n -> zget (ztake n l) i = zget l i.
Proof.
  intros Hi. destruct (Z.le_gt_cases 0 i); cycle 1.
  { transitivity (@None A); [|symmetry]; apply zget_None; lia. }
  destruct (Z.le_gt_cases n (zlen l)).
  - rewrite <- (ztake_zdrop n l) at 2. rewrite zget_app1; [reflexivity|]. rewrite zlen_ztake; lia.
  - rewrite ztake_all by lia. reflexivity.
Qed.
Lemma zget_ext {A} (a b : list A) :
  zlen a = zlen b -> (forall i, 0 <= i < zlen a -> zget a i = zget b i) -> a = b.
Proof.
  revert b; induction a as [|x a IH]; intros [|y b] Hl H; try reflexivity.
  - rewrite zlen_cons in Hl. pose proof (zlen_nonneg b). rewrite zlen_nil in Hl; lia.
  - rewrite zlen_cons in Hl. pose proof (zlen_nonneg a). rewrite zlen_nil in Hl; lia.
  - rewrite !zlen_cons in *. pose proof (zlen_nonneg a).
    assert (Hx: x = y). { specialize (H 0). rewrite !zget_0 in H. assert (Some x = Some y) by (apply H; lia). congruence. }
    subst. f_equal. apply IH; [lia|]. intros i Hi.
    specialize (H (i + 1)). rewrite !zget_S in H by lia. replace (i + 1 - 1) with i in H by lia. apply H; lia.
Qed.

Lemma bytes_ok_app a b : bytes_ok (a ++ b) <-> bytes_ok a /\ bytes_ok b.
Proof. apply Forall_app. Qed.
Lemma bytes_ok_ztake n l : bytes_ok l -> bytes_ok (ztake n l).
Proof. intro H. rewrite <- (ztake_zdrop n l) in H. apply Forall_app in H; tauto. Qed.
Lemma bytes_ok_zdrop n l : bytes_ok l -> bytes_ok (zdrop n l).
Proof. intro H. rewrite <- (ztake_zdrop n l) in H. apply Forall_app in H; tauto. Qed.
Lemma bytes_ok_zslice o n l : bytes_ok l -> bytes_ok (zslice o n l).
Proof. intro; apply bytes_ok_ztake, bytes_ok_zdrop; assumption. Qed.
Lemma bytes_ok_zeros n : bytes_ok (zeros n).
Proof. unfold zeros. apply Forall_forall. intros x Hx. apply repeat_spec in Hx. subst. red; lia. Qed.
Lemma bytes_ok_forallb l : forallb byte_okb l = true -> bytes_ok l.
Proof.
  intro H. apply Forall_forall. intros x Hx. rewrite forallb_forall in H.
  specialize (H x Hx). unfold byte_okb in H. red; lia.
Qed.

Lemma memchr_Some d l i :
  memchr d l = Some i ->
  0 <= i < zlen l /\ zget l i = Some d /\ ~ In d (ztake i l).
Proof.
  revert i; induction l as [|b l IH]; intros i; cbn [memchr]; [discriminate|].
  destruct (Z.eqb_spec b d).
  - intro H; inversion H; subst. rewrite zlen_cons, zget_0, ztake_0. pose proof (zlen_nonneg l).
    repeat split; try lia. intros [].
  - destruct (memchr d l) as [j|] eqn:E; [|discriminate].
    intro H; inversion H; subst. destruct (IH j eq_refl) as (Hj & Hg & Hn).
    rewrite zlen_cons, zget_S by lia. replace (j + 1 - 1) with j by lia.
    repeat split; try lia; [exact Hg|].
    replace (ztake (j + 1) (b :: l)) with (b :: ztake j l).
    + intros [->|Hin]; [congruence|exact (Hn Hin)].
    + unfold ztake. replace (Z.to_nat (j + 1)) with (S (Z.to_nat j)) by lia. reflexivity.
Qed.
Lemma memchr_None d l : memchr d l = None <-> ~ In d l.
Proof.
  induction l as [|b l IH]; cbn [memchr In]; [split; [intros _ []|reflexivity]|].
  destruct (Z.eqb_spec b d); [split; [discriminate|subst; tauto]|].
  destruct (memchr d l); split; intro H; try discriminate.
  - exfalso. apply H. right. destruct (in_dec Z.eq_dec d l); [assumption|].
    exfalso. assert (Some z = None) by (apply IH; assumption). discriminate.
  - intros [?|?]; [congruence|]. apply IH in H0; [assumption|reflexivity].
  - reflexivity.
Qed.
Lemma memchr_app d a b : ~ In d a -> memchr d (a ++ d :: b) = Some (zlen a).
Proof.
  induction a as [|x a IH]; intros Hn; cbn [app memchr].
  - rewrite Z.eqb_refl. reflexivity.
  - destruct (Z.eqb_spec x d); [exfalso; apply Hn; left; assumption|].
    rewrite IH; [rewrite zlen_cons; f_equal; lia|]. intro; apply Hn; right; assumption.
Qed.

Lemma get_from_app {A} (a b : list A) o : o = zlen a -> get_from (a ++ b) o = Some b.
Proof.
  intros ->. unfold get_from. pose proof (zlen_nonneg a). pose proof (zlen_nonneg b).
  rewrite zlen_app, zdrop_app.
  destruct ((0 <=? zlen a) && (zlen a <=? zlen a + zlen b)) eqn:E; [reflexivity|lia].
Qed.
Lemma get_to_app {A} (a b : list A) o : o = zlen a -> get_to (a ++ b) o = Some a.
Proof.
  intros ->. unfold get_to. pose proof (zlen_nonneg a). pose proof (zlen_nonneg b).
  rewrite zlen_app, ztake_app.
  destruct ((0 <=? zlen a) && (zlen a <=? zlen a + zlen b)) eqn:E; [reflexivity|lia].
Qed.

(** ** Bit lemmas *)
Lemma land_shiftl_low a b k : 0 <= k -> 0 <= a < 2 ^ k -> Z.land a (Z.shiftl b k) = 0.
Proof.
  intros Hk Ha. apply Z.bits_inj'. intros n Hn.
  rewrite Z.land_spec, Z.bits_0, Z.shiftl_spec by lia.
  destruct (Z.lt_ge_cases n k).
  - rewrite (Z.testbit_neg_r b) by lia. apply andb_false_r.
  - rewrite <- (Z.mod_small a (2 ^ k)) by lia. rewrite Z.mod_pow2_bits_high by lia. reflexivity.
Qed.
Lemma lor_shiftl_add a b k : 0 <= k -> 0 <= a < 2 ^ k -> Z.lor a (Z.shiftl b k) = a + b * 2 ^ k.
Proof.
  intros Hk Ha. rewrite <- Z.shiftl_mul_pow2 by lia.
  rewrite Z.add_nocarry_lxor by (apply land_shiftl_low; lia).
  apply Z.bits_inj'. intros n Hn. rewrite Z.lor_spec, Z.lxor_spec.
  assert (Z.testbit (Z.land a (Z.shiftl b k)) n = false) as H
      by (rewrite land_shiftl_low by lia; apply Z.bits_0).
  rewrite Z.land_spec in H. destruct (Z.testbit a n), (Z.testbit (Z.shiftl b k) n); cbn in *; congruence.
Qed.
Lemma lor_mul_add a b k : 0 <= k -> 0 <= a < 2 ^ k -> Z.lor a (b * 2 ^ k) = a + b * 2 ^ k.
Proof. intros. rewrite <- Z.shiftl_mul_pow2 by lia. rewrite lor_shiftl_add by lia. rewrite Z.shiftl_mul_pow2 by lia. lia. Qed.
Lemma land_ones_mod x k : 0 <= k -> Z.land x (2 ^ k - 1) = x mod 2 ^ k.
Proof. intro. rewrite <- Z.land_ones by lia. rewrite Z.ones_equiv. f_equal; lia. Qed.

Lemma mod_byte x : 0 <= x mod 256 < 256.
Proof. apply Z.mod_pos_bound; lia. Qed.

(** For examples: split a conjunction of closed facts and evaluate each. *)
Ltac ex :=
  cbv zeta;
  repeat match goal with
  | |- _ /\ _ => split
  | |- Forall _ [] => apply Forall_nil
  | |- Forall _ (_ :: _) => apply Forall_cons
  | |- True => exact I
  | |- _ = _ => vm_compute; reflexivity
  | |- _ <> _ => vm_compute; discriminate
  | |- (_ <= _)%Z => vm_compute; discriminate
  | |- (_ < _)%Z => vm_compute; reflexivity
  | |- byte_ok _ => unfold byte_ok
  | |- u64_ok _ => unfold u64_ok
  | |- u32_ok _ => unfold u32_ok
  | |- u16_ok _ => unfold u16_ok
  | |- bytes_ok _ => unfold bytes_ok
  | |- _ => progress (hnf; cbv zeta)
  end.

(** Normalise list lengths and close an arithmetic goal. *)
Ltac zl_norm :=
  repeat (rewrite zlen_app || rewrite zlen_cons || rewrite zlen_rev || rewrite zlen_map);
  repeat match goal with |- context[@zlen ?A []] => change (@zlen A []) with 0 end.
Ltac zl_norm_in H :=
  repeat (rewrite zlen_app in H || rewrite zlen_cons in H || rewrite zlen_rev in H || rewrite zlen_map in H);
  repeat match type of H with context[@zlen ?A []] => change (@zlen A []) with 0 in H end.
Ltac zl_pos :=
  repeat match goal with
  | |- context[@zlen ?A ?l] =>
    lazymatch goal with H : 0 <= @zlen A l |- _ => fail | _ => pose proof (@zlen_nonneg A l) end
  end.
Ltac zl := zl_norm; lia.
