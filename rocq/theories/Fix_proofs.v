(** Chained fixups: pointers. *)
From Verif Require Import Core_proofs Util_proofs File_proofs Iter_proofs Rel_proofs.
From Verif Require ElfR_proofs.
From Verif Require Import Fix_spec.

Lemma bits_eq v k n : 0 <= k -> 0 <= n -> bits v k n = v / 2 ^ k mod 2 ^ n.
Proof. intros Hk Hn. unfold bits. replace (2 ^ n - 1) with (Z.ones n) by (rewrite Z.ones_equiv; lia). rewrite Z.land_ones, Z.shiftr_div_pow2 by assumption. reflexivity. Qed.
Lemma bits_here w x r : 0 <= x < 2 ^ w -> 0 <= w -> bits (x + 2 ^ w * r) 0 w = x.
Proof. intros Hx Hw. rewrite bits_eq by lia. change (2 ^ 0) with 1. rewrite Z.div_1_r, Z.mul_comm, Z_mod_plus_full. apply Z.mod_small. exact Hx. Qed.
Lemma bits_skip w x r k n : 0 <= x < 2 ^ w -> 0 <= w <= k -> 0 <= n -> bits (x + 2 ^ w * r) k n = bits r (k - w) n.
Proof.
  intros Hx Hw Hn. rewrite !bits_eq by lia. f_equal. replace k with (w + (k - w)) at 1 by lia. rewrite Z.pow_add_r by lia. assert (P : 0 < 2 ^ w) by (apply Z.pow_pos_nonneg; lia).
  rewrite <- Z.div_div; [|lia|apply Z.pow_pos_nonneg; lia]. f_equal. rewrite Z.mul_comm, Z.div_add by lia. rewrite Z.div_small by exact Hx. reflexivity.
Qed.
Lemma bit_eq v k : bit v k = (bits v k 1 =? 1).
Proof. unfold bit, bits. change (2 ^ 1 - 1) with (Z.ones 1). change 1 with (Z.ones 1) at 1. rewrite Z.land_ones by lia. pose proof (Z.mod_pos_bound (Z.shiftr v k) (2 ^ 1) ltac:(lia)). destruct (Z.eqb_spec (Z.shiftr v k mod 2 ^ 1) 0), (Z.eqb_spec (Z.shiftr v k mod 2 ^ 1) 1); try reflexivity; lia. Qed.
Lemma bits_all v w : 0 <= v < 2 ^ w -> 0 <= w -> packs [(w, v)] v.
Proof. intros H _. split; [repeat constructor; cbn; lia|]. cbn [packed]. lia. Qed.
(** a word is the packing of its fields *)
Fixpoint split_fields (ws : list Z) (v : Z) : list (Z * Z) := match ws with [] => [] | w :: r => (w, v mod 2 ^ w) :: split_fields r (v / 2 ^ w) end.
Lemma split_packs ws : forall v, Forall (fun w => 0 <= w) ws -> 0 <= v < 2 ^ (fold_right Z.add 0 ws) -> packs (split_fields ws v) v.
Proof.
  induction ws as [|w ws IH]; intros v Hw Hv; cbn [split_fields fold_right] in *.
  - split; [constructor|]. cbn [packed]. change (2 ^ 0) with 1 in Hv. lia.
  - inversion Hw as [|? ? W0 W]; subst. assert (S0 : 0 <= fold_right Z.add 0 ws) by (clear - W; induction W; cbn; lia).
    assert (P : 0 < 2 ^ w) by (apply Z.pow_pos_nonneg; lia). rewrite Z.pow_add_r in Hv by lia. destruct (IH (v / 2 ^ w) W) as (F & E).
    { split; [apply Z.div_pos; lia|]. apply Z.div_lt_upper_bound; lia. }
    split; [constructor; [cbn; apply Z.mod_pos_bound; lia|exact F]|]. cbn [packed]. rewrite <- E. pose proof (Z_div_mod_eq_full v (2 ^ w)). lia.
Qed.
Ltac packs_inv H := destruct H as (?F & ->); repeat match goal with K : Forall _ (_ :: _) |- _ => let A := fresh "A" in inversion K as [|? ? A ?]; subst; clear K; cbn [fst snd] in A | K : Forall _ [] |- _ => clear K end; cbn [packed].
Lemma bits_skip' w x r k n k' : k' = k - w -> 0 <= x < 2 ^ w -> 0 <= w <= k -> 0 <= n -> bits (x + 2 ^ w * r) k n = bits r k' n.
Proof. intros -> Hx Hw Hn. apply bits_skip; assumption. Qed.
Ltac bits_red :=
  rewrite ?bit_eq;
  repeat match goal with
  | |- context [bits (?x + 2 ^ ?w * ?r) 0 ?w] => rewrite (bits_here w x r) by lia
  | |- context [bits (?x + 2 ^ ?w * ?r) ?k ?n] => let b := eval compute in (w <=? k) in match b with true => let k' := eval compute in (k - w) in rewrite (bits_skip' w x r k n k') by (first [reflexivity|lia]) end
  end.
Lemma b2z_bound b : 0 <= b2z b < 2 ^ 1.
Proof. destruct b; cbn; lia. Qed.
Lemma b2z_eqb b : (b2z b =? 1) = b.
Proof. destruct b; reflexivity. Qed.
Lemma key_id k : 0 <= k < 2 ^ 2 -> ptr_key k = k.
Proof. intro H. unfold ptr_key. repeat match goal with |- context [?a =? ?b] => destruct (Z.eqb_spec a b) end; lia. Qed.
Lemma addend_eq v a : - 2 ^ 18 <= a < 2 ^ 18 -> bits v 32 19 = a mod 2 ^ 19 -> Z.shiftr (wrap_s 32 (Z.shiftr v 19)) 13 = a.
Proof.
  intros Ha E. rewrite bits_eq in E by lia. unfold wrap_s. rewrite !Z.shiftr_div_pow2 by lia. 
  change (2 ^ 32) with 4294967296 in *. change (2 ^ 19) with 524288 in *. change (2 ^ 13) with 8192. change (2 ^ (32 - 1)) with 2147483648. change (2 ^ 18) with 262144 in Ha.
  assert (H : v / 4294967296 = v / 524288 / 8192) by (rewrite Z.div_div by lia; reflexivity). rewrite H in E. set (u := v / 524288) in *. clearbody u. clear H.
  repeat match goal with |- context [if ?c then _ else _] => destruct c eqn:? end; Z.to_euclidean_division_equations; lia.
Qed.

Lemma arm_ok w stride vm v d fx : w = 16 \/ w = 24 -> arm64e w stride vm v d fx -> parse_arm64e w v stride vm = (d, fx).
Proof.
  intros Hw H. destruct Hw as [-> | ->]; destruct H as [target high next H|target div ad key next H|ord z addend next Ha H|ord z div ad key next H];
  try change (32 - 16) with 16 in H; try change (32 - 24) with 8 in H; packs_inv H; unfold parse_arm64e, parse_arm64e_bind, parse_arm64e_rebase, ptr_auth; cbv zeta;
  try (rewrite (addend_eq _ addend Ha) by (bits_red; reflexivity)); bits_red; cbn [Z.eqb Pos.eqb]; rewrite ?b2z_eqb, ?key_id by lia; rewrite ?Z.shiftl_mul_pow2 by lia; reflexivity.
Qed.
Lemma pointer_ok vm v f d fx : 0 <= v < 2 ^ 64 -> pointer vm v f d fx -> fixup_parse f v vm = Ok (d, fx).
Proof.
  intros Hv H. destruct H as [d fx H|d fx H|d fx H|d fx H|d fx H|f base target high r next Hf H|f ord addend r next Hf H|f st target level r next Hf H|f st target level div ad key next Hf H|
    target next H|ord addend next H|target next H|target next H|target high r next H|target div ad data next H|off ix r next H|off ix div ad key next H];
  [unfold fixup_parse; cbn [Z.eqb Pos.eqb]; f_equal; apply arm_ok; [lia|exact H]|unfold fixup_parse; cbn [Z.eqb Pos.eqb]; f_equal; apply arm_ok; [lia|exact H]|unfold fixup_parse; cbn [Z.eqb Pos.eqb]; f_equal; apply arm_ok; [lia|exact H]|unfold fixup_parse; cbn [Z.eqb Pos.eqb]; f_equal; apply arm_ok; [lia|exact H]|unfold fixup_parse; cbn [Z.eqb Pos.eqb]; f_equal; apply arm_ok; [lia|exact H]|unfold fixup_parse; try (destruct Hf as [Hf|Hf]); try (destruct Hf as (-> & ->)); try subst f; cbn [Z.eqb Pos.eqb]; packs_inv H .. ].
  all: unfold parse_64, parse_kernel, parse_32, parse_32_plain, parse_segmented, parse_shared, ptr_auth; cbv zeta;
  try match goal with |- context [wrap_u 32 ?x] => replace (wrap_u 32 x) with x by (unfold wrap_u; symmetry; apply Z.mod_small; lia) end;
  bits_red; cbn [Z.eqb Pos.eqb]; rewrite ?b2z_eqb, ?key_id by lia; rewrite ?Z.shiftl_mul_pow2 by lia; try reflexivity.
  rewrite ElfR_proofs.lor_add' by lia. reflexivity.
Qed.
Lemma is_b2z x : 0 <= x < 2 ^ 1 -> exists b, x = b2z b.
Proof. intros Hx. destruct (Z.eq_dec x 0); [exists false|exists true]; cbn; lia. Qed.
Lemma is_addend x : 0 <= x < 2 ^ 19 -> exists a, - 2 ^ 18 <= a < 2 ^ 18 /\ x = a mod 2 ^ 19.
Proof. intros Hx. destruct (Z_lt_dec x (2 ^ 18)); [exists x; split; [lia|symmetry; apply Z.mod_small; lia]|]. exists (x - 2 ^ 19). split; [lia|]. rewrite <- (Z_mod_plus_full (x - 2 ^ 19) 1). rewrite Z.mod_small; lia. Qed.
(** a word with the given top fields is the packing of its other fields with them *)
Lemma split_top top t : packs top t -> forall ws v, Forall (fun w => 0 <= w) ws -> v / 2 ^ (fold_right Z.add 0 ws) = t -> packs (split_fields ws v ++ top) v.
Proof.
  intros (Ft & Et). induction ws as [|w ws IH]; intros v Hw Hv; cbn [split_fields fold_right app] in *.
  - change (2 ^ 0) with 1 in Hv. rewrite Z.div_1_r in Hv. subst. split; [exact Ft|reflexivity].
  - inversion Hw as [|? ? W0 W]; subst. assert (S0 : 0 <= fold_right Z.add 0 ws) by (clear - W; induction W; cbn; lia).
    assert (P : 0 < 2 ^ w) by (apply Z.pow_pos_nonneg; lia). assert (Q : 0 < 2 ^ fold_right Z.add 0 ws) by (apply Z.pow_pos_nonneg; lia). rewrite Z.pow_add_r, <- Z.div_div in Hv by lia. destruct (IH (v / 2 ^ w) W Hv) as (F & E).
    split; [constructor; [cbn; apply Z.mod_pos_bound; lia|exact F]|]. cbn [packed]. rewrite <- E. pose proof (Z_div_mod_eq_full v (2 ^ w)). lia.
Qed.
Ltac top_v ws top t v P :=
  assert (P : packs (split_fields ws v ++ top) v) by (apply (split_top top t); [split; [repeat constructor; cbn; lia|reflexivity]|repeat constructor; lia|cbn [fold_right]; Z.to_euclidean_division_equations; lia]);
  cbn [split_fields app] in P.
(** name the fields *)
Ltac name_fields P := repeat match type of P with context [(?w, ?a mod ?b)] => let x := fresh "x" in let Hx := fresh "Hx" in assert (Hx : 0 <= a mod b < b) by (apply Z.mod_pos_bound; lia); set (x := a mod b) in *; clearbody x end.
Lemma arm_exists w stride vm v : w = 16 \/ w = 24 -> 0 <= v < 2 ^ 64 -> exists d fx, arm64e w stride vm v d fx.
Proof.
  intros Hw Hv.
  destruct (Z_lt_dec v (2 ^ 62)) as [C1|C1]; [|destruct (Z_lt_dec v (2 ^ 63)) as [C2|C2]; [|destruct (Z_lt_dec v (2 ^ 63 + 2 ^ 62)) as [C3|C3]]].
  - top_v [43; 8; 11] [(1, 0); (1, 0)] 0 v P. do 2 eexists. eapply a_rebase. exact P.
  - destruct Hw as [-> | ->].
    + top_v [16; 32 - 16; 19; 11] [(1, 1); (1, 0)] 1 v P. destruct (is_addend (v / 2 ^ 16 / 2 ^ (32 - 16) mod 2 ^ 19)) as (a & Ha & Ea); [apply Z.mod_pos_bound; lia|]. rewrite Ea in P. do 2 eexists. eapply a_bind; [exact Ha|exact P].
    + top_v [24; 32 - 24; 19; 11] [(1, 1); (1, 0)] 1 v P. destruct (is_addend (v / 2 ^ 24 / 2 ^ (32 - 24) mod 2 ^ 19)) as (a & Ha & Ea); [apply Z.mod_pos_bound; lia|]. rewrite Ea in P. do 2 eexists. eapply a_bind; [exact Ha|exact P].
  - top_v [32; 16; 1; 2; 11] [(1, 0); (1, 1)] 2 v P. destruct (is_b2z (v / 2 ^ 32 / 2 ^ 16 mod 2 ^ 1)) as (a & Ea); [apply Z.mod_pos_bound; lia|]. rewrite Ea in P. do 2 eexists. eapply a_auth_rebase. exact P.
  - destruct Hw as [-> | ->].
    + top_v [16; 32 - 16; 16; 1; 2; 11] [(1, 1); (1, 1)] 3 v P. destruct (is_b2z (v / 2 ^ 16 / 2 ^ (32 - 16) / 2 ^ 16 mod 2 ^ 1)) as (a & Ea); [apply Z.mod_pos_bound; lia|]. rewrite Ea in P. do 2 eexists. eapply a_auth_bind. exact P.
    + top_v [24; 32 - 24; 16; 1; 2; 11] [(1, 1); (1, 1)] 3 v P. destruct (is_b2z (v / 2 ^ 24 / 2 ^ (32 - 24) / 2 ^ 16 mod 2 ^ 1)) as (a & Ea); [apply Z.mod_pos_bound; lia|]. rewrite Ea in P. do 2 eexists. eapply a_auth_bind. exact P.
Qed.
Definition supported (f : Z) : Prop := 1 <= f <= 14.
Lemma pointer_exists vm v f : supported f -> 0 <= v < 2 ^ (8 * ptr_size f) -> exists d fx, pointer vm v f d fx.
Proof.
  intros Hf Hv. unfold supported in Hf.
  assert (C : f = 1 \/ f = 2 \/ f = 3 \/ f = 4 \/ f = 5 \/ f = 6 \/ f = 7 \/ f = 8 \/ f = 9 \/ f = 10 \/ f = 11 \/ f = 12 \/ f = 13 \/ f = 14) by lia.
  assert (Ar : forall w stride b, w = 16 \/ w = 24 -> 0 <= v < 2 ^ 64 -> exists d fx, arm64e w stride b v d fx) by (intros; apply arm_exists; assumption).
  destruct C as [-> |[-> |[-> |[-> |[-> |[-> |[-> |[-> |[-> |[-> |[-> |[-> |[-> | ->]]]]]]]]]]]]]; unfold ptr_size in Hv; cbn [Z.eqb Pos.eqb orb] in Hv; 
  try change (2 ^ (8 * 8)) with (2 ^ 64) in Hv; try change (2 ^ (8 * 4)) with (2 ^ 32) in Hv.
  - destruct (Ar 16 8 vm) as (d & fx & H); [lia|exact Hv|]. exists d, fx. constructor. exact H.
  - destruct (Z_lt_dec v (2 ^ 63)).
    + top_v [36; 8; 7; 12] [(1, 0)] 0 v P. do 2 eexists. eapply p_64_rebase; [left; split; reflexivity|exact P].
    + top_v [24; 8; 19; 12] [(1, 1)] 1 v P. do 2 eexists. eapply p_64_bind; [left; reflexivity|exact P].
  - destruct (Z_lt_dec v (2 ^ 31)).
    + top_v [26; 5] [(1, 0)] 0 v P. do 2 eexists. eapply p_32_rebase. exact P.
    + top_v [20; 6; 5] [(1, 1)] 1 v P. do 2 eexists. eapply p_32_bind. exact P.
  - pose proof (split_packs [30; 2] v ltac:(repeat constructor; lia) Hv) as P. do 2 eexists. eapply p_32_cache. exact P.
  - pose proof (split_packs [26; 6] v ltac:(repeat constructor; lia) Hv) as P. do 2 eexists. eapply p_32_firmware. exact P.
  - destruct (Z_lt_dec v (2 ^ 63)).
    + top_v [36; 8; 7; 12] [(1, 0)] 0 v P. do 2 eexists. eapply p_64_rebase; [right; split; reflexivity|exact P].
    + top_v [24; 8; 19; 12] [(1, 1)] 1 v P. do 2 eexists. eapply p_64_bind; [right; reflexivity|exact P].
  - destruct (Ar 16 4 0) as (d & fx & H); [lia|exact Hv|]. exists d, fx. constructor. exact H.
  - destruct (Z_lt_dec v (2 ^ 63)).
    + top_v [30; 2; 19; 12] [(1, 0)] 0 v P. do 2 eexists. eapply p_kernel; [left; split; reflexivity|exact P].
    + top_v [30; 2; 16; 1; 2; 12] [(1, 1)] 1 v P. destruct (is_b2z (v / 2 ^ 30 / 2 ^ 2 / 2 ^ 16 mod 2 ^ 1)) as (a & Ea); [apply Z.mod_pos_bound; lia|]. rewrite Ea in P. do 2 eexists. eapply p_kernel_auth; [left; split; reflexivity|exact P].
  - destruct (Ar 16 8 0) as (d & fx & H); [lia|exact Hv|]. exists d, fx. constructor. exact H.
  - destruct (Ar 16 4 vm) as (d & fx & H); [lia|exact Hv|]. exists d, fx. constructor. exact H.
  - destruct (Z_lt_dec v (2 ^ 63)).
    + top_v [30; 2; 19; 12] [(1, 0)] 0 v P. do 2 eexists. eapply p_kernel; [right; split; reflexivity|exact P].
    + top_v [30; 2; 16; 1; 2; 12] [(1, 1)] 1 v P. destruct (is_b2z (v / 2 ^ 30 / 2 ^ 2 / 2 ^ 16 mod 2 ^ 1)) as (a & Ea); [apply Z.mod_pos_bound; lia|]. rewrite Ea in P. do 2 eexists. eapply p_kernel_auth; [right; split; reflexivity|exact P].
  - destruct (Ar 24 8 0) as (d & fx & H); [lia|exact Hv|]. exists d, fx. constructor. exact H.
  - destruct (Z_lt_dec v (2 ^ 63)).
    + top_v [34; 8; 10; 11] [(1, 0)] 0 v P. do 2 eexists. eapply p_shared. exact P.
    + top_v [34; 16; 1; 1; 11] [(1, 1)] 1 v P. destruct (is_b2z (v / 2 ^ 34 / 2 ^ 16 mod 2 ^ 1)) as (a & Ea); [apply Z.mod_pos_bound; lia|]. rewrite Ea in P.
      destruct (is_b2z (v / 2 ^ 34 / 2 ^ 16 / 2 ^ 1 mod 2 ^ 1)) as (b & Eb); [apply Z.mod_pos_bound; lia|]. rewrite Eb in P. do 2 eexists. eapply p_shared_auth. exact P.
  - destruct (Z_lt_dec v (2 ^ 63)).
    + top_v [28; 4; 19; 12] [(1, 0)] 0 v P. do 2 eexists. eapply p_segmented. exact P.
    + top_v [28; 4; 16; 1; 2; 12] [(1, 1)] 1 v P. destruct (is_b2z (v / 2 ^ 28 / 2 ^ 4 / 2 ^ 16 mod 2 ^ 1)) as (a & Ea); [apply Z.mod_pos_bound; lia|]. rewrite Ea in P. do 2 eexists. eapply p_segmented_auth. exact P.
Qed.
Lemma parse_iff vm v f d fx : 0 <= v < 2 ^ (8 * ptr_size f) -> fixup_parse f v vm = Ok (d, fx) <-> pointer vm v f d fx.
Proof.
  intros Hv. assert (Hv' : 0 <= v < 2 ^ 64) by (revert Hv; unfold ptr_size; destruct ((f =? 3) || (f =? 4) || (f =? 5)); [change (2 ^ (8 * 4)) with (2 ^ 32)|change (2 ^ (8 * 8)) with (2 ^ 64)]; lia).
  split; [|apply pointer_ok; exact Hv']. intro E.
  assert (S : supported f) by (revert E; unfold fixup_parse; clear; unfold supported; repeat match goal with |- context [f =? ?x] => destruct (Z.eqb_spec f x); [intros; lia|] end; discriminate).
  destruct (pointer_exists vm v f S Hv) as (d' & fx' & P). pose proof (pointer_ok _ _ _ _ _ Hv' P) as E'. rewrite E in E'. injection E' as E1 E2. rewrite E1, E2. exact P.
Qed.
Lemma parse_np f v vm : fixup_parse f v vm <> Panic.
Proof. unfold fixup_parse. repeat match goal with |- context [f =? ?x] => destruct (f =? x) end; discriminate. Qed.
Lemma bits_bound v k n : 0 <= k -> 0 <= n -> 0 <= bits v k n < 2 ^ n.
Proof. intros Hk Hn. rewrite bits_eq by assumption. apply Z.mod_pos_bound. apply Z.pow_pos_nonneg; lia. Qed.
Lemma parse_dist f v vm d fx : fixup_parse f v vm = Ok (d, fx) -> 0 <= d < 2 ^ 16.
Proof.
  unfold fixup_parse. intro E.
  assert (B : forall v k n s, 0 <= k -> 0 <= n <= 12 -> 0 <= s <= 8 -> 0 <= bits v k n * s < 2 ^ 16).
  { clear. intros v k n s Hk Hn Hs. pose proof (bits_bound v k n Hk ltac:(lia)) as B. assert (2 ^ n <= 2 ^ 12) by (apply Z.pow_le_mono_r; lia). change (2 ^ 12) with 4096 in *. nia. }
  repeat match type of E with context [f =? ?x] => destruct (Z.eqb_spec f x); [unfold parse_arm64e, parse_64, parse_kernel, parse_32, parse_32_plain, parse_segmented, parse_shared in E; cbv zeta in E;
    match type of E with Ok (?a, _) = Ok (d, fx) => assert (Ed : a = d) by congruence; rewrite <- Ed; apply B; lia end|] end; discriminate.
Qed.

(** * Chains *)
Section Chains.
Context (e : endian) (g : cseg) (vm : Z) (D : bytes) (HD : bytes_ok D) (HL : zlen D < 2 ^ 63) (Hg : cseg_ok g).
Notation next := (fx_next e g vm D).
Notation loop := (fx_loop e g vm D).
Definition upd (s : fxit) (st : fstate) (o : Z) : fxit := {| fx_state := st; fx_page := fx_page s; fx_chain := fx_chain s; fx_page_offset := fx_page_offset s; fx_offset := o |}.
Definition need (s : fxit) : nat := match fx_state s with FxStart => 3 + (length (cs_starts g) - Z.to_nat (fx_page s)) | FxChain => 2 | _ => 1 end.
Lemma fuel f1 : forall f2 s, 0 <= fx_page s -> (need s <= f1)%nat -> (need s <= f2)%nat -> loop f1 s = loop f2 s.
Proof.
  induction f1 as [|f1 IH]; intros [|f2] s Hp H1 H2; try (unfold need in *; destruct (fx_state s); lia). unfold need in *. cbn [fx_loop]. destruct (fx_state s) eqn:Es; try reflexivity.
  - destruct (cs_page_count g <=? fx_page s); [reflexivity|]. destruct (zget (cs_starts g) (fx_page s)) as [x|] eqn:Ex; [|reflexivity]. apply zget_Some_lt in Ex. unfold zlen in Ex.
    destruct (po <- pmul 64 (fx_page s) (cs_page_size g);; n <- padd 64 (fx_page s) 1;; Ok (po, n)) as [[po n]| |] eqn:Ep; try reflexivity.
    assert (n = fx_page s + 1) as ->. { unfold pmul, padd in Ep. destruct (_ <? _); [|discriminate]. cbn [bind] in Ep. destruct (_ <? _); [|discriminate]. cbn [bind] in Ep. congruence. }
    destruct (x =? 65535); [apply IH; cbn [fx_page fx_state]; lia|]. destruct (negb (Z.land x 32768 =? 0)); [apply IH; cbn [fx_page fx_state]; lia|]. destruct (padd 64 po x); try reflexivity. apply IH; cbn [fx_page fx_state]; lia.
  - destruct (zget (cs_starts g) (fx_chain s)) as [x|] eqn:Ex; [|reflexivity].
    destruct (n <- padd 64 (fx_chain s) 1;; o <- padd 64 (fx_page_offset s) (Z.land x 32767);; Ok (n, o)) as [[n o]| |] eqn:Ep; try reflexivity. destruct (negb (Z.land x 32768 =? 0)); apply IH; cbn [fx_page fx_state]; lia.
Qed.
Definition fixe (r : out (option (Z * fixup)) * fxit) : out (option (Z * fixup)) * fxit :=
  match r with (Err, s) => (Err, {| fx_state := FxStart; fx_page := cs_page_count g; fx_chain := fx_chain s; fx_page_offset := fx_page_offset s; fx_offset := fx_offset s |}) | r => r end.
Lemma need_max s : 0 <= fx_page s -> (need s <= S (S (S (length (cs_starts g)))))%nat.
Proof. intro H. unfold need. destruct (fx_state s); lia. Qed.
Lemma next_eq s f : 0 <= fx_page s -> (need s <= f)%nat -> next s = fixe (loop f s).
Proof. intros Hp Hf. assert (E : next s = fixe (loop (S (S (S (length (cs_starts g))))) s)) by (unfold fx_next, fixe; destruct (loop _ s) as [[?| |] ?]; reflexivity). rewrite E. f_equal. apply fuel; [exact Hp|apply need_max; exact Hp|exact Hf]. Qed.
Lemma next_step s s' : 0 <= fx_page s -> 0 <= fx_page s' -> (forall f, loop (S f) s = loop f s') -> next s = next s'.
Proof. intros Hp Hp' H. rewrite (next_eq s (S (S (S (S (length (cs_starts g)))))) Hp). 2: pose proof (need_max s Hp); lia. rewrite H. rewrite <- (next_eq s'); [reflexivity|exact Hp'|apply need_max; exact Hp']. Qed.

(** a pointer *)
Definition in_chain (st : fstate) : Prop := st = FxPage \/ st = FxPageChain.
Definition after (st : fstate) : fstate := match st with FxPageChain => FxChain | _ => FxStart end.
Lemma ptr_range off b : holds D off b -> zlen b = ptr_size (cs_format g) -> 0 <= read_u e b < 2 ^ (8 * ptr_size (cs_format g)).
Proof. intros H <-. assert (K : bytes_ok b). { destruct H as (a & c & -> & _). apply bytes_ok_app in HD. destruct HD as (_ & H). apply bytes_ok_app in H. apply H. } exact (read_u_bound e b K). Qed.
Lemma read_at_iff off n b : 0 <= off -> 0 <= n -> b_read_at D off n = Ok b <-> holds D off b /\ zlen b = n.
Proof.
  intros Ho Hn. unfold b_read_at, b_skip, get_from. split.
  - destruct ((0 <=? off) && (off <=? zlen D)) eqn:E; [|discriminate]. intro H. destruct (b_read (zdrop off D) n) as [r s'] eqn:R. cbn [fst] in H. subst r.
    unfold b_read, from_bytes, get_from in R. destruct ((0 <=? n) && (n <=? zlen (zdrop off D))) eqn:E2; [|discriminate]. cbn [of_opt bind] in R. rewrite zlen_zdrop in E2 by lia. assert (b = ztake n (zdrop off D)) as -> by congruence.
    assert (L : zlen (ztake n (zdrop off D)) = n) by (apply zlen_ztake; rewrite zlen_zdrop; lia). split; [|exact L]. apply holds_iff. rewrite L. split; [lia|]. split; [lia|reflexivity].
  - intros (H & <-). apply holds_iff in H. destruct H as (A & B & C). pose proof (zlen_nonneg b). destruct ((0 <=? off) && (off <=? zlen D)) eqn:E; [|lia].
    unfold b_read, from_bytes, get_from. destruct ((0 <=? zlen b) && (zlen b <=? zlen (zdrop off D))) eqn:E2; [|rewrite zlen_zdrop in E2 by lia; lia]. cbn [of_opt bind fst]. unfold zslice in C. rewrite C. reflexivity.
Qed.
Lemma read_at_np off n : b_read_at D off n <> Panic.
Proof. unfold b_read_at, b_skip. destruct (get_from D off); [|discriminate]. unfold b_read, from_bytes. destruct (get_from l n); discriminate. Qed.
Lemma ptr_cases off : 0 <= off -> (exists d fx, ptr_at e g vm D off d fx /\ 0 <= d < 2 ^ 16 /\ off < 2 ^ 63) \/ (forall d fx, ~ ptr_at e g vm D off d fx).
Proof.
  intros Ho. assert (Hs : 0 <= ptr_size (cs_format g)) by (unfold ptr_size; destruct (_ || _); lia). destruct (b_read_at D off (ptr_size (cs_format g))) as [b| |] eqn:E.
  - apply read_at_iff in E; [|exact Ho|exact Hs]. destruct E as (H & L). pose proof (ptr_range off b H L) as R. destruct (fixup_parse (cs_format g) (read_u e b) vm) as [[d fx]| |] eqn:P.
    + left. exists d, fx. split; [exists b; split; [exact H|]; split; [exact L|]; apply parse_iff; assumption|]. split; [exact (parse_dist _ _ _ _ _ P)|]. pose proof (holds_bounds _ _ _ H). pose proof (zlen_nonneg b). lia.
    + right. intros d fx (b' & H' & L' & Q). assert (b' = b) as ->. { apply holds_iff in H, H'. destruct H as (_ & _ & H), H' as (_ & _ & H'). congruence. } apply parse_iff in Q; [congruence|exact R].
    + destruct (parse_np _ _ _ P).
  - right. intros d fx (b' & H' & L' & Q). assert (E' : b_read_at D off (ptr_size (cs_format g)) = Ok b') by (apply read_at_iff; auto). congruence.
  - destruct (read_at_np _ _ E).
Qed.
Lemma ptr_next s d fx : in_chain (fx_state s) -> 0 <= fx_page s -> 0 <= fx_offset s -> ptr_at e g vm D (fx_offset s) d fx ->
  next s = (Ok (Some (fx_offset s, fx)), if d =? 0 then upd s (after (fx_state s)) (fx_offset s) else upd s (fx_state s) (fx_offset s + d)).
Proof.
  intros Hs Hp Ho (b & H & L & P). rewrite (next_eq s 1 Hp) by (destruct Hs as [-> | ->] || (unfold need; destruct Hs as [-> | ->]); lia). cbn [fx_loop].
  apply parse_iff in P; [|apply (ptr_range _ _ H L)]. pose proof (parse_dist _ _ _ _ _ P) as Bd. pose proof (holds_bounds _ _ _ H) as Bh. pose proof (zlen_nonneg b).
  change (if (cs_format g =? 3) || (cs_format g =? 4) || (cs_format g =? 5) then 4 else 8) with (ptr_size (cs_format g)).
  assert (E : b_read_at D (fx_offset s) (ptr_size (cs_format g)) = Ok b) by (apply read_at_iff; [exact Ho|rewrite <- L; lia|auto]). rewrite E, P.
  assert (Q : padd 64 (fx_offset s) d = Ok (fx_offset s + d)) by (unfold padd; destruct (Z.ltb_spec (fx_offset s + d) (2 ^ 64)); [reflexivity|lia]).
  destruct s as [st pg ci po o]. cbn [fx_state fx_page fx_chain fx_page_offset fx_offset] in *. destruct Hs as [-> | ->]; destruct (d =? 0); rewrite ?Q; reflexivity.
Qed.
Definition ended : fxit -> Prop := fun s => next s = (Ok None, s).
Lemma ended_page s : fx_state s = FxStart -> cs_page_count g <= fx_page s -> ended s.
Proof. intros E H. assert (H0 : 0 <= cs_page_count g) by apply Hg. unfold ended. rewrite (next_eq s (S (need s))); [|lia|lia]. cbn [fx_loop]. rewrite E. destruct (Z.leb_spec (cs_page_count g) (fx_page s)); [reflexivity|lia]. Qed.
Lemma ended_err s : ended (snd (fixe (Err, s))).
Proof. apply ended_page; cbn; [reflexivity|lia]. Qed.
Lemma bad_next s : in_chain (fx_state s) -> 0 <= fx_page s -> 0 <= fx_offset s -> (forall d fx, ~ ptr_at e g vm D (fx_offset s) d fx) -> exists s', next s = (Err, s') /\ ended s'.
Proof.
  intros Hs Hp Ho N. exists (snd (fixe (Err, s))). split; [|apply ended_err]. rewrite (next_eq s 1 Hp) by (unfold need; destruct Hs as [-> | ->]; lia). cbn [fx_loop].
  change (if (cs_format g =? 3) || (cs_format g =? 4) || (cs_format g =? 5) then 4 else 8) with (ptr_size (cs_format g)). assert (Hz : 0 <= ptr_size (cs_format g)) by (unfold ptr_size; destruct (_ || _); lia).
  assert (K : match b_read_at D (fx_offset s) (ptr_size (cs_format g)) with Ok b => fixup_parse (cs_format g) (read_u e b) vm = Err | Err => True | Panic => False end).
  { destruct (b_read_at D (fx_offset s) (ptr_size (cs_format g))) as [b| |] eqn:E; [|exact I|exact (read_at_np _ _ E)]. apply read_at_iff in E; [|exact Ho|exact Hz]. destruct E as (H & L).
    destruct (fixup_parse (cs_format g) (read_u e b) vm) as [[d fx]| |] eqn:P; [|reflexivity|destruct (parse_np _ _ _ P)]. exfalso. apply (N d fx). exists b. split; [exact H|]. split; [exact L|]. apply parse_iff; [exact (ptr_range _ _ H L)|exact P]. }
  destruct (b_read_at D (fx_offset s) (ptr_size (cs_format g))) as [b| |]; [rewrite K| |destruct K]; destruct Hs as [-> | ->]; reflexivity.
Qed.
(** [s] yields [l]; then an error and nothing else, or what the state that [k] gives yields *)
Definition gives (s : fxit) (l : list (Z * fixup)) (err : bool) (k : Z -> fxit) : Prop :=
  if err then exists s', runs next s l true s' /\ ended s' else exists o, forall l2 e2 s2, runs next (k o) l2 e2 s2 -> runs next s (l ++ l2) e2 s2.
Lemma chain_gives off l err : chain e g vm D off l err -> forall s, in_chain (fx_state s) -> 0 <= fx_page s -> 0 <= off -> fx_offset s = off -> gives s l err (upd s (after (fx_state s))).
Proof.
  intro C. induction C as [off fx P|off d fx l err P Hd C IH|off N]; intros s Hs Hp Ho Eo; subst off.
  - exists (fx_offset s). intros l2 e2 s2 R. cbn [app]. eapply runs_more; [exact (ptr_next s 0 fx Hs Hp Ho P)|]. exact R.
  - pose proof P as (b & H & L & Q). apply parse_iff in Q; [|apply (ptr_range _ _ H L)]. apply parse_dist in Q.
    pose proof (ptr_next s d fx Hs Hp Ho P) as E. destruct (Z.eqb_spec d 0); [contradiction|]. specialize (IH (upd s (fx_state s) (fx_offset s + d)) Hs Hp ltac:(lia) eq_refl). unfold gives in *. destruct err.
    + destruct IH as (s' & R & En). exists s'. split; [|exact En]. eapply runs_more; [exact E|exact R].
    + destruct IH as (o & IH). exists o. intros l2 e2 s2 R. cbn [app]. eapply runs_more; [exact E|]. apply IH. exact R.
  - destruct (bad_next s Hs Hp Ho N) as (s' & E & En). exists s'. split; [apply runs_err; exact E|exact En].
Qed.
End Chains.
