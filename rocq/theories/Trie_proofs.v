(** Exports tries: proofs *)
From Verif Require Import Core_proofs Util_proofs File_proofs Ar_proofs ArSym_proofs Rel_proofs.
From Verif Require Import Trie_spec.

(** * Reading parts *)
Lemma uleb_iff s v rest : bytes_ok s -> read_uleb128 s = (Ok v, rest) <-> exists x, s = x ++ rest /\ uleb_bytes x v.
Proof. intro H. rewrite read_uleb128_iff by exact H. reflexivity. Qed.
Lemma uleb_app x v rest : bytes_ok (x ++ rest) -> uleb_bytes x v -> read_uleb128 (x ++ rest) = (Ok v, rest).
Proof. intros H U. apply uleb_iff; [exact H|]. exists x. auto. Qed.
Lemma uleb_cases s : bytes_ok s -> (exists v rest, read_uleb128 s = (Ok v, rest)) \/ (exists rest, read_uleb128 s = (Err, rest)).
Proof. intro H. pose proof (read_uleb128_no_panic s H). destruct (read_uleb128 s) as [[v| |] rest]; cbn [fst] in *; [left|right|congruence]; eauto. Qed.
Lemma string_cases s : (exists v rest, b_read_string s = (Ok v, rest) /\ s = v ++ 0 :: rest /\ ~ In 0 v) \/ (exists rest, b_read_string s = (Err, rest) /\ ~ In 0 s).
Proof. destruct (b_read_string s) as [r rest] eqn:E. apply b_read_string_spec in E as [(b & -> & H & N)|(-> & N & _)]; [left|right]; eauto. Qed.

Lemma tdata_iff b e : bytes_ok b -> tdata_parse b = Ok e <-> tdata_enc e b.
Proof.
  intro Hb. unfold tdata_parse, tdata_enc. destruct e as [fl e]. cbn [fst snd].
  assert (mask : forall x, 0 <= x < 2 ^ 64 -> (Z.land x (2 ^ 64 - 1 - 63) =? 0) = (x <? 64)).
  { intros x Hx. destruct (Z.ltb_spec x 64).
    - apply Z.eqb_eq. apply Z.bits_inj'. intros n Hn. rewrite Z.land_spec, Z.bits_0. destruct (Z.ltb_spec n 6).
      + assert (n = 0 \/ n = 1 \/ n = 2 \/ n = 3 \/ n = 4 \/ n = 5) as [->|[->|[->|[->|[->| ->]]]]] by lia; rewrite Bool.andb_false_r; reflexivity.
      + assert (Z.testbit x n = false) as ->; [|reflexivity]. destruct (Z.eq_dec x 0) as [->|]; [apply Z.bits_0|]. apply Z.bits_above_log2; [lia|]. assert (Z.log2 x < 6) by (apply Z.log2_lt_pow2; lia). lia.
    - apply Z.eqb_neq. intro E.
      assert (Z.land x (2 ^ 64 - 1 - 63) = 64 * (x / 64)) as E'.
      { replace (2 ^ 64 - 1 - 63) with (Z.shiftl (Z.ones 58) 6) by reflexivity.
        apply Z.bits_inj'. intros n Hn. rewrite Z.land_spec. replace (64 * (x / 64)) with (Z.shiftl (Z.shiftr x 6) 6) by (rewrite Z.shiftl_mul_pow2, Z.shiftr_div_pow2 by lia; change (2 ^ 6) with 64; lia).
        rewrite !Z.shiftl_spec by lia. destruct (Z.ltb_spec n 6); [rewrite !(Z.testbit_neg_r _ (n - 6)) by lia; apply Bool.andb_false_r|]. rewrite Z.shiftr_spec by lia. replace (n - 6 + 6) with n by lia.
        destruct (Z.ltb_spec n 64); [rewrite Z.ones_spec_low by lia; apply Bool.andb_true_r|]. rewrite Z.ones_spec_high by lia. rewrite Bool.andb_false_r. symmetry.
        apply Z.bits_above_log2; [lia|]. assert (Z.log2 x < 64) by (apply Z.log2_lt_pow2; lia). lia. }
      rewrite E' in E. assert (1 <= x / 64) by (apply Z.div_le_lower_bound; lia). lia. }
  assert (bit3 : forall x, (Z.land x 8 =? 8) = Z.testbit x 3).
  { intro x. change 8 with (Z.shiftl 1 3). pose proof (land_bit x 3) as L. destruct (Z.testbit x 3) eqn:T.
    - apply Z.eqb_eq. apply Z.bits_inj'. intros n Hn. rewrite Z.land_spec. destruct (Z.eq_dec n 3) as [->|Hn3]; [rewrite T; reflexivity|]. replace (Z.testbit (Z.shiftl 1 3) n) with false; [apply Bool.andb_false_r|]. change (Z.shiftl 1 3) with (2 ^ 3). symmetry. apply Z.pow2_bits_false. lia.
    - cbn [negb] in L. apply Z.eqb_eq in L; [|lia]. rewrite L. reflexivity. }
  assert (bit4 : forall x, (Z.land x 16 =? 16) = Z.testbit x 4).
  { intro x. change 16 with (Z.shiftl 1 4). pose proof (land_bit x 4) as L. destruct (Z.testbit x 4) eqn:T.
    - apply Z.eqb_eq. apply Z.bits_inj'. intros n Hn. rewrite Z.land_spec. destruct (Z.eq_dec n 4) as [->|Hn3]; [rewrite T; reflexivity|]. replace (Z.testbit (Z.shiftl 1 4) n) with false; [apply Bool.andb_false_r|]. change (Z.shiftl 1 4) with (2 ^ 4). symmetry. apply Z.pow2_bits_false. lia.
    - cbn [negb] in L. apply Z.eqb_eq in L; [|lia]. rewrite L. reflexivity. }
  split.
  - destruct (uleb_cases b Hb) as [(v & r & E)|(r & E)]; rewrite E; cbn [bs fst]; [|discriminate]. apply uleb_iff in E as (x & -> & U); [|exact Hb].
    pose proof (proj2 (proj2 U)) as Uv. pose proof (uleb_denotes_nonneg _ _ (proj1 U)) as Nv. rewrite mask by lia. apply bytes_ok_app in Hb as [_ Hr].
    destruct (Z.ltb_spec v 64); cbn [negb]; [|discriminate]. rewrite bit3, bit4. destruct (Z.testbit v 3) eqn:T3.
    + destruct (uleb_cases r Hr) as [(o & r2 & E)|(r2 & E)]; rewrite E; cbn [bs fst]; [|discriminate]. apply uleb_iff in E as (y & -> & U2); [|exact Hr].
      destruct (string_cases r2) as [(n & r3 & E & -> & N)|(r3 & E & _)]; rewrite E; cbn [bs fst]; [|discriminate].
      intros [= <- <-]. exists x, (y ++ n ++ 0 :: r3). split; [reflexivity|]. split; [exact U|]. split; [lia|]. split; [exact T3|]. exists y, r3. auto.
    + destruct (Z.testbit v 4) eqn:T4.
      * destruct (uleb_cases r Hr) as [(o & r2 & E)|(r2 & E)]; rewrite E; cbn [bs fst]; [|discriminate]. apply uleb_iff in E as (y & -> & U2); [|exact Hr]. apply bytes_ok_app in Hr as [_ Hr].
        destruct (uleb_cases r2 Hr) as [(o2 & r3 & E)|(r3 & E)]; rewrite E; cbn [bs fst]; [|discriminate]. apply uleb_iff in E as (z & -> & U3); [|exact Hr].
        intros [= <- <-]. exists x, (y ++ z ++ r3). split; [reflexivity|]. split; [exact U|]. split; [lia|]. split; [exact T3|]. split; [exact T4|]. exists y, z, r3. auto.
      * destruct (uleb_cases r Hr) as [(o & r2 & E)|(r2 & E)]; rewrite E; cbn [bs fst]; [|discriminate]. apply uleb_iff in E as (y & -> & U2); [|exact Hr].
        intros [= <- <-]. exists x, (y ++ r2). split; [reflexivity|]. split; [exact U|]. split; [lia|]. split; [exact T3|]. split; [exact T4|]. exists y, r2. auto.
  - intros (x & rest & -> & U & F & M). pose proof (proj2 (proj2 U)) as Uv. pose proof (uleb_denotes_nonneg _ _ (proj1 U)) as Nv.
    rewrite (uleb_app x fl rest Hb U). cbn [bs]. rewrite mask by lia. destruct (Z.ltb_spec fl 64); [|lia]. cbn [negb]. rewrite bit3, bit4. apply bytes_ok_app in Hb as [_ Hr].
    destruct e as [a|o n|a c].
    + destruct M as (-> & -> & y & tl & -> & U2). rewrite (uleb_app y a tl Hr U2). reflexivity.
    + destruct M as (-> & y & tl & -> & U2 & N). rewrite (uleb_app y o _ Hr U2). cbn [bs]. rewrite b_read_string_app by exact N. reflexivity.
    + destruct M as (-> & -> & y & z & tl & -> & U2 & U3). rewrite (uleb_app y a _ Hr U2). cbn [bs]. apply bytes_ok_app in Hr as [_ Hr]. rewrite (uleb_app z c tl Hr U3). reflexivity.
Qed.
Lemma tdata_np b : bytes_ok b -> tdata_parse b <> Panic.
Proof.
  intro Hb. unfold tdata_parse. destruct (uleb_cases b Hb) as [(v & r & E)|(r & E)]; rewrite E; cbn [bs fst]; [|discriminate]. apply uleb_iff in E as (x & -> & U); [|exact Hb]. apply bytes_ok_app in Hb as [_ Hr].
  destruct (negb _); [discriminate|]. destruct (_ =? 8).
  - destruct (uleb_cases r Hr) as [(o & r2 & E)|(r2 & E)]; rewrite E; cbn [bs fst]; [|discriminate]. destruct (string_cases r2) as [(n & r3 & E' & _)|(r3 & E' & _)]; rewrite E'; discriminate.
  - destruct (_ =? 16).
    + destruct (uleb_cases r Hr) as [(o & r2 & E)|(r2 & E)]; rewrite E; cbn [bs fst]; [|discriminate]. apply uleb_iff in E as (y & -> & U2); [|exact Hr]. apply bytes_ok_app in Hr as [_ Hr].
      destruct (uleb_cases r2 Hr) as [(o2 & r3 & E)|(r3 & E)]; rewrite E; discriminate.
    + destruct (uleb_cases r Hr) as [(o & r2 & E)|(r2 & E)]; rewrite E; discriminate.
Qed.
Section trie.
Context (D : bytes) (HD : bytes_ok D) (HL : zlen D < 2 ^ 63).
Lemma node_iff off e n d : 0 <= off -> node_parse D off = Ok (e, n, d) <-> node_head D off e n d.
Proof.
  intro Ho. unfold node_parse, node_head. split.
  - unfold get_from. destruct ((0 <=? off) && (off <=? zlen D)) eqn:B; [|discriminate].
    assert (HX : bytes_ok (zdrop off D)) by (apply bytes_ok_zdrop; exact HD). pose proof (ztake_zdrop off D) as ED. assert (LP : zlen (ztake off D) = off) by (rewrite zlen_ztake by lia; reflexivity).
    remember (zdrop off D) as X eqn:EX. remember (ztake off D) as pre eqn:Epre. clear EX Epre.
    destruct (uleb_cases X HX) as [(sz & r & E)|(r & E)]; rewrite E; cbn [bs fst]; [|discriminate]. apply uleb_iff in E as (x & EX & U); [|exact HX]. assert (Hr : bytes_ok r) by (rewrite EX in HX; apply bytes_ok_app in HX as [_ HX]; exact HX).
    assert (R : forall (Y : bytes) (p : bytes) e', r = p ++ Y -> zlen p = sz -> match e' with None => p = [] | Some e => p <> [] /\ tdata_enc e p end ->
      fst (do c, d <- b_read Y 1 ;; (Ok (e', read_u Little c, d), d)) = Ok (e, n, d) ->
      exists pre x p, D = pre ++ x ++ p ++ n :: d /\ zlen pre = off /\ uleb_bytes x (zlen p) /\ match e with None => p = [] | Some e => p <> [] /\ tdata_enc e p end).
    { intros Y p e' Er Lp M E. destruct (b_read Y 1) as [r' Y'] eqn:E1. apply b_read_spec in E1 as [(c & -> & _ & Lc & E1)|(-> & _)]; [|discriminate]. cbn [bs fst] in E. injection E as <- <- <-.
      destruct c as [|c0 [|? ?]]; try (rewrite ?zlen_cons in Lc; pose proof (zlen_nonneg l); lia); [discriminate|]. exists pre, x, p. subst Y. split; [|split; [exact LP|split; [rewrite Lp; exact U|exact M]]].
      rewrite <- ED, EX, Er. cbn [app]. assert (read_u Little [c0] = c0) as -> by (rewrite read_u_1; reflexivity). reflexivity. }
    destruct (Z.eqb_spec sz 0) as [->|Hz]; [exact (R r [] None eq_refl eq_refl eq_refl)|].
    destruct (b_read_bytes r sz) as [r' Y] eqn:E1. apply b_read_bytes_spec in E1 as [(p & -> & _ & Lp & E1)|(-> & _)]; [|discriminate]. cbn [bs].
    assert (Hp : bytes_ok p) by (rewrite E1 in Hr; apply bytes_ok_app in Hr as [Hr _]; exact Hr).
    destruct (tdata_parse p) as [e'| |] eqn:Et; try discriminate. apply tdata_iff in Et; [|exact Hp]. apply (R Y p (Some e') E1 Lp). split; [intros ->; change (zlen (@nil Z)) with 0 in Lp; lia|exact Et].
  - intros (pre & x & p & E & LP & U & M). unfold get_from. rewrite E, zlen_app. match goal with |- context [zlen pre + zlen ?t] => pose proof (zlen_nonneg t) end. destruct ((0 <=? off) && _) eqn:B; [|lia]. rewrite zdrop_app_eq by lia.
    rewrite E in HD. apply bytes_ok_app in HD as [_ H1]. rewrite (uleb_app x _ _ H1 U). cbn [bs]. apply bytes_ok_app in H1 as [_ H1].
    assert (R : b_read (n :: d) 1 = (Ok [n], d)) by (change (n :: d) with ([n] ++ d); apply b_read_app; reflexivity).
    destruct e as [e|].
    + destruct M as [Np M]. destruct (Z.eqb_spec (zlen p) 0) as [Z0|_]; [apply zlen_0_nil in Z0; contradiction|]. rewrite b_read_bytes_app by reflexivity. cbn [bs]. apply bytes_ok_app in H1 as [H1 _].
      apply tdata_iff in M; [|exact H1]. rewrite M, R. cbn [bs fst]. rewrite read_u_1. reflexivity.
    + subst p. change (zlen (@nil Z) =? 0) with true. cbn [app]. rewrite R. cbn [bs fst]. rewrite read_u_1. reflexivity.
Qed.
Lemma node_np off : node_parse D off <> Panic.
Proof.
  unfold node_parse, get_from. destruct ((0 <=? off) && (off <=? zlen D)) eqn:B; [|discriminate]. assert (HX : bytes_ok (zdrop off D)) by (apply bytes_ok_zdrop; exact HD). remember (zdrop off D) as X. clear HeqX.
  destruct (uleb_cases X HX) as [(sz & r & E)|(r & E)]; rewrite E; cbn [bs fst]; [|discriminate]. apply uleb_iff in E as (x & EX & U); [|exact HX]. assert (Hr : bytes_ok r) by (rewrite EX in HX; apply bytes_ok_app in HX as [_ HX]; exact HX).
  destruct (sz =? 0). { destruct (b_read r 1) as [r' Y'] eqn:E1. apply b_read_spec in E1 as [(c & -> & _)|(-> & _)]; discriminate. }
  destruct (b_read_bytes r sz) as [r' Y] eqn:E1. apply b_read_bytes_spec in E1 as [(p & -> & _ & Lp & E1)|(-> & _)]; [|discriminate]. cbn [bs].
  assert (Hp : bytes_ok p) by (rewrite E1 in Hr; apply bytes_ok_app in Hr as [Hr _]; exact Hr). pose proof (tdata_np p Hp).
  destruct (tdata_parse p); [|discriminate|congruence]. destruct (b_read Y 1) as [r' Y'] eqn:E2. apply b_read_spec in E2 as [(c & -> & _)|(-> & _)]; discriminate.
Qed.
Lemma head_bound off e n d : node_head D off e n d -> 0 <= off < zlen D /\ 0 <= n < 256 /\ bytes_ok d.
Proof.
  intros (pre & x & p & E & LP & U & _). rewrite E in HD |- *. rewrite !zlen_app, zlen_cons. pose proof (zlen_nonneg pre). pose proof (zlen_nonneg x). pose proof (zlen_nonneg p). pose proof (zlen_nonneg d). split; [lia|].
  apply bytes_ok_app in HD as [_ H3]. apply bytes_ok_app in H3 as [_ H3]. apply bytes_ok_app in H3 as [_ H3]. inversion H3 as [|? ? Hn Hd]; subst. unfold byte_ok in Hn. split; [lia|exact Hd].
Qed.
Lemma head_unique off e n d e' n' d' : node_head D off e n d -> node_head D off e' n' d' -> e = e' /\ n = n' /\ d = d'.
Proof. intros H1 H2. pose proof (head_bound _ _ _ _ H1) as [B _]. apply node_iff in H1, H2; try lia. rewrite H1 in H2. injection H2 as <- <- <-. auto. Qed.

(** * Edges *)
Definition edge (d s : bytes) (o : Z) (d' : bytes) : Prop := ~ In 0 s /\ exists x, uleb_bytes x o /\ d = s ++ 0 :: x ++ d'.
Lemma edge_unique d s o d1 s' o' d1' : edge d s o d1 -> edge d s' o' d1' -> s = s' /\ o = o' /\ d1 = d1'.
Proof.
  intros (N & x & U & E) (N' & x' & U' & E'). rewrite E in E'.
  pose proof (b_read_string_app s (x ++ d1) N) as B. rewrite E', (b_read_string_app s' (x' ++ d1') N') in B. injection B as -> B. split; [reflexivity|].
  destruct (uleb_denotes_prefix_unique _ _ _ _ _ _ (proj1 U) (proj1 U') (eq_sym B)) as (_ & -> & ->). auto.
Qed.
(** offset of one of the first [n] edges *)
Inductive edge_at : bytes -> Z -> Z -> Prop :=
| ea_here d n s o d' : 0 < n -> edge d s o d' -> edge_at d n o
| ea_later d n s o' d' o : 0 < n -> edge d s o' d' -> edge_at d' (n - 1) o -> edge_at d n o.
Definition child_of (off o : Z) : Prop := exists e n d, node_head D off e n d /\ edge_at d n o.
Fixpoint tsize (t : trie) : nat := let 'Node _ ch := t in S ((fix go l := match l with [] => O | (_, t) :: l => (tsize t + go l)%nat end) ch).
Definition csize (l : list (bytes * trie)) : nat := (fix go l := match l with [] => O | (_, t) :: l => (tsize t + go l)%nat end) l.
Lemma edges_at d ch : edges D d ch -> forall o, edge_at d (zlen ch) o -> exists t, encodes D o t /\ (tsize t <= csize ch)%nat.
Proof.
  induction 1 as [d|s x o t ch d N U Ht Hd IH]; intros o1 Ho.
  - change (zlen (@nil (bytes * trie))) with 0 in Ho. inversion Ho; lia.
  - assert (E : edge (s ++ 0 :: x ++ d) s o d) by (split; [exact N|]; exists x; auto). rewrite zlen_cons in Ho. cbn [csize].
    inversion Ho as [? ? s' ? d' _ E'|? ? s' o' d' ? _ E' Hl]; subst; destruct (edge_unique _ _ _ _ _ _ _ E E') as (-> & -> & ->).
    + exists t. split; [exact Ht|lia].
    + replace (1 + zlen ch - 1) with (zlen ch) in Hl by lia. destruct (IH _ Hl) as (t' & Ht' & Hs). exists t'. split; [exact Ht'|]. unfold csize in Hs. lia.
Qed.
Lemma child_smaller off o t : child_of off o -> encodes D off t -> exists t', encodes D o t' /\ (tsize t' < tsize t)%nat.
Proof.
  intros (e & n & d & Hh & He) Ht. inversion Ht as [? e' ch d' Hh' Hc]; subst. destruct (head_unique _ _ _ _ _ _ _ Hh Hh') as (-> & -> & ->).
  destruct (edges_at _ _ Hc _ He) as (t' & Ht' & Hs). exists t'. split; [exact Ht'|]. cbn [tsize]. unfold csize in Hs. lia.
Qed.
(** a way from [a] to [b] *)
Inductive way : Z -> Z -> Prop := way_1 a b : child_of a b -> way a b | way_n a b c : child_of a b -> way b c -> way a c.
Lemma way_last a b c : way a b -> child_of b c -> way a c.
Proof. induction 1; intro H'; [eapply way_n; [eassumption|apply way_1; exact H']|eapply way_n; [eassumption|auto]]. Qed.
Lemma way_smaller a b t : way a b -> encodes D a t -> exists t', encodes D b t' /\ (tsize t' < tsize t)%nat.
Proof.
  intro H. revert t. induction H as [a b H|a b c H _ IH]; intros t Ht; [exact (child_smaller _ _ _ H Ht)|].
  destruct (child_smaller _ _ _ H Ht) as (t1 & H1 & S1). destruct (IH _ H1) as (t2 & H2 & S2). exists t2. split; [exact H2|lia].
Qed.
Lemma no_cycle a t : way a a -> encodes D a t -> False.
Proof.
  intros W. remember (tsize t) as n eqn:En. revert t En. induction n as [n IH] using (well_founded_induction Nat.lt_wf_0). intros t En Ht.
  destruct (way_smaller _ _ _ W Ht) as (t' & Ht' & S'). eapply IH; [|reflexivity|exact Ht']. lia.
Qed.
End trie.
