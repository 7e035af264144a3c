(** Proofs about the object builder. *)
From Verif Require Import Core_proofs Str_proofs Util_proofs Buf_proofs Kind_proofs File_proofs Elf_proofs.
From Verif Require Export Obj_spec.

(** * Alignment *)
Lemma pow2_pos al : pow2 al -> 1 <= al.
Proof. intros (k & Hk & ->). pose proof (Z.pow_pos_nonneg 2 k ltac:(lia) ltac:(lia)). lia. Qed.
Lemma pow2_land al n : pow2 al -> Z.land n (al - 1) = n mod al.
Proof. intros (k & Hk & ->). rewrite <- Z.sub_1_r || idtac. replace (2 ^ k - 1) with (Z.ones k) by (rewrite Z.ones_equiv; lia). apply Z.land_ones. lia. Qed.
Lemma align_bad_spec al : 0 <= al < 2 ^ 64 -> (align_bad al = false <-> pow2 al).
Proof.
  intros Hal. unfold align_bad. split.
  - intros H. apply orb_false_iff in H as [H1 H2]. apply negb_false_iff, Z.eqb_eq in H2. apply Z.ltb_ge in H1.
    exists (Z.log2 al). pose proof (Z.log2_spec al ltac:(lia)) as Hl. pose proof (Z.log2_nonneg al).
    assert (Z.log2 al < 64) by (apply Z.log2_lt_pow2; lia). split; [lia|].
    destruct (Z.eq_dec al (2 ^ Z.log2 al)) as [E|E]; [exact E|]. exfalso.
    assert (Z.testbit (Z.land al (al - 1)) (Z.log2 al) = true) as T.
    { rewrite Z.land_spec, Z.bit_log2 by lia. cbn [andb]. 
      assert (Z.log2 (al - 1) = Z.log2 al) as <- by (apply Z.log2_unique; [lia|lia]). apply Z.bit_log2.
      assert (1 <= 2 ^ Z.log2 al) by (apply Z.lt_pred_le, Z.pow_pos_nonneg; lia). lia. }
    rewrite H2, Z.bits_0 in T. discriminate.
  - intros Hp. pose proof (pow2_pos _ Hp). rewrite pow2_land by assumption. rewrite Z.mod_same by lia.
    destruct (Z.ltb_spec al 1); [lia|reflexivity].
Qed.
Lemma align_step al n : pow2 al -> 0 <= n ->
  aligned_after n al (if Z.land n (al - 1) =? 0 then n else n + (al - Z.land n (al - 1))).
Proof.
  intros Hp Hn. pose proof (pow2_pos _ Hp). rewrite pow2_land by assumption. pose proof (Z.mod_pos_bound n al ltac:(lia)).
  unfold aligned_after. destruct (Z.eqb_spec (n mod al) 0) as [E|E].
  - split; [lia|]. apply Z.mod_divide; lia.
  - split; [lia|]. exists (n / al + 1). pose proof (Z.div_mod n al ltac:(lia)). lia.
Qed.
Lemma aligned_unique al n o1 o2 : 0 < al -> aligned_after n al o1 -> aligned_after n al o2 -> o1 = o2.
Proof. intros Hal [H1 (a & ->)] [H2 (b & ->)]. assert (a = b) by nia. congruence. Qed.

(** * Sections *)
Lemma sec_append_spec s d al : 0 <= al < 2 ^ 64 ->
  match sec_append_data s d al with
  | (Ok off, s') => pow2 al /\ is_bss (se_kind s) = false /\ aligned_after (zlen (se_data s)) al off /\
      s' = sec_with s (zlen (se_data s')) (Z.max (se_align s) al) (se_data s') /\
      se_data s' = se_data s ++ zeros (off - zlen (se_data s)) ++ d /\ zlen (se_data s') = off + zlen d /\ zlen (se_data s') < 2 ^ 63
  | (Err, _) => False
  | (Panic, _) => is_bss (se_kind s) = true \/ ~ pow2 al \/ exists off, aligned_after (zlen (se_data s)) al off /\ 2 ^ 63 <= off + zlen d
  end.
Proof.
  intros Hal. unfold sec_append_data. destruct (is_bss (se_kind s)) eqn:B; cbn [orb]; [tauto|].
  destruct (align_bad al) eqn:A. { right. left. intros Hp. apply (proj2 (align_bad_spec al Hal)) in Hp. congruence. }
  apply (proj1 (align_bad_spec al Hal)) in A. pose proof (align_step al (zlen (se_data s)) A (zlen_nonneg _)) as Hs.
  cbv zeta. set (off := if _ =? 0 then _ else _) in *. clearbody off.
  destruct (Z.ltb_spec (off + zlen d) (2 ^ 63)) as [E|E].
  - split; [exact A|]. split; [reflexivity|]. split; [exact Hs|]. cbn [sec_with se_data]. 
    assert (zlen (zeros (off - zlen (se_data s))) = off - zlen (se_data s)) as Hz by (apply zlen_zeros; unfold aligned_after in Hs; lia).
    assert ((if se_align s <? al then al else se_align s) = Z.max (se_align s) al) as -> by (destruct (Z.ltb_spec (se_align s) al); lia).
    split; [reflexivity|]. split; [reflexivity|]. rewrite !zlen_app, Hz. lia.
  - right. right. exists off. split; [exact Hs|lia].
Qed.
Lemma sec_append_bss_spec s n al : 0 <= al < 2 ^ 64 -> 0 <= se_size s -> 0 <= n ->
  match sec_append_bss s n al with
  | (Ok off, s') => pow2 al /\ is_bss (se_kind s) = true /\ aligned_after (se_size s) al off /\
      s' = sec_with s (off + n) (Z.max (se_align s) al) (se_data s) /\ off + n < 2 ^ 64
  | (Err, _) => False
  | (Panic, _) => is_bss (se_kind s) = false \/ ~ pow2 al \/ exists off, aligned_after (se_size s) al off /\ 2 ^ 64 <= off + n
  end.
Proof.
  intros Hal Hsz Hn. unfold sec_append_bss. destruct (is_bss (se_kind s)) eqn:B; cbn [orb negb]; [|tauto].
  destruct (align_bad al) eqn:A. { right. left. intros Hp. apply (proj2 (align_bad_spec al Hal)) in Hp. congruence. }
  apply (proj1 (align_bad_spec al Hal)) in A. pose proof (align_step al (se_size s) A ltac:(lia)) as Hs.
  cbv zeta. set (al' := if _ <? _ then _ else _). assert (al' = Z.max (se_align s) al) as Hal' by (unfold al'; destruct (Z.ltb_spec (se_align s) al); lia). clearbody al'. subst al'.
  assert (forall off, aligned_after (se_size s) al off ->
    match match padd 64 off n with Ok size' => (Ok off, sec_with s size' (Z.max (se_align s) al) (se_data s)) | _ => (Panic, s) end with
    | (Ok off, s') => pow2 al /\ true = true /\ aligned_after (se_size s) al off /\
        s' = sec_with s (off + n) (Z.max (se_align s) al) (se_data s) /\ off + n < 2 ^ 64
    | (Err, _) => False
    | (Panic, _) => true = false \/ ~ pow2 al \/ exists off, aligned_after (se_size s) al off /\ 2 ^ 64 <= off + n
    end) as G.
  { intros off Ho. unfold padd. destruct (Z.ltb_spec (off + n) (2 ^ 64)).
    - split; [exact A|]. split; [reflexivity|]. split; [exact Ho|]. split; [reflexivity|lia].
    - right. right. exists off. split; [exact Ho|lia]. }
  destruct (Z.land (se_size s) (al - 1) =? 0); [apply G; exact Hs|].
  unfold padd at 1. destruct (Z.ltb_spec (se_size s + (al - Z.land (se_size s) (al - 1))) (2 ^ 64)); [apply G; exact Hs|].
  right. right. exists (se_size s + (al - Z.land (se_size s) (al - 1))). split; [exact Hs|lia].
Qed.

(** * Coherence is kept, and nothing is lost *)
Definition sec_wf (s : osec) : Prop := 0 <= se_size s /\ if is_bss (se_kind s) then se_data s = [] else se_size s = zlen (se_data s).
Lemma prefix_refl {A} (l : list A) : prefix_of l l.
Proof. exists []. now rewrite app_nil_r. Qed.
Lemma prefix_trans {A} (a b c : list A) : prefix_of a b -> prefix_of b c -> prefix_of a c.
Proof. intros (x & ->) (y & ->). exists (x ++ y). now rewrite app_assoc. Qed.
Lemma no_relocs (l : list orel) (d d' : bytes) : (forall i, 0 <= i < zlen d -> zget d' i = zget d i) ->
  exists new, l = l ++ new /\ forall i, 0 <= i < zlen d -> zget d' i = zget d i \/ exists r, In r new /\ ol_offset r <= i < ol_offset r + 8.
Proof. intros H. exists []. rewrite app_nil_r. auto. Qed.
Lemma sec_grows_refl s : sec_grows s s.
Proof. constructor; auto using no_relocs; lia. Qed.
Lemma sym_grows_refl y : sym_grows y y.
Proof. constructor; auto. Qed.
Lemma sec_grows_trans a b c : sec_grows a b -> sec_grows b c -> sec_grows a c.
Proof.
  intros [a1 a2 a3 a4 a5 a6 a7 a8] [b1 b2 b3 b4 b5 b6 b7 b8]. constructor; try congruence; eauto; try lia.
  - destruct a4 as [a4|a4]; [|auto]. destruct b4 as [b4|b4]; [left; lia|].
    right. rewrite b4 in a5. change (zlen (@nil Z)) with 0 in a5. apply zlen_0_nil. pose proof (zlen_nonneg (se_data a)). lia.
  - destruct a7 as (n1 & E1 & H1). destruct b7 as (n2 & E2 & H2). exists (n1 ++ n2). split; [rewrite E2, E1, app_assoc; reflexivity|].
    intros i Hi. destruct (H2 i ltac:(lia)) as [->|(r & Hr & Ho)]; [|right; exists r; split; [apply in_or_app; auto|exact Ho]].
    destruct (H1 i Hi) as [->|(r & Hr & Ho)]; [auto|right; exists r; split; [apply in_or_app; auto|exact Ho]].
Qed.
Lemma sym_grows_trans a b c : sym_grows a b -> sym_grows b c -> sym_grows a c.
Proof. intros [] []. constructor; congruence. Qed.
Lemma grows_refl o : grows o o.
Proof. constructor; auto using prefix_refl; try (intros; eauto using sec_grows_refl, sym_grows_refl); try (eexists; split; [eassumption|lia]). Qed.
Lemma grows_trans a b c : grows a b -> grows b c -> grows a c.
Proof.
  intros [a1 a2 a3 a4 a5 a6 a7 a8 a9 a11 a10] [b1 b2 b3 b4 b5 b6 b7 b8 b9 b11 b10]. constructor; try congruence; eauto using prefix_trans.
  - intros id s H. apply a5 in H as (s1 & H1 & G1). apply b5 in H1 as (s2 & H2 & G2). eauto using sec_grows_trans.
  - intros id s H. apply a6 in H as (s1 & H1 & G1). apply b6 in H1 as (s2 & H2 & G2). eauto using sym_grows_trans.
  - intros n id H. apply a10 in H as (i1 & H1 & L1). apply b10 in H1 as (i2 & H2 & L2). exists i2. split; [exact H2|lia].
Qed.
Definition keeps (o o' : obj) : Prop := coherent o -> coherent o' /\ grows o o'.
Lemma keeps_refl o : keeps o o.
Proof. intros H. split; [exact H|apply grows_refl]. Qed.
Lemma keeps_trans a b c : keeps a b -> (coherent b -> grows a b -> keeps b c) -> keeps a c.
Proof. intros H1 H2 Ha. destruct (H1 Ha) as [Hb G]. destruct (H2 Hb G Hb) as [Hc G2]. split; [exact Hc|eauto using grows_trans]. Qed.

(** changes in place *)
Definition sec_ok (s s' : osec) : Prop := sec_grows s s' /\ se_symbol s' = se_symbol s /\ (sec_wf s -> sec_wf s').
Definition sym_ok (y y' : osym) : Prop := sym_grows y y' /\ (sy_kind y = YSection -> sy_section y' = sy_section y).
Definition pointwise {A} (R : A -> A -> Prop) (l l' : list A) : Prop := zlen l' = zlen l /\ forall i x, zget l i = Some x -> exists x', zget l' i = Some x' /\ R x x'.
Lemma pointwise_refl {A} (R : A -> A -> Prop) l : (forall x, R x x) -> pointwise R l l.
Proof. intros HR. split; [reflexivity|]. intros i x H. eauto. Qed.
Lemma pointwise_zset {A} (R : A -> A -> Prop) l i x x' : (forall x, R x x) -> zget l i = Some x -> R x x' -> pointwise R l (zset l i x').
Proof.
  intros HR Hi Hx. pose proof (zget_Some_lt _ _ _ Hi) as B. split; [apply zlen_zset; lia|]. intros j z Hj.
  rewrite zget_zset by lia. destruct (Z.eqb_spec j i) as [->|]; [|eauto]. rewrite Hi in Hj. injection Hj as <-. eauto.
Qed.
Lemma pointwise_back {A} (R : A -> A -> Prop) l l' i x' : pointwise R l l' -> zget l' i = Some x' -> exists x, zget l i = Some x /\ R x x'.
Proof.
  intros [L H] Hi. pose proof (zget_Some_lt _ _ _ Hi) as B. destruct (zget_lt_Some l i ltac:(lia)) as (x & Hx).
  exists x. split; [exact Hx|]. destruct (H i x Hx) as (x2 & H2 & R2). congruence.
Qed.
Lemma sec_ok_refl s : sec_ok s s.
Proof. split; [apply sec_grows_refl|auto]. Qed.
Lemma sym_ok_refl y : sym_ok y y.
Proof. split; [apply sym_grows_refl|auto]. Qed.
Record touches (o o' : obj) : Prop := {
  to_format : o_format o' = o_format o; to_arch : o_arch o' = o_arch o; to_endian : o_endian o' = o_endian o; to_prefix : o_prefix o' = o_prefix o;
  to_std : o_std o' = o_std o; to_map : o_map o' = o_map o; to_stubs : o_stubs o' = o_stubs o; to_tlv : o_tlv o' = o_tlv o; to_comdats : prefix_of (o_comdats o) (o_comdats o');
  to_sections : pointwise sec_ok (o_sections o) (o_sections o'); to_symbols : pointwise sym_ok (o_symbols o) (o_symbols o') }.
Lemma same_place_grows s s' i : sec_grows s s' -> (same_place s' i <-> same_place s i).
Proof. intros G. destruct i as [[[sg nm] kd] fl]. unfold same_place. now rewrite (sg_segment _ _ G), (sg_name _ _ G), (sg_kind _ _ G). Qed.
Lemma touches_keeps o o' : touches o o' -> keeps o o'.
Proof.
  intros [Tf Ta Te Tp Ts Tm Tst Tt Tc TS TY] [Hsz Hsy Hstd Hmap Hstub Htlv]. split.
  - constructor.
    + intros id s H. destruct (pointwise_back _ _ _ _ _ TS H) as (s0 & H0 & (_ & _ & W)). apply W. exact (Hsz _ _ H0).
    + intros id y. split.
      * intros (s & H & E). destruct (pointwise_back _ _ _ _ _ TS H) as (s0 & H0 & (_ & E0 & _)). rewrite E0 in E.
        destruct (proj1 (Hsy id y)) as (sy & Hy & K & S); [eauto|].
        destruct TY as [_ TY]. destruct (TY _ _ Hy) as (sy' & Hy' & [G Se]). exists sy'. split; [exact Hy'|].
        rewrite (yg_kind _ _ G), (Se K). auto.
      * intros (sy & Hy & K & S). destruct (pointwise_back _ _ _ _ _ TY Hy) as (sy0 & Hy0 & [G Se]).
        rewrite (yg_kind _ _ G) in K. rewrite (Se K) in S.
        destruct (proj2 (Hsy id y)) as (s & H & E); [exists sy0; auto|].
        destruct TS as [_ TS]. destruct (TS _ _ H) as (s' & H' & (_ & E' & _)). exists s'. split; [exact H'|congruence].
    + intros st id. rewrite Ts, Hstd. unfold first_std. rewrite Tf, Ta. split.
      * intros [(s & H & Sp) Hf]. split.
        -- destruct TS as [_ TS]. destruct (TS _ _ H) as (s' & H' & (G & _)). exists s'. split; [exact H'|]. now apply (same_place_grows _ _ _ G).
        -- intros j s' Hj H'. destruct (pointwise_back _ _ _ _ _ TS H') as (s0 & H0 & (G & _)). rewrite (same_place_grows _ _ _ G). eauto.
      * intros [(s' & H' & Sp) Hf]. split.
        -- destruct (pointwise_back _ _ _ _ _ TS H') as (s0 & H0 & (G & _)). exists s0. split; [exact H0|]. now apply (same_place_grows _ _ _ G).
        -- intros j s Hj H. destruct TS as [_ TS]. destruct (TS _ _ H) as (s2 & H2 & (G & _)). rewrite <- (same_place_grows _ _ _ G). eauto.
    + intros n id H. rewrite Tm in H. destruct (Hmap n id H) as (Hn & y & Hy & L & N). split; [exact Hn|].
      destruct TY as [_ TY]. destruct (TY _ _ Hy) as (y' & Hy' & [G _]). exists y'. unfold mangled in *. rewrite Tp, (yg_name _ _ G), (yg_kind _ _ G). auto.
    + intros y id H. rewrite Tst in H. destruct (Hstub y id H) as (sy & st & sec & s & r & H1 & H2 & H3 & H4 & H5 & H6 & H7).
      destruct TY as [_ TY]. destruct TS as [_ TS]. destruct (TY _ _ H1) as (sy' & H1' & [G1 _]). destruct (TY _ _ H2) as (st' & H2' & [G2 _]).
      destruct (TS _ _ H4) as (s' & H4' & (G4 & _)). exists sy', st', sec, s', r. rewrite (yg_name _ _ G1), (yg_name _ _ G2).
      destruct (sg_relocs _ _ G4) as (t & Et & _). rewrite Et. repeat split; auto. apply in_or_app; auto.
    + intros id H. rewrite Tt in H. destruct (Htlv id H) as (y & Hy & K & N). destruct TY as [_ TY]. destruct (TY _ _ Hy) as (y' & Hy' & [G _]).
      exists y'. unfold mangled in *. rewrite Tp, (yg_name _ _ G), (yg_kind _ _ G). auto.
  - constructor; auto.
    + intros id s H. destruct TS as [_ TS]. destruct (TS _ _ H) as (s' & H' & (G & _)). eauto.
    + intros id s H. destruct TY as [_ TY]. destruct (TY _ _ H) as (s' & H' & (G & _)). eauto.
    + intros; congruence.
    + intros; congruence.
    + intros; congruence.
    + intros n id H. exists id. split; [congruence|lia].
Qed.
Lemma on_section_touches {A} o id (f : osec -> out A * osec) r o' :
  on_section o id f = (r, o') -> r <> Panic -> (forall s r s', zget (o_sections o) id = Some s -> f s = (r, s') -> r <> Panic -> sec_ok s s') -> touches o o'.
Proof.
  unfold on_section. destruct (zget (o_sections o) id) as [s|] eqn:Hs; [|intros [= <- <-]; congruence].
  destruct (f s) as [r0 s0] eqn:Ef. intros [= <- <-] Hr Hf. specialize (Hf s r0 s0 eq_refl Ef Hr).
  constructor; try reflexivity; cbn; [apply prefix_refl| |apply pointwise_refl; exact sym_ok_refl].
  eapply pointwise_zset; eauto using sec_ok_refl.
Qed.

(** ** the sections' own methods *)
Lemma set_data_ok s d al r s' : sec_wf s -> sec_set_data s d al = (r, s') -> r <> Panic -> sec_ok s s'.
Proof.
  unfold sec_set_data. intros Hw. destruct (_ || _ || _) eqn:E; [intros [= <- <-]; congruence|]. intros [= <- <-] _.
  apply orb_false_iff in E as [E1 E3]. apply orb_false_iff in E1 as [E1 E2]. apply negb_false_iff, Z.eqb_eq, zlen_0_nil in E3.
  unfold sec_wf in Hw. rewrite E1, E3 in Hw. change (zlen (@nil Z)) with 0 in Hw. pose proof (zlen_nonneg d).
  split; [|split; [reflexivity|]].
  - constructor; cbn [sec_with se_segment se_name se_kind se_align se_data se_size se_relocs se_symbol]; auto; try (rewrite E3; change (zlen (@nil Z)) with 0; lia); [lia|]. apply no_relocs. intros i Hi. rewrite E3 in Hi. change (zlen (@nil Z)) with 0 in Hi. lia.
  - intros _. unfold sec_wf. cbn [sec_with se_kind se_data se_size]. rewrite E1. split; [lia|reflexivity].
Qed.
Lemma append_ok s d al r s' : 0 <= al < 2 ^ 64 -> sec_wf s -> sec_append_data s d al = (r, s') -> r <> Panic -> sec_ok s s'.
Proof.
  intros Hal Hw H Hr. pose proof (sec_append_spec s d al Hal) as A. rewrite H in A. destruct r as [off| |]; [|tauto|congruence].
  destruct A as (_ & B & Ho & Es & Ed & El & _). unfold aligned_after in Ho. pose proof (zlen_nonneg d). unfold sec_wf in Hw. rewrite B in Hw.
  split; [|split].
  - rewrite Es. constructor; cbn [sec_with se_segment se_name se_kind se_align se_data se_size se_relocs se_symbol]; auto; try lia.
    apply no_relocs. intros i Hi. rewrite Ed. apply zget_app1. lia.
  - now rewrite Es.
  - intros _. unfold sec_wf. rewrite Es. cbn [sec_with se_kind se_data se_size]. rewrite B. split; [lia|reflexivity].
Qed.
Lemma append_bss_ok s n al r s' : 0 <= al < 2 ^ 64 -> 0 <= n -> sec_wf s -> sec_append_bss s n al = (r, s') -> r <> Panic -> sec_ok s s'.
Proof.
  intros Hal Hn Hw H Hr. pose proof (sec_append_bss_spec s n al Hal (proj1 Hw) Hn) as A. rewrite H in A. destruct r as [off| |]; [|tauto|congruence].
  destruct A as (_ & B & Ho & Es & _). unfold aligned_after in Ho. destruct Hw as [Hw1 Hw]. rewrite B in Hw.
  split; [|split].
  - rewrite Es. constructor; cbn [sec_with se_segment se_name se_kind se_align se_data se_size se_relocs se_symbol]; auto using no_relocs; lia.
  - now rewrite Es.
  - intros _. unfold sec_wf. rewrite Es. cbn [sec_with se_kind se_data se_size]. rewrite B. split; [lia|exact Hw].
Qed.
Lemma put_len (l : bytes) off n w : 0 <= off -> off <= zlen l -> zlen w = n -> 0 <= n -> n <= zlen l - off -> zlen (ztake off l ++ w ++ zdrop (off + n) l) = zlen l.
Proof. intros. rewrite !zlen_app, zlen_ztake, zlen_zdrop by lia. lia. Qed.
(** the addend goes where the relocation is, and nowhere else *)
Lemma write_addend_spec e size off ad s r s' : 0 <= off -> sec_write_addend e size off ad s = (r, s') ->
  match r with
  | Ok _ => is_bss (se_kind s) = false /\ (exists n, (size = 32 /\ n = 4 \/ size = 64 /\ n = 8) /\ off + n <= zlen (se_data s) /\
      s' = sec_with s (se_size s) (se_align s) (ztake off (se_data s) ++ write_u e (Z.to_nat n) (wrap_u (8 * n) ad) ++ zdrop (off + n) (se_data s)))
  | Err => s' = s
  | Panic => is_bss (se_kind s) = true
  end.
Proof.
  intros Ho. unfold sec_write_addend. destruct (is_bss (se_kind s)) eqn:B; [intros [= <- <-]; reflexivity|].
  destruct (Z.eqb_spec size 32) as [->|]; [|destruct (Z.eqb_spec size 64) as [->|]; [|intros [= <- <-]; reflexivity]];
    destruct (_ && _) eqn:E; intros [= <- <-]; try reflexivity; apply andb_true_iff in E as [E1 E2]; apply Z.leb_le in E1, E2; (split; [reflexivity|]).
  - exists 4. split; [auto|]. split; [lia|reflexivity].
  - exists 8. split; [auto|]. split; [lia|reflexivity].
Qed.
Lemma push_reloc_ok s r : sec_ok s (sec_push_reloc s r).
Proof.
  split; [|split; [reflexivity|auto]]. constructor; cbn; auto; try lia. exists [r]. split; [reflexivity|]. auto.
Qed.
(** the bytes before and after a write *)
Lemma zget_put (l : bytes) off n w i : 0 <= off -> zlen w = n -> off + n <= zlen l ->
  zget (ztake off l ++ w ++ zdrop (off + n) l) i = if (off <=? i) && (i <? off + n) then zget w (i - off) else zget l i.
Proof.
  intros Ho Hw Hl. pose proof (zlen_nonneg w). destruct (_ && _) eqn:E.
  - apply andb_true_iff in E as [E1 E2]. apply Z.leb_le in E1. apply Z.ltb_lt in E2.
    rewrite zget_app2 by (rewrite zlen_ztake by lia; lia). rewrite zlen_ztake by lia. apply zget_app1. lia.
  - destruct (Z_lt_dec i off) as [L|L].
    + destruct (Z_lt_dec i 0) as [L0|L0].
      * destruct (zget l i) eqn:E1; [apply zget_Some_lt in E1; lia|]. destruct (zget (_ ++ _) i) eqn:E2; [apply zget_Some_lt in E2; lia|reflexivity].
      * rewrite zget_app1 by (rewrite zlen_ztake by lia; lia). apply zget_ztake. lia.
    + apply andb_false_iff in E as [E|E]; [apply Z.leb_gt in E; lia|]. apply Z.ltb_ge in E.
      rewrite zget_app2 by (rewrite zlen_ztake by lia; lia). rewrite zlen_ztake by lia. rewrite zget_app2 by lia. rewrite zget_zdrop by lia. f_equal. lia.
Qed.
Lemma put_push_ok e n ad s r : 0 <= ol_offset r -> n = 4 \/ n = 8 -> ol_offset r + n <= zlen (se_data s) ->
  sec_ok s (sec_push_reloc (sec_with s (se_size s) (se_align s)
    (ztake (ol_offset r) (se_data s) ++ write_u e (Z.to_nat n) (wrap_u (8 * n) ad) ++ zdrop (ol_offset r + n) (se_data s))) r).
Proof.
  intros Ho Hn Hl. set (w := write_u _ _ _). assert (zlen w = n) as Hw by (unfold w; rewrite zlen_write_u; lia).
  assert (zlen (ztake (ol_offset r) (se_data s) ++ w ++ zdrop (ol_offset r + n) (se_data s)) = zlen (se_data s)) as L by (apply put_len; lia).
  split; [|split; [reflexivity|]].
  - constructor; cbn [sec_push_reloc sec_with se_segment se_name se_kind se_align se_data se_size se_relocs se_symbol]; auto; try lia.
    exists [r]. split; [reflexivity|]. intros i Hi. rewrite zget_put by lia. destruct (_ && _) eqn:E; [|auto]. right. exists r. split; [left; reflexivity|].
    apply andb_true_iff in E as [E1 E2]. apply Z.leb_le in E1. apply Z.ltb_lt in E2. lia.
  - unfold sec_wf. cbn [sec_push_reloc sec_with se_kind se_data se_size]. rewrite L.
    intros [W1 W2]. split; [exact W1|]. destruct (is_bss (se_kind s)); [|exact W2]. rewrite W2 in Hl. change (zlen (@nil Z)) with 0 in Hl. lia.
Qed.
(** lists that grow at the end *)
Lemma zget_snoc {A} (l : list A) x i : zget (l ++ [x]) i = if i =? zlen l then Some x else zget l i.
Proof.
  destruct (Z.eqb_spec i (zlen l)) as [->|]; [rewrite zget_app2 by lia; rewrite Z.sub_diag; reflexivity|].
  destruct (Z_lt_dec i (zlen l)); [|].
  - destruct (Z_lt_dec i 0); [|rewrite zget_app1 by lia; reflexivity].
    destruct (zget (l ++ [x]) i) eqn:E; [apply zget_Some_lt in E; lia|]. destruct (zget l i) eqn:E2; [apply zget_Some_lt in E2; lia|reflexivity].
  - destruct (zget (l ++ [x]) i) eqn:E; [apply zget_Some_lt in E; rewrite zlen_app, zlen_cons in E; change (zlen (@nil A)) with 0 in E; lia|].
    destruct (zget l i) eqn:E2; [apply zget_Some_lt in E2; lia|reflexivity].
Qed.
Lemma zget_snoc_old {A} (l : list A) x i y : zget l i = Some y -> zget (l ++ [x]) i = Some y.
Proof. intros H. pose proof (zget_Some_lt _ _ _ H). rewrite zget_snoc. destruct (Z.eqb_spec i (zlen l)); [lia|exact H]. Qed.
Lemma add_raw_keeps o y id o' : o_add_raw o y = (id, o') -> sy_kind y <> YSection -> keeps o o'.
Proof.
  intros [= <- <-] K [Hsz Hsy Hstd Hmap Hstub Htlv]. split.
  - constructor; cbn [with_symbols o_sections o_symbols o_std o_map o_stubs o_format o_arch].
    + exact Hsz.
    + intros id y0. rewrite Hsy. unfold is_section_symbol. cbn [with_symbols o_symbols]. split.
      * intros (sy & H & K2 & S). exists sy. eauto using zget_snoc_old.
      * intros (sy & H & K2 & S). rewrite zget_snoc in H. destruct (y0 =? zlen (o_symbols o)); [congruence|]. exists sy. auto.
    + exact Hstd.
    + intros n id H. destruct (Hmap n id H) as (Hn & y1 & H1 & L). split; [exact Hn|]. exists y1. split; [now apply zget_snoc_old|exact L].
    + intros y0 id H. destruct (Hstub y0 id H) as (sy & st & sec & s & r & H1 & H2 & H3). exists sy, st, sec, s, r. repeat split; try tauto; now apply zget_snoc_old.
    + intros i H. destruct (Htlv i H) as (y1 & H1 & L). exists y1. split; [now apply zget_snoc_old|exact L].
  - constructor; cbn [with_symbols o_sections o_symbols o_std o_map o_stubs o_format o_arch o_endian o_prefix o_comdats]; auto using prefix_refl; intros; eauto using sec_grows_refl.
    + exists y0. split; [now apply zget_snoc_old|apply sym_grows_refl].
    + eexists. split; [eassumption|lia].
Qed.
Lemma lookup_std_cons k v l st : lookup_std ((k, v) :: l) st = if std_beq k st then Some v else lookup_std l st.
Proof. unfold lookup_std. cbn [find]. destruct (std_beq k st); reflexivity. Qed.
Lemma std_eq a b : std_beq a b = true <-> a = b.
Proof. split; [apply internal_std_dec_bl|apply internal_std_dec_lb]. Qed.
Definition places (f : format) (a : arch) sg nm kd (st : std) : bool :=
  let '(g, n, k, _) := section_info f a st in bytes_eqb g sg && bytes_eqb n nm && skind_beq k kd.
Lemma add_std_spec f a sg nm kd id todo : forall l st, lookup_std (add_std f a sg nm kd id todo l) st =
  match lookup_std l st with
  | Some i => Some i
  | None => if existsb (fun k => std_beq k st) todo && places f a sg nm kd st then Some id else None
  end.
Proof.
  induction todo as [|k todo IH]; intros l st; cbn [add_std existsb]; [destruct (lookup_std l st); reflexivity|].
  rewrite IH. destruct (std_beq k st) eqn:Ek.
  - apply std_eq in Ek as ->. destruct (lookup_std l st) as [i|] eqn:El; [rewrite El; reflexivity|].
    unfold places. destruct (section_info f a st) as [[[g n] kk] fl]. destruct (_ && _) eqn:Em.
    + rewrite lookup_std_cons. assert (std_beq st st = true) as -> by now apply std_eq. reflexivity.
    + rewrite El, andb_false_r. reflexivity.
  - cbn [orb]. destruct (lookup_std l k) as [i|] eqn:Elk; [reflexivity|].
    destruct (section_info f a k) as [[[g n] kk] fl]. destruct (bytes_eqb g sg && bytes_eqb n nm && skind_beq kk kd); [|reflexivity].
    rewrite lookup_std_cons, Ek. reflexivity.
Qed.
Lemma all_std_all st : existsb (fun k => std_beq k st) all_std = true.
Proof. destruct st; reflexivity. Qed.
Lemma skind_eq a b : skind_beq a b = true <-> a = b.
Proof. split; [apply internal_skind_dec_bl|apply internal_skind_dec_lb]. Qed.
Lemma places_spec f a s st : places f a (se_segment s) (se_name s) (se_kind s) st = true <-> same_place s (section_info f a st).
Proof.
  unfold places, same_place. destruct (section_info f a st) as [[[g n] k] fl]. rewrite !andb_true_iff, !bytes_eqb_eq, skind_eq. intuition congruence.
Qed.
(** a bounded search *)
Lemma search_lt {A} (l : list A) j (p : A -> bool) :
  (exists j' x, j' < j /\ zget l j' = Some x /\ p x = true) \/ (forall j' x, j' < j -> zget l j' = Some x -> p x = false).
Proof.
  destruct (existsb p (ztake j l)) eqn:E.
  - left. apply existsb_exists in E as (x & Hx & Hp). apply In_zget in Hx as (i & Hi). pose proof (zget_Some_lt _ _ _ Hi) as B.
    destruct (Z_le_dec j 0) as [Hj|Hj]. { exfalso. unfold ztake in B. replace (Z.to_nat j) with O in B by lia. cbn in B. lia. }
    exists i, x. rewrite zlen_ztake_min in B by lia. rewrite zget_ztake in Hi by lia. repeat split; auto; lia.
  - right. intros j' x Hj' Hx. destruct (p x) eqn:Ep; [|reflexivity]. exfalso. pose proof (zget_Some_lt _ _ _ Hx).
    assert (existsb p (ztake j l) = true); [|congruence]. apply existsb_exists. exists x. split; [|exact Ep].
    apply zget_In with j'. rewrite zget_ztake by lia. exact Hx.
Qed.
Lemma add_section_keeps o sg nm kd id o' : o_add_section o sg nm kd = (id, o') -> keeps o o' /\ id = zlen (o_sections o) /\
  o_sections o' = o_sections o ++ [{| se_segment := sg; se_name := nm; se_kind := kd; se_size := 0; se_align := 1; se_data := []; se_relocs := [];
              se_symbol := None; se_flags := SFNone |}] /\ o_symbols o' = o_symbols o /\ o_map o' = o_map o /\ o_stubs o' = o_stubs o /\ o_comdats o' = o_comdats o /\ o_tlv o' = o_tlv o.
Proof.
  unfold o_add_section. set (s0 := {| se_segment := sg |}). intros H. apply pair_equal_spec in H as [<- <-]. split; [|repeat split].
  intros [Hsz Hsy Hstd Hmap Hstub Htlv]. split.
  - constructor; cbn [with_std with_sections o_sections o_symbols o_std o_map o_stubs o_format o_arch].
    + intros id s H. rewrite zget_snoc in H. destruct (id =? zlen (o_sections o)); [|exact (Hsz _ _ H)]. injection H as <-. cbn. destruct (is_bss kd); split; try lia; reflexivity.
    + intros id y. change (is_section_symbol _ y id) with (is_section_symbol o y id). rewrite <- Hsy. split.
      * intros (s & H & E). rewrite zget_snoc in H. destruct (id =? zlen (o_sections o)); [injection H as <-; discriminate E|eauto].
      * intros (s & H & E). exists s. split; [now apply zget_snoc_old|exact E].
    + intros st id. rewrite add_std_spec, all_std_all. cbn [andb]. unfold first_std. cbn [with_std with_sections o_sections o_format o_arch].
      pose proof (places_spec (o_format o) (o_arch o) s0 st) as PS. cbn [s0 se_segment se_name se_kind] in PS.
      destruct (lookup_std (o_std o) st) as [i|] eqn:El.
      * apply Hstd in El. destruct El as [(s & H & Sp) Hf]. pose proof (zget_Some_lt _ _ _ H). split.
        -- intros [= <-]. split; [exists s; split; [now apply zget_snoc_old|exact Sp]|].
           intros j s' Hj Hg. rewrite zget_snoc in Hg. destruct (Z.eqb_spec j (zlen (o_sections o))); [lia|eauto].
        -- intros [(s' & H' & Sp') Hf']. f_equal. destruct (Z.lt_total i id) as [L|[L|L]]; [|exact L|].
           ++ exfalso. apply (Hf' i s L); [now apply zget_snoc_old|exact Sp].
           ++ exfalso. rewrite zget_snoc in H'. destruct (Z.eqb_spec id (zlen (o_sections o))); [lia|]. exact (Hf id s' L H' Sp').
      * assert (forall j s, zget (o_sections o) j = Some s -> ~ same_place s (section_info (o_format o) (o_arch o) st)) as Hno.
        { intros j s Hj Sp. 
          assert (exists i, first_std o st i) as (i & Hi).
          { assert (forall n, forall j s, j < Z.of_nat n -> zget (o_sections o) j = Some s -> same_place s (section_info (o_format o) (o_arch o) st) -> exists i, first_std o st i) as G.
            { clear - st. intros n. induction n as [|n IH]; intros j s Hj Hs Sp; [apply zget_Some_lt in Hs; lia|].
              destruct (search_lt (o_sections o) j (fun s => places (o_format o) (o_arch o) (se_segment s) (se_name s) (se_kind s) st)) as [(j' & s' & Hj' & Hs' & Sp')|Hn].
              - apply (IH j' s'); [lia|exact Hs'|]. now apply places_spec.
              - exists j. split; [eauto|]. intros j' s' L H' Sp'. apply places_spec in Sp'. rewrite (Hn j' s' L H') in Sp'. discriminate. }
            pose proof (zget_Some_lt _ _ _ Hj). eapply (G (Z.to_nat (j + 1)) j s); eauto. lia. }
          apply Hstd in Hi. congruence. }
        destruct (places (o_format o) (o_arch o) sg nm kd st) eqn:Ep.
        -- split.
           ++ intros [= <-]. split; [exists s0; split; [rewrite zget_snoc, Z.eqb_refl; reflexivity|now apply PS]|].
              intros j s Hj Hg. rewrite zget_snoc in Hg. destruct (Z.eqb_spec j (zlen (o_sections o))); [lia|eauto].
           ++ intros [(s & H & Sp) _]. rewrite zget_snoc in H. destruct (Z.eqb_spec id (zlen (o_sections o))) as [->|]; [reflexivity|]. exfalso. exact (Hno _ _ H Sp).
        -- split; [discriminate|]. intros [(s & H & Sp) _]. rewrite zget_snoc in H. destruct (Z.eqb_spec id (zlen (o_sections o))) as [->|].
           ++ injection H as <-. apply PS in Sp. congruence.
           ++ exfalso. exact (Hno _ _ H Sp).
    + exact Hmap.
    + intros y id H. destruct (Hstub y id H) as (sy & st & sec & s & r & H1 & H2 & H3 & H4 & H5). exists sy, st, sec, s, r. repeat split; try tauto. now apply zget_snoc_old.
    + exact Htlv.
  - constructor; cbn [with_std with_sections o_sections o_symbols o_std o_map o_stubs o_format o_arch o_endian o_prefix o_comdats]; auto using prefix_refl; intros; eauto using sym_grows_refl.
    + exists s. split; [now apply zget_snoc_old|apply sec_grows_refl].
    + rewrite add_std_spec, H. reflexivity.
    + eexists. split; [eassumption|lia].
Qed.

(** ** section symbols *)
Lemma section_symbol_keeps o id y o' : o_section_symbol o id = (y, o') -> y <> Panic -> keeps o o'.
Proof.
  unfold o_section_symbol. destruct (zget (o_sections o) id) as [s|] eqn:Hs; [|intros [= <- <-]; congruence].
  destruct (se_symbol s) as [y0|] eqn:Ey; [intros [= <- <-] _; apply keeps_refl|].
  unfold o_add_raw. set (sy := {| sy_name := _ |}). assert (sy_kind sy = YSection /\ sy_section sy = YSec id) as [Ky Sy] by (split; reflexivity). clearbody sy.
  cbv beta iota zeta. intros H _. apply pair_equal_spec in H as [_ <-]. cbn [with_symbols with_sections o_sections].
  pose proof (zget_Some_lt _ _ _ Hs) as B.
  intros [Hsz Hsy Hstd Hmap Hstub Htlv]. split.
  - constructor; cbn [with_symbols with_sections o_sections o_symbols o_std o_map o_stubs o_format o_arch].
    + intros j s' H. rewrite zget_zset in H by lia. destruct (j =? id); [injection H as <-; exact (Hsz _ _ Hs)|exact (Hsz _ _ H)].
    + intros j y1. unfold is_section_symbol. cbn [with_symbols with_sections o_symbols]. split.
      * intros (s' & H & E). rewrite zget_zset in H by lia. destruct (Z.eqb_spec j id) as [->|].
        -- injection H as <-. cbn in E. injection E as <-. exists sy. rewrite zget_snoc, Z.eqb_refl. auto.
        -- destruct (proj1 (Hsy j y1)) as (sy1 & H1 & K); [eauto|]. exists sy1. split; [now apply zget_snoc_old|exact K].
      * intros (sy1 & H1 & K1 & S1). rewrite zget_snoc in H1. destruct (Z.eqb_spec y1 (zlen (o_symbols o))) as [->|].
        -- injection H1 as <-. rewrite Sy in S1. injection S1 as <-. exists (sec_with_symbol s (Some (zlen (o_symbols o)))).
           rewrite zget_zset, Z.eqb_refl by lia. auto.
        -- destruct (proj2 (Hsy j y1)) as (s1 & Hs1 & E1); [exists sy1; auto|]. rewrite zget_zset by lia.
           destruct (Z.eqb_spec j id) as [->|]; [congruence|eauto].
    + intros st j. rewrite Hstd. unfold first_std. cbn [with_symbols with_sections o_sections o_format o_arch]. split; intros [(s1 & H1 & Sp) Hf].
      * split.
        -- destruct (Z.eq_dec j id) as [->|Hj].
           ++ exists (sec_with_symbol s (Some (zlen (o_symbols o)))). rewrite zget_zset, Z.eqb_refl by lia. split; [reflexivity|].
              rewrite Hs in H1. injection H1 as <-. exact Sp.
           ++ exists s1. rewrite zget_zset by lia. destruct (Z.eqb_spec j id); [lia|auto].
        -- intros k s2 Hk H2. rewrite zget_zset in H2 by lia. destruct (Z.eqb_spec k id) as [->|]; [|eauto]. injection H2 as <-. exact (Hf id s Hk Hs).
      * split.
        -- rewrite zget_zset in H1 by lia. destruct (Z.eqb_spec j id) as [->|]; [|eauto]. injection H1 as <-. exists s. split; [exact Hs|exact Sp].
        -- intros k s2 Hk H2. destruct (Z.eq_dec k id) as [->|Hj].
           ++ rewrite Hs in H2. injection H2 as <-. apply (Hf id (sec_with_symbol s (Some (zlen (o_symbols o)))) Hk). rewrite zget_zset, Z.eqb_refl by lia. reflexivity.
           ++ apply (Hf k s2 Hk). rewrite zget_zset by lia. destruct (Z.eqb_spec k id); [lia|exact H2].
    + intros n j H. destruct (Hmap n j H) as (Hn & y1 & H1 & L). split; [exact Hn|]. exists y1. split; [now apply zget_snoc_old|exact L].
    + intros y1 j H. destruct (Hstub y1 j H) as (sy1 & st & sec & s1 & r & H1 & H2 & H3 & H4 & H5).
      destruct (Z.eq_dec sec id) as [->|Hj].
      * exists sy1, st, id, (sec_with_symbol s (Some (zlen (o_symbols o)))), r. rewrite zget_zset, Z.eqb_refl by lia.
        rewrite Hs in H4. injection H4 as <-. repeat split; try tauto; now apply zget_snoc_old.
      * exists sy1, st, sec, s1, r. rewrite zget_zset by lia. destruct (Z.eqb_spec sec id); [lia|]. repeat split; try tauto; now apply zget_snoc_old.
    + intros i H. destruct (Htlv i H) as (y1 & H1 & L). exists y1. split; [now apply zget_snoc_old|exact L].
  - constructor; cbn [with_symbols with_sections o_sections o_symbols o_std o_map o_stubs o_format o_arch o_endian o_prefix o_comdats]; auto using prefix_refl; intros.
    + rewrite zget_zset by lia. destruct (Z.eqb_spec id0 id) as [->|]; [|eauto using sec_grows_refl].
      rewrite Hs in H. injection H as <-. eexists. split; [reflexivity|]. 
      constructor; cbn; auto using no_relocs; try lia. congruence.
    + exists y0. split; [now apply zget_snoc_old|apply sym_grows_refl].
    + eexists. split; [eassumption|lia].
Qed.
(** what it returns, and what else it does *)
Lemma section_symbol_spec o id r o' : coherent o -> o_section_symbol o id = (r, o') ->
  match r with
  | Ok y => is_section_symbol o' y id /\ o_section_symbol o' id = (Ok y, o') /\ o_std o' = o_std o /\ o_map o' = o_map o /\ o_stubs o' = o_stubs o /\ o_comdats o' = o_comdats o /\
      o_tlv o' = o_tlv o /\ (forall j s, zget (o_sections o) j = Some s -> exists y, zget (o_sections o') j = Some (sec_with_symbol s y)) /\
      zlen (o_sections o') = zlen (o_sections o) /\
      ((o' = o /\ is_section_symbol o y id) \/ (forall y0, ~ is_section_symbol o y0 id) /\ y = zlen (o_symbols o) /\ prefix_of (o_symbols o) (o_symbols o') /\ zlen (o_symbols o') = y + 1)
  | Err => False
  | Panic => zget (o_sections o) id = None
  end.
Proof.
  intros Hc H. assert (Hk : r <> Panic -> keeps o o') by (intros Hr; eapply section_symbol_keeps; eauto).
  revert H. unfold o_section_symbol at 1. destruct (zget (o_sections o) id) as [s|] eqn:Hs; [|intros [= <- <-]; reflexivity].
  pose proof (zget_Some_lt _ _ _ Hs) as B.
  destruct (se_symbol s) as [y0|] eqn:Ey.
  - intros [= <- <-]. assert (is_section_symbol o y0 id) by (apply (co_symbol _ Hc); eauto). split; [assumption|].
    split; [unfold o_section_symbol; rewrite Hs, Ey; reflexivity|]. repeat split; auto.
    intros j s1 H1. exists (se_symbol s1). rewrite H1. destruct s1; reflexivity.
  - unfold o_add_raw. cbv beta iota zeta. intros H. apply pair_equal_spec in H as [<- <-].
    destruct (Hk ltac:(discriminate) Hc) as [Hc' _]. cbn [with_symbols with_sections o_sections] in *.
    set (s' := sec_with_symbol s _) in *.
    assert (zget (zset (o_sections o) id s') id = Some s') as Hs' by (rewrite zget_zset, Z.eqb_refl by lia; reflexivity).
    split. { apply (co_symbol _ Hc'). exists s'. split; [exact Hs'|reflexivity]. }
    split. { unfold o_section_symbol. cbn [with_symbols with_sections o_sections]. rewrite Hs'. reflexivity. }
    split; [reflexivity|]. split; [reflexivity|]. split; [reflexivity|]. split; [reflexivity|]. split; [reflexivity|].
    split. { intros j s1 H1. rewrite zget_zset by lia. destruct (Z.eqb_spec j id) as [->|].
      - rewrite Hs in H1. injection H1 as <-. exists (Some (zlen (o_symbols o))). reflexivity.
      - exists (se_symbol s1). rewrite H1. destruct s1; reflexivity. }
    split. { rewrite zlen_zset by lia. reflexivity. }
    right. split. { intros y1 H1. apply (co_symbol _ Hc) in H1 as (s1 & H1 & E1). congruence. }
    split; [reflexivity|]. cbn [with_symbols with_sections o_symbols]. split; [eexists; reflexivity|]. rewrite zlen_app. reflexivity.
Qed.

(** ** relocations *)
Lemma with_sections_same o : with_sections o (o_sections o) = o.
Proof. destruct o; reflexivity. Qed.
Lemma zset_same {A} (l : list A) i x : zget l i = Some x -> zset l i x = l.
Proof.
  intros H. pose proof (zget_Some_lt _ _ _ H) as B. apply zget_ext'. intros j.
  rewrite zget_zset by lia. destruct (Z.eqb_spec j i) as [->|]; [symmetry; exact H|reflexivity].
Qed.
Lemma zset_zset {A} (l : list A) i x y : 0 <= i < zlen l -> zset (zset l i x) i y = zset l i y.
Proof.
  intros B. apply zget_ext'. intros j.
  rewrite !zget_zset by (rewrite ?zlen_zset; lia). destruct (j =? i); reflexivity.
Qed.
Definition finishes (o o' : obj) (sec : Z) (r0 : orel) : Prop := exists s s' v implicit,
  zget (o_sections o) sec = Some s /\ o' = with_sections o (zset (o_sections o) sec s') /\
  adjust_addend (o_format o) (o_arch o) (ol_flags r0) (ol_addend r0) = Ok (v, implicit) /\ se_symbol s' = se_symbol s /\
  exists r, relocated (o_format o) (o_arch o) (o_endian o) r v implicit s s' /\ ol_offset r = ol_offset r0 /\ ol_symbol r = ol_symbol r0 /\ ol_sub r = ol_sub r0 /\ ol_flags r = ol_flags r0.
Lemma finish_spec o sec r res o' : 0 <= ol_offset r -> o_finish_reloc o sec r = (res, o') ->
  match res with Ok _ => finishes o o' sec r /\ touches o o' | Err => o' = o | Panic => True end.
Proof.
  intros Ho. unfold o_finish_reloc. destruct (adjust_addend _ _ _ _) as [[v imp]| |] eqn:Ea; [|intros [= <- <-]; reflexivity|intros [= <- <-]; exact I].
  cbv zeta. destruct (imp && negb (v =? 0)) eqn:Ei.
  - unfold o_write_addend. cbn [ol_flags ol_offset ol_addend]. destruct (reloc_size _ _ _) as [size| |] eqn:Es; cbn [bs]; [|intros [= <- <-]; reflexivity|intros [= <- <-]; exact I].
    unfold on_section at 1. destruct (zget (o_sections o) sec) as [s|] eqn:Hs; [|cbn [bs]; intros [= <- <-]; exact I].
    pose proof (zget_Some_lt _ _ _ Hs) as B.
    destruct (sec_write_addend _ _ _ _ s) as [r1 s1] eqn:Ew. apply (write_addend_spec _ _ _ _ _ _ _ Ho) in Ew. destruct r1 as [u| |]; cbn [bs].
    + destruct Ew as (Bs & n & Hn & Hl & ->). unfold on_section. cbn [with_sections o_sections]. rewrite zget_zset, Z.eqb_refl by lia.
      rewrite zset_zset by lia. intros H. apply pair_equal_spec in H as [<- <-].
      assert (n = 4 \/ n = 8) as Hn' by lia.
      set (r2 := {| ol_offset := ol_offset r; ol_symbol := ol_symbol r; ol_sub := ol_sub r; ol_addend := 0; ol_flags := ol_flags r |}).
      pose proof (put_push_ok (o_endian o) n v s r2 Ho Hn' Hl) as Hok. cbn [r2 ol_offset] in Hok.
      set (s' := sec_push_reloc _ _) in *. split.
      * exists s, s', v, imp. split; [exact Hs|]. split; [reflexivity|]. split; [exact Ea|]. split; [reflexivity|].
        exists r2. split; [|repeat split]. unfold relocated. rewrite Ei. repeat (split; [reflexivity|]). exists n. split; [exact Hn'|]. split; [change (ol_flags r2) with (ol_flags r); rewrite Es; f_equal; lia|].
        split; [exact Hl|]. reflexivity.
      * constructor; try reflexivity; cbn [with_sections o_sections o_symbols o_comdats]; [apply prefix_refl| |apply pointwise_refl; exact sym_ok_refl].
        eapply pointwise_zset; eauto using sec_ok_refl.
    + subst s1. intros H. apply pair_equal_spec in H as [<- <-]. rewrite zset_same by assumption. apply with_sections_same.
    + intros [= <- <-]. exact I.
  - unfold on_section. destruct (zget (o_sections o) sec) as [s|] eqn:Hs; [|intros [= <- <-]; exact I].
    intros H. apply pair_equal_spec in H as [<- <-].
    set (r2 := {| ol_offset := ol_offset r |}). split.
    + exists s, (sec_push_reloc s r2), v, imp. split; [exact Hs|]. split; [reflexivity|]. split; [exact Ea|]. split; [reflexivity|].
      exists r2. split; [|repeat split]. unfold relocated. rewrite Ei. repeat split.
    + constructor; try reflexivity; cbn [with_sections o_sections o_symbols o_comdats]; [apply prefix_refl| |apply pointwise_refl; exact sym_ok_refl].
      eapply pointwise_zset; eauto using sec_ok_refl, push_reloc_ok.
Qed.
Lemma nearly_refl o sec : nearly o o sec.
Proof. split; [eauto|]. auto using prefix_refl. Qed.
Lemma finish_relocates o o' o1 sec r ad fl : finishes o1 o' sec r -> coherent o -> touches o1 o' ->
  (o1 = o \/ exists y, o_section_symbol o sec = (Ok y, o1)) ->
  translated (o_format o) (o_arch o) (o_endian o) (ol_offset r) fl ad (ol_flags r) (ol_addend r) -> relocates o o' sec (ol_offset r) (ol_symbol r) ad fl /\ others_same o o' sec /\ o_stubs o' = o_stubs o.
Proof.
  intros (s & s' & v & imp & Hs & -> & Ea & Esy & r2 & Hr & E1 & E2 & E3 & E4) Hc Ht Ho1 Htr. pose proof (zget_Some_lt _ _ _ Hs) as B.
  assert (o_format o1 = o_format o /\ o_arch o1 = o_arch o /\ o_endian o1 = o_endian o /\ o_stubs o1 = o_stubs o /\ o_map o1 = o_map o /\ o_comdats o1 = o_comdats o /\ prefix_of (o_symbols o) (o_symbols o1) /\
    exists s0, zget (o_sections o) sec = Some s0 /\ (s = s0 \/ exists y, s = sec_with_symbol s0 y)) as (Ef & Ear & Ee & Est & Em & Ec & Ep & s0 & Hs0 & Es0).
  { destruct Ho1 as [->|(y & Hy)]; [repeat split; auto using prefix_refl; eauto|]. 
    pose proof (section_symbol_keeps _ _ _ _ Hy ltac:(discriminate) Hc) as [_ G].
    pose proof (section_symbol_spec _ _ _ _ Hc Hy) as (_ & _ & _ & H1 & H2 & H3 & _ & H5 & H6 & H7).
    repeat split; try apply G; auto.
    - destruct H7 as [[-> _]|(_ & _ & P & _)]; [apply prefix_refl|exact P].
    - destruct (zget_lt_Some (o_sections o) sec ltac:(lia)) as (s0 & Hs0). exists s0. split; [exact Hs0|]. right. destruct (H5 _ _ Hs0) as (y1 & H1'). exists y1. congruence. }
  split; [|split].
  - exists s0, s', r2, (ol_flags r), (ol_addend r), v, imp. split; [exact Hs0|]. split; [cbn; rewrite zget_zset, Z.eqb_refl by lia; reflexivity|].
    split; [exact Htr|]. rewrite <- Ef, <- Ear, <- Ee. split; [exact Ea|]. split; [|auto].
    destruct Es0 as [<-|(y & ->)]; [exact Hr|exact Hr].
  - unfold others_same. cbn [with_sections o_sections o_symbols o_map o_comdats]. repeat split; auto.
    intros j s1 Hj H1. rewrite zget_zset by lia. destruct (Z.eqb_spec j sec); [lia|].
    destruct Ho1 as [->|(y & Hy)]; [exact H1|]. revert Hy. unfold o_section_symbol. rewrite Hs0. destruct (se_symbol s0).
    + intros [= _ <-]. exact H1.
    + unfold o_add_raw. cbv beta iota zeta. intros Hy. apply pair_equal_spec in Hy as [_ <-]. cbn [with_sections with_symbols o_sections].
      pose proof (zget_Some_lt _ _ _ Hs0). rewrite zget_zset by lia. destruct (Z.eqb_spec j sec); [lia|exact H1].
  - exact Est.
Qed.
Lemma section_symbol_nearly o sec y o1 : o_section_symbol o sec = (Ok y, o1) -> nearly o o1 sec /\ o_stubs o1 = o_stubs o.
Proof.
  unfold o_section_symbol. destruct (zget (o_sections o) sec) as [s|] eqn:Hs; [|discriminate]. destruct (se_symbol s).
  - intros [= _ <-]. split; [apply nearly_refl|reflexivity].
  - unfold o_add_raw. cbv beta iota zeta. intros Hy. apply pair_equal_spec in Hy as [_ <-]. pose proof (zget_Some_lt _ _ _ Hs). split; [|reflexivity].
    unfold nearly. cbn [with_sections with_symbols o_sections o_symbols o_map o_comdats]. split; [|split; [eexists; reflexivity|auto]].
    intros j s1 H1. rewrite zget_zset by lia. destruct (Z.eqb_spec j sec) as [->|]; [|eauto]. rewrite Hs in H1. injection H1 as <-. eauto 6.
Qed.
Lemma plain_spec o sec r res o' : coherent o -> 0 <= ol_offset r -> o_add_reloc_plain o sec r = (res, o') -> 
  match res with
  | Ok _ => relocates o o' sec (ol_offset r) (ol_symbol r) (ol_addend r) (ol_flags r) /\ others_same o o' sec /\ o_stubs o' = o_stubs o
  | Err => nearly o o' sec /\ o_stubs o' = o_stubs o
  | Panic => True
  end.
Proof.
  intros Hc Ho. 
  assert (forall fl' sub ad' o1, o1 = o \/ (exists y, o_section_symbol o sec = (Ok y, o1)) ->
    translated (o_format o) (o_arch o) (o_endian o) (ol_offset r) (ol_flags r) (ol_addend r) fl' ad' ->
    o_finish_reloc o1 sec (orel_with r (ol_symbol r) sub ad' fl') = (res, o') ->
    match res with
    | Ok _ => relocates o o' sec (ol_offset r) (ol_symbol r) (ol_addend r) (ol_flags r) /\ others_same o o' sec /\ o_stubs o' = o_stubs o
    | Err => nearly o o' sec /\ o_stubs o' = o_stubs o
    | Panic => True
    end) as G.
  { intros fl' sub ad' o1 Ho1 Htr H. apply finish_spec in H; [|exact Ho]. destruct res as [u| |]; [| |exact I].
    - destruct H as [F T]. exact (finish_relocates o o' o1 sec _ (ol_addend r) (ol_flags r) F Hc T Ho1 Htr).
    - subst o'. destruct Ho1 as [->|(y & Hy)]; [split; [apply nearly_refl|reflexivity]|eapply section_symbol_nearly; eauto]. }
  assert (orel_with r (ol_symbol r) (ol_sub r) (ol_addend r) (ol_flags r) = r) as Er by (destruct r; reflexivity).
  unfold o_add_reloc_plain. 
  assert (forall fl, (fl, ol_flags r) = (fl, fl) -> match fl with RFgeneric _ _ _ => False | _ => True end -> o_finish_reloc o sec r = (res, o') ->
    match res with
    | Ok _ => relocates o o' sec (ol_offset r) (ol_symbol r) (ol_addend r) (ol_flags r) /\ others_same o o' sec /\ o_stubs o' = o_stubs o
    | Err => nearly o o' sec /\ o_stubs o' = o_stubs o
    | Panic => True
    end) as G0.
  { intros fl [= E] Hn H. apply (G (ol_flags r) (ol_sub r) (ol_addend r) o); [auto| |rewrite Er; exact H]. unfold translated. rewrite E. destruct fl; tauto. }
  destruct (ol_flags r) as [k enc size|t|t|t pcrel len|t rs] eqn:Efl; try (apply (G0 _ eq_refl); exact I).
  unfold translated in G. destruct (o_format o) eqn:Ef.
  - destruct (coff_translate _ _ _ _ _) as [t| |] eqn:Et; [|intros [= <- <-]; split; [apply nearly_refl|reflexivity]|intros [= <- <-]; exact I].
    apply G; [auto|]. exists t. auto.
  - destruct (elf_translate _ _ _ _ _) as [t| |] eqn:Et; [|intros [= <- <-]; split; [apply nearly_refl|reflexivity]|intros [= <- <-]; exact I].
    apply G; [auto|]. exists t. auto.
  - destruct (macho_length _ _); [|intros [= <- <-]; split; [apply nearly_refl|reflexivity]|intros [= <- <-]; split; [apply nearly_refl|reflexivity]].
    destruct (macho_type _ _ _); [|intros [= <- <-]; split; [apply nearly_refl|reflexivity]|intros [= <- <-]; split; [apply nearly_refl|reflexivity]].
    destruct (macho_subtracts _ _ _).
    + destruct (o_section_symbol o sec) as [[y| |] o1] eqn:Ey; cbn [bs].
      * destruct (macho_translate (o_arch o1) k enc size (ol_offset r) (ol_addend r)) as [[[[t pcrel] len] ad']| |] eqn:Et; [|intros [= <- <-]; eapply section_symbol_nearly; eauto|intros [= <- <-]; exact I].
        assert (o_arch o1 = o_arch o) as Ea by (apply (section_symbol_keeps _ _ _ _ Ey ltac:(discriminate) Hc)). rewrite Ea in Et.
        apply G; [right; eauto|]. exists t, pcrel, len. auto.
      * apply (section_symbol_spec _ _ _ _ Hc) in Ey. contradiction.
      * intros [= <- <-]. exact I.
    + destruct (macho_translate (o_arch o) k enc size (ol_offset r) (ol_addend r)) as [[[[t pcrel] len] ad']| |] eqn:Et; [|intros [= <- <-]; split; [apply nearly_refl|reflexivity]|intros [= <- <-]; exact I].
      apply G; [auto|]. exists t, pcrel, len. auto.
  - destruct (xcoff_translate _ _) as [[t rs]| |] eqn:Et; [|intros [= <- <-]; split; [apply nearly_refl|reflexivity]|intros [= <- <-]; exact I].
    apply G; [auto|]. exists t, rs. auto.
Qed.
Lemma plain_keeps o sec r res o' : 0 <= ol_offset r -> o_add_reloc_plain o sec r = (res, o') -> res <> Panic -> keeps o o'.
Proof.
  intros Ho.
  assert (forall o1 r1, ol_offset r1 = ol_offset r -> o_finish_reloc o1 sec r1 = (res, o') -> res <> Panic -> keeps o1 o') as G.
  { intros o1 r1 E H Hr. apply finish_spec in H; [|lia]. destruct res as [u| |]; [|subst; apply keeps_refl|congruence]. apply touches_keeps, H. }
  unfold o_add_reloc_plain. destruct (ol_flags r) as [k enc size|t|t|t pcrel len|t rs]; try (apply G; reflexivity).
  destruct (o_format o).
  - destruct (coff_translate _ _ _ _ _); [apply G; reflexivity| |]; intros [= <- <-] _; apply keeps_refl.
  - destruct (elf_translate _ _ _ _ _); [apply G; reflexivity| |]; intros [= <- <-] _; apply keeps_refl.
  - destruct (macho_length _ _); try (intros [= <- <-] _; apply keeps_refl).
    destruct (macho_type _ _ _); try (intros [= <- <-] _; apply keeps_refl).
    destruct (macho_subtracts _ _ _).
    + destruct (o_section_symbol o sec) as [y o1] eqn:Ey. pose proof (section_symbol_keeps _ _ _ _ Ey) as K. destruct y as [y| |]; cbn [bs].
      * specialize (K ltac:(discriminate)). destruct (macho_translate _ _ _ _ _ _) as [[[[t pcrel] len] ad']| |].
        -- intros H Hr. eapply keeps_trans; [exact K|]. intros _ _. eapply G; [|exact H|exact Hr]. reflexivity.
        -- intros [= <- <-] _. exact K.
        -- intros [= <- <-]. congruence.
      * intros [= <- <-] _. apply K. discriminate.
      * intros [= <- <-]. congruence.
    + destruct (macho_translate _ _ _ _ _ _) as [[[[t pcrel] len] ad']| |]; [apply G; reflexivity| |]; intros [= <- <-] _; apply keeps_refl.
  - destruct (xcoff_translate _ _) as [[t rs]| |]; [apply G; reflexivity| |]; intros [= <- <-] _; apply keeps_refl.
Qed.

(** ** COFF stubs *)
Lemma lookup_id_cons k v l i : lookup_id ((k, v) :: l) i = if k =? i then Some v else lookup_id l i.
Proof. unfold lookup_id. cbn [find]. destruct (k =? i); reflexivity. Qed.
Lemma stub_keeps o y id sy st sec s r : lookup_id (o_stubs o) y = None -> zget (o_symbols o) y = Some sy -> zget (o_symbols o) id = Some st ->
  sy_name st = str ".refptr." ++ sy_name sy -> zget (o_sections o) sec = Some s -> In r (se_relocs s) -> ol_symbol r = y -> ol_offset r = 0 ->
  keeps o (with_stubs o ((y, id) :: o_stubs o)).
Proof.
  intros Hl H1 H2 H3 H4 H5 H6 H7 [Hsz Hsy Hstd Hmap Hstub Htlv]. split.
  - constructor; cbn [with_stubs o_sections o_symbols o_std o_map o_stubs o_format o_arch]; auto.
    intros y0 id0. rewrite lookup_id_cons. destruct (Z.eqb_spec y y0) as [<-|]; [|apply Hstub]. intros [= <-]. exists sy, st, sec, s, r. auto 10.
  - constructor; cbn [with_stubs o_sections o_symbols o_std o_map o_stubs o_format o_arch o_endian o_prefix o_comdats]; auto using prefix_refl; intros; eauto using sec_grows_refl, sym_grows_refl.
    + rewrite lookup_id_cons. destruct (Z.eqb_spec y y0) as [<-|]; [congruence|assumption].
    + eexists. split; [eassumption|lia].
Qed.
Lemma set_section_data_keeps o id d al r o' : o_set_section_data o id d al = (r, o') -> r <> Panic -> keeps o o'.
Proof.
  intros H Hr Hc. refine (touches_keeps o o' _ Hc). eapply on_section_touches; eauto. cbv beta. intros. eapply set_data_ok; eauto. exact (co_size _ Hc _ _ H0).
Qed.
Lemma append_keeps o id d al r o' : u64_ok al -> o_append o id d al = (r, o') -> r <> Panic -> keeps o o'.
Proof.
  intros Ha H Hr Hc. refine (touches_keeps o o' _ Hc). eapply on_section_touches; eauto. cbv beta. intros. eapply append_ok; eauto. exact (co_size _ Hc _ _ H0).
Qed.
Lemma append_bss_keeps o id n al r o' : u64_ok n -> u64_ok al -> o_append_bss o id n al = (r, o') -> r <> Panic -> keeps o o'.
Proof.
  intros Hn Ha H Hr Hc. refine (touches_keeps o o' _ Hc). eapply on_section_touches; eauto. cbv beta. intros. eapply append_bss_ok; eauto; [apply Hn|]. exact (co_size _ Hc _ _ H0).
Qed.
Lemma prefix_zget {A} (l l' : list A) i x : prefix_of l l' -> zget l i = Some x -> zget l' i = Some x.
Proof. intros (t & ->) H. pose proof (zget_Some_lt _ _ _ H). rewrite zget_app1 by lia. exact H. Qed.
Lemma zget_prefix {A} (l l' : list A) : (forall i x, zget l i = Some x -> zget l' i = Some x) -> prefix_of l l'.
Proof.
  revert l'. induction l as [|a l IH]; intros l' H; [exists l'; reflexivity|].
  destruct l' as [|b l']. { specialize (H 0 a eq_refl). discriminate. }
  assert (b = a) as -> by (specialize (H 0 a eq_refl); cbn in H; congruence).
  destruct (IH l') as (t & ->).
  - intros i x Hi. pose proof (zget_Some_lt _ _ _ Hi). specialize (H (i + 1) x). rewrite !zget_cons_pred in H by lia. replace (i + 1 - 1) with i in H by lia. auto.
  - exists t. reflexivity.
Qed.
Lemma coff_stub_spec o y res o' : coherent o -> o_coff_stub o y = (res, o') ->
  res <> Panic -> coherent o' /\ grows o o' /\ untouched o o' /\
  match res with Ok id => lookup_id (o_stubs o') y = Some id | _ => True end.
Proof.
  intros Hc. unfold o_coff_stub. destruct (lookup_id (o_stubs o) y) as [id|] eqn:El.
  { intros [= <- <-] _. split; [exact Hc|]. split; [apply grows_refl|]. split; [|exact El]. unfold untouched. auto using prefix_refl. }
  destruct (address_size (o_arch o)) as [size|]; [|intros [= <- <-]; congruence].
  destruct (o_add_section o _ _ _) as [sec o1] eqn:E1. destruct (add_section_keeps _ _ _ _ _ _ E1) as (K1 & Es & Esec1 & Esym1 & Emap1 & Est1 & Ecd1 & _).
  destruct (K1 Hc) as [Hc1 G1]. clear E1 K1.
  destruct (o_set_section_data o1 sec _ _) as [r2 o2] eqn:E2. destruct r2 as [u| |]; cbn [bs].
  3:{ intros [= <- <-]. congruence. }
  2:{ exfalso. revert E2. unfold o_set_section_data, on_section, sec_set_data. destruct (zget _ _); [|discriminate]. destruct (_ || _ || _); discriminate. }
  destruct (set_section_data_keeps _ _ _ _ _ _ E2 ltac:(discriminate) Hc1) as [Hc2 G2].
  assert (untouched o o2 /\ o_stubs o2 = o_stubs o) as [U2 Est2].
  { revert E2. unfold o_set_section_data, on_section. destruct (zget (o_sections o1) sec) as [s1|] eqn:Hs1; [|discriminate]. pose proof (zget_Some_lt _ _ _ Hs1).
    destruct (sec_set_data s1 _ _) as [? s1']. intros H'. apply pair_equal_spec in H' as [_ <-]. cbn [with_sections o_stubs]. split; [|exact Est1].
    unfold untouched. cbn [with_sections o_sections o_symbols o_map o_comdats]. rewrite Esym1, Emap1, Ecd1. split; [|auto using prefix_refl].
    apply zget_prefix. intros i x Hi. pose proof (zget_Some_lt _ _ _ Hi). rewrite zget_zset by lia. destruct (Z.eqb_spec i sec); [lia|]. rewrite Esec1. now apply zget_snoc_old. }
  destruct (o_add_reloc_plain o2 sec _) as [r3 o3] eqn:E3. 
  pose proof (fun h => plain_spec o2 sec _ _ _ Hc2 h E3) as P3. pose proof (fun h => plain_keeps o2 sec _ _ _ h E3) as K3. cbn [ol_offset ol_symbol ol_addend ol_flags] in P3, K3. specialize (P3 (Z.le_refl 0)). specialize (K3 (Z.le_refl 0)).
  destruct r3 as [u3| |]; cbn [bs]; [| |intros [= <- <-]; congruence].
  - destruct (K3 ltac:(discriminate) Hc2) as [Hc3 G3]. destruct P3 as (R3 & (O3 & S3 & M3 & C3) & St3).
    destruct (zget (o_symbols o3) y) as [sy|] eqn:Ey; [|intros [= <- <-]; congruence].
    match goal with |- context [o_add_raw o3 ?x] => set (st := x) end.
    assert (sy_kind st <> YSection) as Kst by discriminate. assert (sy_name st = str ".refptr." ++ sy_name sy) as Nst by reflexivity. clearbody st.
    destruct (o_add_raw o3 _) as [id o4] eqn:E4. pose proof (add_raw_keeps _ _ _ _ E4 Kst) as K4. destruct (K4 Hc3) as [Hc4 G4].
    intros H Hr. apply pair_equal_spec in H as [<- <-]. cbn [with_stubs o_stubs].
    injection E4 as <- <-. cbn [with_symbols o_stubs] in *.
    destruct R3 as (s2 & s3 & r3 & fl' & ad' & v & imp & Hs2 & Hs3 & _ & _ & (_ & _ & _ & _ & _ & _ & Er & _) & Eo & Ey3 & _).
    assert (keeps (with_symbols o3 (o_symbols o3 ++ [st])) (with_stubs (with_symbols o3 (o_symbols o3 ++ [st])) ((y, zlen (o_symbols o3)) :: o_stubs o3))) as K5.
    { apply (stub_keeps (with_symbols o3 (o_symbols o3 ++ [st])) y (zlen (o_symbols o3)) sy st sec s3 r3).
      - cbn [with_symbols o_stubs]. congruence.
      - cbn [with_symbols o_symbols]. now apply zget_snoc_old.
      - cbn [with_symbols o_symbols]. rewrite zget_snoc, Z.eqb_refl. reflexivity.
      - exact Nst.
      - exact Hs3.
      - rewrite Er. apply in_or_app. right. left. reflexivity.
      - exact Ey3.
      - exact Eo. }
    destruct (K5 Hc4) as [Hc5 G5]. split; [exact Hc5|]. split; [eauto 6 using grows_trans|]. split.
    + destruct U2 as (U2a & U2b & U2c & U2d). unfold untouched. cbn [with_stubs with_symbols o_sections o_symbols o_map o_comdats].
      split; [|split; [eapply prefix_trans; [exact U2b|]; eapply prefix_trans; [exact S3|]; eexists; reflexivity|split; congruence]].
      apply zget_prefix. intros i x Hi. pose proof (zget_Some_lt _ _ _ Hi). apply O3; [lia|]. eapply prefix_zget; eauto.
    + rewrite lookup_id_cons, Z.eqb_refl. reflexivity.
  - intros [= <- <-] _. destruct (K3 ltac:(discriminate) Hc2) as [Hc3 G3]. split; [exact Hc3|]. split; [eauto using grows_trans|]. split; [|exact I].
    destruct P3 as ((N1 & N2 & N3 & N4) & _). destruct U2 as (U2a & U2b & U2c & U2d). split; [|split; [eauto using prefix_trans|split; congruence]].
    apply zget_prefix. intros i x Hi. pose proof (zget_Some_lt _ _ _ Hi). destruct (N1 i x) as (s' & Hs' & [->|[-> _]]); [eapply prefix_zget; eauto|exact Hs'|lia].
Qed.
Lemma untouched_refl o : untouched o o.
Proof. unfold untouched. auto using prefix_refl. Qed.
(** ** [add_relocation] *)
Lemma internal_spec o sec r res o' : coherent o -> 0 <= ol_offset r -> o_add_reloc_internal o sec r = (res, o') ->
  match res with
  | Ok _ => (zget (o_sections o) sec <> None -> exists sym, target o' (o_format o) (ol_flags r) (ol_symbol r) sym /\ relocates o o' sec (ol_offset r) sym (ol_addend r) (ol_flags r)) /\ others_same o o' sec
  | Err => nearly o o' sec
  | Panic => True
  end.
Proof.
  intros Hc Ho.
  assert (forall fl, match o_format o, fl with FCoff, RFgeneric KGotRelative _ _ => False | _, _ => True end -> ol_flags r = fl ->
    o_add_reloc_plain o sec r = (res, o') ->
    match res with
    | Ok _ => (zget (o_sections o) sec <> None -> exists sym, target o' (o_format o) (ol_flags r) (ol_symbol r) sym /\ relocates o o' sec (ol_offset r) sym (ol_addend r) (ol_flags r)) /\ others_same o o' sec
    | Err => nearly o o' sec
    | Panic => True
    end) as G.
  { intros fl Hn E H. apply (plain_spec _ _ _ _ _ Hc Ho) in H. destruct res as [u| |]; [|apply H|exact I].
    destruct H as (R & O & _). split; [|exact O]. intros _. exists (ol_symbol r). split; [|exact R]. rewrite E. unfold target.
    destruct (o_format o); try reflexivity. destruct fl as [k e0 sz|t|t|t p l|t rs]; try reflexivity. destruct k; try reflexivity. contradiction. }
  unfold o_add_reloc_internal. destruct (o_format o) eqn:Ef; try (apply (G (ol_flags r)); [exact I|reflexivity]).
  destruct (ol_flags r) as [k enc size|t|t|t pcrel len|t rs] eqn:Efl; try (eapply G; [|reflexivity]; exact I).
  destruct k; try (eapply G; [|reflexivity]; exact I).
  destruct (o_coff_stub o (ol_symbol r)) as [ry o1] eqn:Es. pose proof (coff_stub_spec _ _ _ _ Hc Es) as S.
  destruct ry as [y| |]; cbn [bs].
  - destruct (S ltac:(discriminate)) as (Hc1 & G1 & (U1 & U2 & U3 & U4) & L1). intros H. 
    apply (plain_spec _ _ _ _ _ Hc1) in H; [|exact Ho]. cbn [orel_with ol_offset ol_symbol ol_addend ol_flags] in H.
    assert (forall j s, zget (o_sections o) j = Some s -> zget (o_sections o1) j = Some s) as Hold by (intros j s Hj; eapply prefix_zget; eauto).
    destruct res as [u| |]; [| |exact I].
    + destruct H as (R & (O1 & O2 & O3 & O4) & St). split.
      * intros Hs. exists y. split; [unfold target; rewrite St; exact L1|].
        destruct R as (s & s' & r' & fl' & ad' & v & imp & Hs1 & R). destruct (zget (o_sections o) sec) as [s0|] eqn:Hs0; [|congruence].
        assert (s0 = s) as -> by (apply Hold in Hs0; congruence). exists s, s', r', fl', ad', v, imp.
        rewrite <- (gr_format _ _ G1), <- (gr_arch _ _ G1), <- (gr_endian _ _ G1). split; [exact Hs0|exact R].
      * split; [intros; apply O1; auto|]. split; [eauto using prefix_trans|split; congruence].
    + destruct H as ((N1 & N2 & N3 & N4) & _). split; [intros j s Hj; apply N1, Hold, Hj|]. split; [eauto using prefix_trans|split; congruence].
  - intros [= <- <-]. destruct (S ltac:(discriminate)) as (Hc1 & G1 & (U1 & U2 & U3 & U4) & _).
    split; [intros j s Hj; exists s; split; [eapply prefix_zget; eauto|auto]|]. auto.
  - intros [= <- <-]. exact I.
Qed.
Lemma internal_keeps o sec r res o' : 0 <= ol_offset r -> o_add_reloc_internal o sec r = (res, o') -> res <> Panic -> keeps o o'.
Proof.
  intros Ho. unfold o_add_reloc_internal. destruct (o_format o); try (intros; eapply plain_keeps; eassumption).
  destruct (ol_flags r) as [k enc size|t|t|t pcrel len|t rs]; try (intros; eapply plain_keeps; eassumption).
  destruct k; try (intros; eapply plain_keeps; eassumption).
  destruct (o_coff_stub o (ol_symbol r)) as [ry o1] eqn:Es. intros H Hr Hc. pose proof (coff_stub_spec _ _ _ _ Hc Es) as S.
  destruct ry as [y| |]; cbn [bs] in H.
  - destruct (S ltac:(discriminate)) as (Hc1 & G1 & _). apply plain_keeps in H; [|exact Ho|exact Hr]. destruct (H Hc1) as [Hc' G']. split; [exact Hc'|eauto using grows_trans].
  - injection H as <- <-. destruct (S ltac:(discriminate)) as (Hc1 & G1 & _). auto.
  - injection H as <- <-. congruence.
Qed.
Lemma relocation_keeps o sec off y ad sub fl res o' : u64_ok off -> o_add_relocation o sec off y ad sub fl = (res, o') -> res <> Panic -> keeps o o'.
Proof.
  intros Ho. unfold o_add_relocation. destruct sub, (o_format o); try (intros; eapply internal_keeps; [|eassumption|assumption]; apply Ho);
    intros [= <- <-] _; apply keeps_refl.
Qed.
(** ** sections *)
Lemma flags_touches o id s fl : zget (o_sections o) id = Some s -> touches o (with_sections o (zset (o_sections o) id (sec_with_flags s fl))).
Proof.
  intros H. constructor; try reflexivity; cbn [with_sections o_sections o_symbols o_comdats]; [apply prefix_refl| |apply pointwise_refl; exact sym_ok_refl].
  apply pointwise_zset with s; auto using sec_ok_refl. split; [|split; [reflexivity|auto]]. constructor; cbn; auto using no_relocs; lia.
Qed.
Lemma add_section_flags_spec o sg nm kd fl id o' : o_add_section_flags o sg nm kd fl = (id, o') -> keeps o o' /\ id = zlen (o_sections o) /\
  o_sections o' = o_sections o ++ [{| se_segment := sg; se_name := nm; se_kind := kd; se_size := 0; se_align := 1; se_data := []; se_relocs := [];
              se_symbol := None; se_flags := fl |}] /\ o_symbols o' = o_symbols o /\ o_map o' = o_map o /\ o_stubs o' = o_stubs o /\ o_comdats o' = o_comdats o /\ o_tlv o' = o_tlv o.
Proof.
  unfold o_add_section_flags. destruct (o_add_section o sg nm kd) as [i o1] eqn:E. apply add_section_keeps in E as (K & -> & E1 & E2 & E3 & E4 & E5 & E6).
  set (s := {| se_segment := sg |}) in *. assert (zget (o_sections o1) (zlen (o_sections o)) = Some s) as Hs by (rewrite E1, zget_snoc, Z.eqb_refl; reflexivity).
  rewrite Hs. intros H. apply pair_equal_spec in H as [<- <-]. split.
  - eapply keeps_trans; [exact K|]. intros _ _. apply touches_keeps. apply flags_touches. exact Hs.
  - split; [reflexivity|]. cbn [with_sections o_sections o_symbols o_map o_stubs o_comdats o_tlv]. split; [|auto].
    apply zget_ext'. intros i. pose proof (zget_Some_lt _ _ _ Hs). rewrite zget_zset by lia.
    rewrite E1, !zget_snoc. destruct (i =? zlen (o_sections o)); reflexivity.
Qed.
Lemma section_id_spec o st id o' : coherent o -> o_section_id o st = (id, o') -> keeps o o' /\ lookup_std (o_std o') st = Some id /\
  match lookup_std (o_std o) st with
  | Some i => id = i /\ o' = o
  | None => id = zlen (o_sections o) /\ exists s, o_sections o' = o_sections o ++ [s] /\ same_place s (section_info (o_format o) (o_arch o) st) /\ se_size s = 0 /\ se_data s = [] /\ se_relocs s = [] /\ se_align s = 1 /\
      se_flags s = snd (section_info (o_format o) (o_arch o) st)
  end /\ o_symbols o' = o_symbols o /\ o_map o' = o_map o /\ o_stubs o' = o_stubs o /\ o_comdats o' = o_comdats o /\ o_tlv o' = o_tlv o.
Proof.
  intros Hc. unfold o_section_id. destruct (lookup_std (o_std o) st) as [i|] eqn:El.
  { intros [= <- <-]. split; [apply keeps_refl|]. repeat (split; auto). }
  destruct (section_info _ _ _) as [[[sg nm] kd] fl] eqn:Ei. intros H. apply add_section_flags_spec in H as (K & -> & E1 & E). destruct (K Hc) as [Hc' G].
  split; [exact K|]. split.
  - apply (co_std _ Hc'). unfold first_std. rewrite (gr_format _ _ G), (gr_arch _ _ G), Ei, E1. split.
    + eexists. split; [rewrite zget_snoc, Z.eqb_refl; reflexivity|]. repeat split.
    + intros j s Hj Hs Sp. rewrite zget_snoc in Hs. destruct (Z.eqb_spec j (zlen (o_sections o))); [lia|].
      assert (exists i, lookup_std (o_std o') st = Some i) as (i & Hi).
      { destruct (search_lt (o_sections o') (j + 1) (fun s => places (o_format o) (o_arch o) (se_segment s) (se_name s) (se_kind s) st)) as [(j0 & s0 & Hj0 & Hs0 & P0)|Hn].
        - clear - Hc' G Hj0 Hs0 P0. revert j0 s0 Hj0 Hs0 P0. intros j0. induction j0 as [j0 IH] using (well_founded_induction (Z.lt_wf 0)). intros s0 Hj0 Hs0 P0.
          destruct (search_lt (o_sections o') j0 (fun s => places (o_format o) (o_arch o) (se_segment s) (se_name s) (se_kind s) st)) as [(j1 & s1 & Hj1 & Hs1 & P1)|Hn].
          + apply (IH j1 ltac:(pose proof (zget_Some_lt _ _ _ Hs1); lia) s1 ltac:(lia) Hs1 P1).
          + exists j0. apply (co_std _ Hc'). unfold first_std. rewrite (gr_format _ _ G), (gr_arch _ _ G). split; [exists s0; split; [exact Hs0|now apply places_spec]|].
            intros k s Hk Hs Sp. apply places_spec in Sp. rewrite (Hn k s Hk Hs) in Sp. discriminate.
        - specialize (Hn j s ltac:(lia)). rewrite E1, zget_snoc in Hn. destruct (Z.eqb_spec j (zlen (o_sections o))); [lia|]. specialize (Hn Hs).
          assert (places (o_format o) (o_arch o) (se_segment s) (se_name s) (se_kind s) st = true) by (apply places_spec; rewrite Ei; exact Sp). congruence. }
      (* it was in the map, or it is the new one *)
      pose proof (proj1 (co_std _ Hc' st i) Hi) as [_ Hf]. rewrite (gr_format _ _ G), (gr_arch _ _ G), Ei in Hf.
      assert (i <= j) as Hij. { destruct (Z_le_dec i j); [assumption|]. exfalso. apply (Hf j s); [lia| |exact Sp]. rewrite E1. now apply zget_snoc_old. }
      assert (first_std o st i) as Hfo.
      { apply (co_std _ Hc') in Hi. destruct Hi as [(s1 & Hs1 & Sp1) Hf1]. rewrite (gr_format _ _ G), (gr_arch _ _ G) in Sp1, Hf1. split.
        - exists s1. split; [|exact Sp1]. rewrite E1, zget_snoc in Hs1. destruct (Z.eqb_spec i (zlen (o_sections o))); [lia|exact Hs1].
        - intros k s2 Hk Hs2. apply (Hf1 k s2 Hk). rewrite E1. now apply zget_snoc_old. }
      apply (co_std _ Hc) in Hfo. congruence.
  - split; [|exact E]. split; [reflexivity|]. eexists. split; [exact E1|]. repeat split.
Qed.
Lemma section_id_keeps o st id o' : o_section_id o st = (id, o') -> keeps o o'.
Proof. intros H Hc. exact (proj1 (section_id_spec _ _ _ _ Hc H) Hc). Qed.
Lemma subsection_keeps o st v r o' : o_add_subsection o st v = (r, o') -> r <> Panic -> keeps o o'.
Proof.
  unfold o_add_subsection. destruct (section_info _ _ _) as [[[sg nm] kd] fl]. destruct (o_format o).
  - destruct (o_add_section_flags _ _ _ _ _) as [id o1] eqn:E. intros [= <- <-] _. eapply add_section_flags_spec; eauto.
  - destruct (o_add_section_flags _ _ _ _ _) as [id o1] eqn:E. intros [= <- <-] _. eapply add_section_flags_spec; eauto.
  - destruct (o_section_id _ _) as [id o1] eqn:E. intros [= <- <-] _. eapply section_id_keeps; eauto.
  - intros [= <- <-]. congruence.
Qed.
(** ** symbols *)
Lemma lookup_name_cons k v l n : lookup_name ((k, v) :: l) n = if bytes_eqb k n then Some v else lookup_name l n.
Proof. unfold lookup_name. cbn [find]. destruct (bytes_eqb k n); reflexivity. Qed.
Lemma map_keeps o n id y : zget (o_symbols o) id = Some y -> linkable (sy_kind y) -> sy_name y = mangled o n -> n <> [] ->
  (forall i, lookup_name (o_map o) n = Some i -> i <= id) -> keeps o (with_map o ((n, id) :: o_map o)).
Proof.
  intros Hy L N Hn Hle [Hsz Hsy Hstd Hmap Hstub Htlv]. split.
  - constructor; cbn [with_map o_sections o_symbols o_std o_map o_stubs o_format o_arch]; auto.
    intros n0 i. rewrite lookup_name_cons. destruct (bytes_eqb n n0) eqn:E; [|apply Hmap]. apply bytes_eqb_eq in E as <-. intros [= <-]. split; [exact Hn|]. exists y. auto.
  - constructor; cbn [with_map o_sections o_symbols o_std o_map o_stubs o_format o_arch o_endian o_prefix o_comdats]; auto using prefix_refl; intros; eauto using sec_grows_refl, sym_grows_refl.
    rewrite lookup_name_cons. destruct (bytes_eqb n n0) eqn:E; [|eexists; split; [eassumption|lia]]. apply bytes_eqb_eq in E as <-. eauto.
Qed.
Lemma sym_named_same y : sym_named y (sy_name y) = y.
Proof. destruct y; reflexivity. Qed.
Lemma add_symbol_other o y r o' : sy_kind y <> YSection -> o_add_symbol o y = (r, o') -> r <> Panic ->
  r = Ok (zlen (o_symbols o)) /\ (is_undef y = true \/ sy_scope y <> ScUnknown) /\
  o' = with_map (with_symbols o (o_symbols o ++ [stored o y])) (if named y then (sy_name y, zlen (o_symbols o)) :: o_map o else o_map o).
Proof.
  intros K. unfold o_add_symbol. destruct (negb (is_undef y) && scope_beq (sy_scope y) ScUnknown) eqn:E; [intros [= <- <-]; congruence|].
  assert (is_undef y = true \/ sy_scope y <> ScUnknown) as Hs.
  { apply andb_false_iff in E as [E|E]; [left; now apply negb_false_iff in E|right]. intros Es. rewrite Es in E. discriminate. }
  assert (forall l, with_map (with_symbols o l) (o_map o) = with_symbols o l) as Wm by (intros; destruct o; reflexivity).
  unfold o_add_raw, stored, named, mangled.
  destruct (sy_kind y) eqn:Ek; try congruence; try (rewrite Wm; intros H Hr; apply pair_equal_spec in H as [<- <-]; auto);
    (destruct (sy_name y) as [|b n] eqn:En; [rewrite Wm; intros H Hr; apply pair_equal_spec in H as [<- <-]; auto|];
     intros H Hr; apply pair_equal_spec in H as [<- <-]; split; [reflexivity|]; split; [exact Hs|]; destruct (o_prefix o); [reflexivity|];
     rewrite <- En, sym_named_same; reflexivity).
Qed.
Lemma add_symbol_keeps o y r o' : o_add_symbol o y = (r, o') -> r <> Panic -> keeps o o'.
Proof.
  intros H Hr Hc. destruct (match sy_kind y with YSection => true | _ => false end) eqn:EK.
  - assert (sy_kind y = YSection) as Ek by (destruct (sy_kind y); congruence). revert H. unfold o_add_symbol.
    destruct (_ && _); [intros [= <- <-]; congruence|]. rewrite Ek. destruct (sy_section y) as [| | | |sec]; try (intros [= <- <-]; congruence).
    destruct (o_section_symbol o sec) as [r1 o1] eqn:E1. pose proof (section_symbol_keeps _ _ _ _ E1) as K1. pose proof (section_symbol_spec _ _ _ _ Hc E1) as S1.
    destruct r1 as [id| |]; cbn [bs]; [|intros [= <- <-]; contradiction|intros [= <- <-]; congruence].
    destruct (K1 ltac:(discriminate) Hc) as [Hc1 G1]. destruct (sy_flags y) as [fl|]; [|intros [= <- <-]; auto].
    destruct (zget (o_symbols o1) id) as [y'|] eqn:Hy; [|intros [= <- <-]; congruence]. intros [= <- <-].
    destruct (touches_keeps o1 (with_symbols o1 (zset (o_symbols o1) id (sym_with_flags y' (Some fl))))) as [Hc2 G2].
    + constructor; try reflexivity; cbn [with_symbols o_sections o_symbols o_comdats]; [apply prefix_refl|apply pointwise_refl; exact sec_ok_refl|].
      apply pointwise_zset with y'; auto using sym_ok_refl. split; [constructor; reflexivity|reflexivity].
    + exact Hc1.
    + split; [exact Hc2|eauto using grows_trans].
  - assert (sy_kind y <> YSection) as Ek by (intros E; rewrite E in EK; discriminate).
    destruct (add_symbol_other _ _ _ _ Ek H Hr) as (-> & _ & ->).
    assert (sy_kind (stored o y) = sy_kind y) as Eks by (unfold stored; destruct (sy_kind y) eqn:E; auto; destruct (sy_name y); auto).
    destruct (add_raw_keeps o (stored o y) _ _ eq_refl) as [Hc1 G1]; [congruence|exact Hc|].
    destruct (named y) eqn:En.
    + destruct (map_keeps (with_symbols o (o_symbols o ++ [stored o y])) (sy_name y) (zlen (o_symbols o)) (stored o y)) as [Hc2 G2].
      * cbn. rewrite zget_snoc, Z.eqb_refl. reflexivity.
      * rewrite Eks. unfold named in En. unfold linkable. destruct (sy_kind y); auto; discriminate.
      * unfold stored, named, mangled in *. destruct (sy_kind y), (sy_name y); try discriminate; reflexivity.
      * intros E. unfold named in En. rewrite E in En. destruct (sy_kind y); discriminate.
      * intros i Hi. apply (co_map _ Hc) in Hi as (_ & y1 & Hy1 & _). apply zget_Some_lt in Hy1. lia.
      * exact Hc1.
      * split; [exact Hc2|eauto using grows_trans].
    + change (with_map (with_symbols o (o_symbols o ++ [stored o y])) (o_map o)) with (with_symbols o (o_symbols o ++ [stored o y])). auto.
Qed.
Lemma place_keeps o id r o' : o_symbol_section_and_offset o id = (r, o') -> r <> Panic -> keeps o o'.
Proof.
  unfold o_symbol_section_and_offset. destruct (zget (o_symbols o) id) as [y|]; [|intros [= <- <-]; congruence].
  assert (forall m, m = (r, o') -> m = match sy_section y with YSec sec => do s, o <- o_section_symbol o sec ;; (Ok (Some (s, sy_value y)), o) | _ => (Ok None, o) end -> r <> Panic -> keeps o o') as G.
  { intros m -> H Hr. destruct (sy_section y) as [| | | |sec]; try (injection H as -> ->; apply keeps_refl).
    destruct (o_section_symbol o sec) as [r1 o1] eqn:E1. pose proof (section_symbol_keeps _ _ _ _ E1) as K1. 
    destruct r1 as [id1| |]; cbn [bs] in H; injection H as -> ->; [apply K1; discriminate|apply K1; discriminate|congruence]. }
  destruct (sy_kind y); try (intros H; apply (G _ H); reflexivity). intros [= <- <-] _. apply keeps_refl.
Qed.
Lemma set_sym_keeps o id v n sec r o' : not_section_symbol o id -> set_sym o id v n sec = (r, o') -> r <> Panic -> keeps o o'.
Proof.
  unfold set_sym. intros Hn. destruct (zget (o_symbols o) id) as [y|] eqn:Hy; [|intros [= <- <-]; congruence]. intros [= <- <-] _. specialize (Hn _ Hy).
  apply touches_keeps. constructor; try reflexivity; cbn [with_symbols o_sections o_symbols o_comdats]; [apply prefix_refl|apply pointwise_refl; exact sec_ok_refl|].
  apply pointwise_zset with y; auto using sym_ok_refl. split; [constructor; reflexivity|congruence].
Qed.
Lemma same_parts o o' : o_format o' = o_format o -> o_arch o' = o_arch o -> o_endian o' = o_endian o -> o_prefix o' = o_prefix o -> o_std o' = o_std o ->
  o_map o' = o_map o -> o_stubs o' = o_stubs o -> o_tlv o' = o_tlv o -> prefix_of (o_comdats o) (o_comdats o') -> o_sections o' = o_sections o -> o_symbols o' = o_symbols o -> keeps o o'.
Proof. intros. apply touches_keeps. constructor; auto; [rewrite H8; apply pointwise_refl; exact sec_ok_refl|rewrite H9; apply pointwise_refl; exact sym_ok_refl]. Qed.
Lemma with_tlv_keeps o id y : o_tlv o = None -> zget (o_symbols o) id = Some y -> sy_kind y = YText -> sy_name y = mangled o (str "_tlv_bootstrap") -> keeps o (with_tlv o (Some id)).
Proof.
  intros Hn Hy K N [Hsz Hsy Hstd Hmap Hstub Htlv]. split.
  - constructor; cbn [with_tlv o_sections o_symbols o_std o_map o_stubs o_tlv]; auto. intros i [= <-]. exists y. auto.
  - constructor; cbn [with_tlv o_sections o_symbols o_std o_map o_stubs o_format o_arch o_endian o_prefix o_comdats o_tlv]; auto using prefix_refl; intros; eauto using sec_grows_refl, sym_grows_refl; try congruence.
    eexists. split; [eassumption|lia].
Qed.
Lemma tlv_spec o r o' : coherent o -> o_tlv_bootstrap o = (r, o') -> r <> Panic -> coherent o' /\ grows o o' /\
  match r with Ok id => o_tlv o' = Some id /\ o_sections o' = o_sections o /\ prefix_of (o_symbols o) (o_symbols o') | _ => False end.
Proof.
  intros Hc. unfold o_tlv_bootstrap. destruct (o_tlv o) eqn:Et; [intros [= <- <-] _; auto using grows_refl, prefix_refl|].
  match goal with |- context [o_add_symbol o ?x] => set (st := x) end. 
  assert (sy_kind st = YText /\ stored o st = sym_named st (mangled o (str "_tlv_bootstrap"))) as (K1 & K3) by (split; reflexivity). clearbody st.
  destruct (o_add_symbol o st) as [r1 o1] eqn:E. intros H Hr.
  assert (r1 <> Panic) as Hr1 by (intros ->; cbn [bs] in H; congruence).
  destruct (add_symbol_keeps _ _ _ _ E Hr1 Hc) as [Hc1 G1]. apply add_symbol_other in E as (-> & _ & E); [|congruence|exact Hr1].
  cbn [bs] in H. apply pair_equal_spec in H as [<- <-].
  assert (zget (o_symbols o1) (zlen (o_symbols o)) = Some (stored o st)) as Hg by (rewrite E; cbn [with_map with_symbols o_symbols]; rewrite zget_snoc, Z.eqb_refl; reflexivity).
  assert (o_tlv o1 = None /\ o_sections o1 = o_sections o /\ prefix_of (o_symbols o) (o_symbols o1) /\ mangled o1 (str "_tlv_bootstrap") = mangled o (str "_tlv_bootstrap")) as (T1 & T2 & T3 & T4).
  { rewrite E. cbn [with_map with_symbols o_tlv o_sections o_symbols]. repeat split; auto. eexists; reflexivity. }
  destruct (with_tlv_keeps o1 (zlen (o_symbols o)) (stored o st) T1 Hg) as [Hc2 G2].
  - rewrite K3. exact K1.
  - rewrite K3, T4. reflexivity.
  - exact Hc1.
  - split; [exact Hc2|]. split; [eauto using grows_trans|]. split; [reflexivity|]. split; [exact T2|exact T3].
Qed.
Lemma tlv_keeps o r o' : o_tlv_bootstrap o = (r, o') -> r <> Panic -> keeps o o'.
Proof. intros H Hr Hc. destruct (tlv_spec _ _ _ Hc H Hr) as (H1 & H2 & _). auto. Qed.
Lemma grows_not_section o o' id : grows o o' -> zget (o_symbols o) id <> None -> not_section_symbol o id -> not_section_symbol o' id.
Proof.
  intros G He Hn y' Hy'. destruct (zget (o_symbols o) id) as [y|] eqn:Hy; [|congruence]. destruct (gr_symbols _ _ G _ _ Hy) as (y2 & Hy2 & [_ K _ _]).
  assert (y2 = y') as <- by congruence. rewrite K. exact (Hn y Hy).
Qed.
Lemma address_size_pos a n : address_size a = Some n -> 1 <= n <= 8.
Proof. destruct a; cbn; intros [= <-]; lia. Qed.
Lemma thread_var_keeps o id r o' : o_add_thread_var o id = (r, o') -> r <> Panic -> keeps o o' /\ (not_section_symbol o id -> coherent o -> match r with Ok i => not_section_symbol o' i /\ zget (o_symbols o') i <> None | _ => True end).
Proof.
  unfold o_add_thread_var. destruct (zget (o_symbols o) id) as [y|] eqn:Hy; [|intros [= <- <-]; congruence].
  assert (forall i, (Ok i, o) = (r, o') -> i = id -> keeps o o' /\ (not_section_symbol o id -> coherent o -> match r with Ok i => not_section_symbol o' i /\ zget (o_symbols o') i <> None | _ => True end)) as G0.
  { intros i [= <- <-] ->. split; [apply keeps_refl|]. intros Hn _. split; [exact Hn|congruence]. }
  destruct (sy_kind y) eqn:Ek; try (intros H _; apply (G0 id); [exact H|reflexivity]). clear G0.
  match goal with |- context [o_add_raw o ?x] => set (st := x) end. assert (sy_kind st = YTls) as Kst by reflexivity. clearbody st.
  destruct (o_add_raw o st) as [init o1] eqn:E1. pose proof (add_raw_keeps _ _ _ _ E1 ltac:(congruence)) as K1.
  assert (zget (o_symbols o1) init = Some st) as Hi by (injection E1 as <- <-; cbn; rewrite zget_snoc, Z.eqb_refl; reflexivity). clear E1.
  destruct (o_section_id o1 StTlsVariables) as [sec o2] eqn:E2. pose proof (section_id_keeps _ _ _ _ E2) as K2. clear E2.
  destruct (address_size (o_arch o2)) as [asz|] eqn:Ea; [|intros [= <- <-]; congruence]. apply address_size_pos in Ea.
  destruct (o_append o2 sec _ asz) as [r3 o3] eqn:E3. destruct r3 as [off| |]; cbn [bs]; [| |intros [= <- <-]; congruence].
  2:{ exfalso. revert E3. unfold o_append, on_section. destruct (zget (o_sections o2) sec) as [s|]; [|discriminate]. pose proof (sec_append_spec s (zeros (asz * 3)) asz ltac:(lia)) as S.
      destruct (sec_append_data s _ _) as [r3 s3]. intros [= -> _]. exact S. }
  assert (0 <= off) as Hoff.
  { revert E3. unfold o_append, on_section. destruct (zget (o_sections o2) sec) as [s|]; [|discriminate]. pose proof (sec_append_spec s (zeros (asz * 3)) asz ltac:(lia)) as S.
    destruct (sec_append_data s _ _) as [r3 s']. intros H. apply pair_equal_spec in H as [-> _]. destruct S as (_ & _ & [S _] & _). pose proof (zlen_nonneg (se_data s)). lia. }
  pose proof (append_keeps _ _ _ _ _ _ (ltac:(unfold u64_ok; lia) : u64_ok asz) E3 ltac:(discriminate)) as K3. clear E3.
  destruct (o_tlv_bootstrap o3) as [r4 o4] eqn:E4. pose proof (tlv_keeps _ _ _ E4) as K4. clear E4.
  destruct r4 as [boot| |]; cbn [bs]; [|intros [= <- <-] _; split; [|auto]|intros [= <- <-]; congruence].
  2:{ eapply keeps_trans; [exact K1|]. intros _ _. eapply keeps_trans; [exact K2|]. intros _ _. eapply keeps_trans; [exact K3|]. intros _ _. apply K4. discriminate. }
  specialize (K4 ltac:(discriminate)).
  destruct (o_add_relocation o4 sec off _ _ _ _) as [r5 o5] eqn:E5. unfold o_add_relocation in E5.
  destruct r5 as [u5| |]; cbn [bs unwrap_r]; try (intros [= <- <-]; congruence).
  assert (keeps o4 o5) as K5 by (eapply internal_keeps; [|exact E5|discriminate]; cbn [ol_offset]; lia). clear E5.
  destruct (o_add_relocation o5 sec (off + asz * 2) _ _ _ _) as [r6 o6] eqn:E6. unfold o_add_relocation in E6.
  destruct r6 as [u6| |]; cbn [bs unwrap_r]; try (intros [= <- <-]; congruence).
  assert (keeps o5 o6) as K6 by (eapply internal_keeps; [|exact E6|discriminate]; cbn [ol_offset]; lia). clear E6.
  assert (keeps o o6) as K.
  { eapply keeps_trans; [exact K1|]. intros _ _. eapply keeps_trans; [exact K2|]. intros _ _. eapply keeps_trans; [exact K3|]. intros _ _.
    eapply keeps_trans; [exact K4|]. intros _ _. eapply keeps_trans; [exact K5|]. intros _ _. exact K6. }
  destruct (set_sym o6 id _ _ _) as [r7 o7] eqn:E7. 
  assert (coherent o -> not_section_symbol o id -> r7 <> Panic -> keeps o6 o7) as K7.
  { intros Hc Hn Hr. destruct (K Hc) as [_ G]. eapply set_sym_keeps; [|exact E7|exact Hr]. eapply grows_not_section; eauto. congruence. }
  assert (not_section_symbol o id) as Hn by (intros y1 Hy1; congruence).
  destruct r7 as [u7| |]; cbn [bs]; intros [= <- <-] Hr; [| |congruence]; (split; [intros Hc; eapply keeps_trans; eauto; intros _ _; apply K7; auto; discriminate|]); [|auto].
  intros _ Hc. destruct (K1 Hc) as [Hc1 G1].
  assert (grows o1 o7) as G.
  { destruct (K2 Hc1) as [Hc2 G2]. destruct (K3 Hc2) as [Hc3 G3]. destruct (K4 Hc3) as [Hc4 G4]. destruct (K5 Hc4) as [Hc5 G5]. destruct (K6 Hc5) as [Hc6 G6].
    destruct (K7 Hc Hn ltac:(discriminate) Hc6) as [Hc7 G7]. eauto 10 using grows_trans. }
  split.
  - eapply grows_not_section; eauto; [congruence|]. intros y1 Hy1. congruence.
  - destruct (gr_symbols _ _ G _ _ Hi) as (y' & Hy' & _). congruence.
Qed.
Lemma set_symbol_data_keeps o id sec off n r o' : not_section_symbol o id -> o_set_symbol_data o id sec off n = (r, o') -> r <> Panic -> keeps o o'.
Proof.
  intros Hn. unfold o_set_symbol_data. destruct (zget (o_symbols o) id) as [y|] eqn:Hy; [|intros [= <- <-]; congruence].
  destruct (scope_beq _ _); [intros [= <- <-]; congruence|]. destruct (o_format o); cbn [bs]; try (intros; eapply set_sym_keeps; eassumption).
  destruct (o_add_thread_var o id) as [r1 o1] eqn:E1. intros H Hr Hc. destruct r1 as [i| |]; cbn [bs] in H.
  - destruct (thread_var_keeps _ _ _ _ E1 ltac:(discriminate)) as [K1 N1]. destruct (N1 Hn Hc) as [N2 N3]. 
    destruct (K1 Hc) as [Hc1 G1]. destruct (set_sym_keeps _ _ _ _ _ _ _ N2 H Hr Hc1) as [Hc2 G2]. split; [exact Hc2|eauto using grows_trans].
  - injection H as <- <-. exact (proj1 (thread_var_keeps _ _ _ _ E1 ltac:(discriminate)) Hc).
  - injection H as <- <-. congruence.
Qed.
Lemma symbol_data_keeps o id sec d al r o' : u64_ok al -> not_section_symbol o id -> o_add_symbol_data o id sec d al = (r, o') -> r <> Panic -> keeps o o'.
Proof.
  intros Ha Hn. unfold o_add_symbol_data. cbv zeta. set (d' := if _ && _ then _ else _). clearbody d'.
  destruct (o_append o sec d' al) as [r1 o1] eqn:E1. intros H Hr Hc. pose proof (append_keeps _ _ _ _ _ _ Ha E1) as K1.
  destruct r1 as [off| |]; cbn [bs] in H; [|injection H as <- <-; apply K1; auto; discriminate|injection H as <- <-; congruence].
  destruct (K1 ltac:(discriminate) Hc) as [Hc1 G1]. destruct (o_set_symbol_data o1 id sec off (zlen d')) as [r2 o2] eqn:E2.
  assert (not_section_symbol o1 id) as Hn1.
  { assert (o_symbols o1 = o_symbols o) as E. { revert E1. unfold o_append, on_section. destruct (zget (o_sections o) sec) as [s|]; [|discriminate]. destruct (sec_append_data s _ _). intros [= _ <-]. reflexivity. }
    intros y Hy. apply Hn. congruence. }
  pose proof (set_symbol_data_keeps _ _ _ _ _ _ _ Hn1 E2) as K2.
  destruct r2 as [u| |]; cbn [bs] in H; injection H as <- <-; [| |congruence]; (destruct (K2 ltac:(discriminate) Hc1) as [Hc2 G2]; split; [exact Hc2|eauto using grows_trans]).
Qed.
Lemma symbol_bss_keeps o id sec n al r o' : u64_ok n -> u64_ok al -> not_section_symbol o id -> o_add_symbol_bss o id sec n al = (r, o') -> r <> Panic -> keeps o o'.
Proof.
  intros Hu Ha Hn. unfold o_add_symbol_bss. cbv zeta. set (d' := if _ && _ then _ else _). assert (u64_ok d') as Hd by (unfold d'; destruct (_ && _); [unfold u64_ok; lia|exact Hu]). clearbody d'.
  destruct (o_append_bss o sec d' al) as [r1 o1] eqn:E1. intros H Hr Hc. pose proof (append_bss_keeps _ _ _ _ _ _ Hd Ha E1) as K1.
  destruct r1 as [off| |]; cbn [bs] in H; [|injection H as <- <-; apply K1; auto; discriminate|injection H as <- <-; congruence].
  destruct (K1 ltac:(discriminate) Hc) as [Hc1 G1]. destruct (o_set_symbol_data o1 id sec off d') as [r2 o2] eqn:E2.
  assert (not_section_symbol o1 id) as Hn1.
  { assert (o_symbols o1 = o_symbols o) as E. { revert E1. unfold o_append_bss, on_section. destruct (zget (o_sections o) sec) as [s|]; [|discriminate]. destruct (sec_append_bss s _ _). intros [= _ <-]. reflexivity. }
    intros y Hy. apply Hn. congruence. }
  pose proof (set_symbol_data_keeps _ _ _ _ _ _ _ Hn1 E2) as K2.
  destruct r2 as [u| |]; cbn [bs] in H; injection H as <- <-; [| |congruence]; (destruct (K2 ltac:(discriminate) Hc1) as [Hc2 G2]; split; [exact Hc2|eauto using grows_trans]).
Qed.
(** ** every call *)
Lemma wrap_ret_inv {A} (f : A -> ret) m r o' : wrap_ret f m = (r, o') -> exists r0, m = (r0, o') /\ (r <> Panic -> r0 <> Panic) /\ (forall x, r = Ok x -> exists a, r0 = Ok a /\ x = f a).
Proof.
  destruct m as [[a| |] o0]; cbn [wrap_ret]; intros [= <- <-]; eexists; (split; [reflexivity|]); (split; [congruence|]); intros x; intros [= <-]; eauto.
Qed.
Lemma call_keeps c o r o' : call_ok c o -> call c o = (r, o') -> r <> Panic -> keeps o o'.
Proof.
  destruct c; cbn [call call_ok]; intros Hok H Hr;
    try (apply wrap_ret_inv in H as (r0 & H & Hr0 & _); specialize (Hr0 Hr)); try (unfold wrap_pure in H; apply pair_equal_spec in H as [_ <-]).
  - destruct (o_add_section o segment name kind) as [id o1] eqn:E. exact (proj1 (add_section_keeps _ _ _ _ _ _ E)).
  - destruct (o_section_id o s) as [id o1] eqn:E. exact (section_id_keeps _ _ _ _ E).
  - eapply subsection_keeps; eauto.
  - eapply set_section_data_keeps; eauto.
  - eapply append_keeps; eauto.
  - exact (append_bss_keeps _ _ _ _ _ _ (proj1 Hok) (proj2 Hok) H Hr0).
  - cbn [o_add_comdat snd]. apply same_parts; try reflexivity. eexists. reflexivity.
  - eapply add_symbol_keeps; eauto.
  - eapply add_symbol_keeps; eauto.
  - destruct (o_add_file o name) as [id o1] eqn:E. apply (add_raw_keeps _ _ _ _ E). discriminate.
  - eapply section_symbol_keeps; eauto.
  - eapply place_keeps; eauto.
  - exact (symbol_data_keeps _ _ _ _ _ _ _ (proj1 Hok) (proj2 Hok) H Hr0).
  - exact (symbol_bss_keeps _ _ _ _ _ _ _ (proj1 Hok) (proj1 (proj2 Hok)) (proj2 (proj2 Hok)) H Hr0).
  - eapply set_symbol_data_keeps; eauto.
  - eapply relocation_keeps; eauto.
  - apply same_parts; auto using prefix_refl.
Qed.
Lemma new_coherent f a e : coherent (o_new f a e).
Proof.
  assert (forall A i (x : A), zget (@nil A) i <> Some x) as N by (intros A i x H; apply zget_Some_lt in H; change (zlen (@nil A)) with 0 in H; lia).
  constructor; cbn [o_new o_sections o_symbols o_std o_map o_stubs].
  - intros id s H. destruct (N _ _ _ H).
  - intros id y. split; [intros (s & H & _); destruct (N _ _ _ H)|intros (s & H & _); destruct (N _ _ _ H)].
  - intros st id. split; [discriminate|]. intros [(s & H & _) _]. destruct (N _ _ _ H).
  - discriminate.
  - discriminate.
  - discriminate.
Qed.
Lemma built_coherent f a e o : built f a e o -> coherent o.
Proof. induction 1; [apply new_coherent|]. exact (proj1 (call_keeps _ _ _ _ H0 H1 H2 IHbuilt)). Qed.

(** * The theorems *)
Lemma later_keeps o o' : later o o' -> keeps o o'.
Proof. induction 1; [apply keeps_refl|]. eapply keeps_trans; [eapply call_keeps; eauto|auto]. Qed.
Lemma append_spec o sec d al r o' : u64_ok al -> o_append o sec d al = (r, o') ->
  match r with
  | Ok off => exists s s', zget (o_sections o) sec = Some s /\ o' = with_sections o (zset (o_sections o) sec s') /\ pow2 al /\ is_bss (se_kind s) = false /\
      aligned_after (zlen (se_data s)) al off /\ s' = sec_with s (off + zlen d) (Z.max (se_align s) al) (se_data s ++ zeros (off - zlen (se_data s)) ++ d)
  | Err => False
  | Panic => forall s, zget (o_sections o) sec = Some s ->
      is_bss (se_kind s) = true \/ ~ pow2 al \/ exists off, aligned_after (zlen (se_data s)) al off /\ 2 ^ 63 <= off + zlen d
  end.
Proof.
  intros Ha. unfold o_append, on_section. destruct (zget (o_sections o) sec) as [s|] eqn:Hs; [|intros [= <- <-]; discriminate].
  pose proof (sec_append_spec s d al Ha) as S. destruct (sec_append_data s d al) as [r1 s1]. intros H. apply pair_equal_spec in H as [<- <-].
  destruct r1 as [off| |]; [|exact S|intros s0 [= <-]; exact S]. destruct S as (S1 & S2 & S3 & S4 & S5 & S6 & _). exists s, s1. rewrite <- S5, <- S6. auto 10.
Qed.
Lemma append_bss_spec o sec n al r o' : coherent o -> u64_ok n -> u64_ok al -> o_append_bss o sec n al = (r, o') ->
  match r with
  | Ok off => exists s s', zget (o_sections o) sec = Some s /\ o' = with_sections o (zset (o_sections o) sec s') /\ pow2 al /\ is_bss (se_kind s) = true /\
      aligned_after (se_size s) al off /\ s' = sec_with s (off + n) (Z.max (se_align s) al) (se_data s) /\ off + n < 2 ^ 64
  | Err => False
  | Panic => forall s, zget (o_sections o) sec = Some s ->
      is_bss (se_kind s) = false \/ ~ pow2 al \/ exists off, aligned_after (se_size s) al off /\ 2 ^ 64 <= off + n
  end.
Proof.
  intros Hc Hn Ha. unfold o_append_bss, on_section. destruct (zget (o_sections o) sec) as [s|] eqn:Hs; [|intros [= <- <-]; discriminate].
  pose proof (sec_append_bss_spec s n al Ha (proj1 (co_size _ Hc _ _ Hs)) (proj1 Hn)) as S. destruct (sec_append_bss s n al) as [r1 s1]. intros H. apply pair_equal_spec in H as [<- <-].
  destruct r1 as [off| |]; [|exact S|intros s0 [= <-]; exact S]. destruct S as (S1 & S2 & S3 & S4 & S5). exists s, s1. auto 10.
Qed.
Lemma append_later f a e o sec d al off o' o'' : built f a e o -> u64_ok al -> o_append o sec d al = (Ok off, o') -> later o' o'' ->
  exists s, zget (o_sections o'') sec = Some s /\ data_at s off d /\ off + zlen d <= zlen (se_data s) /\ (se_align s >= al \/ off + zlen d = 0).
Proof.
  intros Hb Ha H Hl. pose proof (append_keeps _ _ _ _ _ _ Ha H ltac:(discriminate) (built_coherent _ _ _ _ Hb)) as [Hc' _].
  destruct (append_spec _ _ _ _ _ _ Ha H) as (s & s' & Hs & -> & Hp & Hb' & Ho & Es'). pose proof (zget_Some_lt _ _ _ Hs).
  assert (zget (o_sections (with_sections o (zset (o_sections o) sec s'))) sec = Some s') as Hs' by (cbn; rewrite zget_zset, Z.eqb_refl by lia; reflexivity).
  destruct (later_keeps _ _ Hl Hc') as [_ G]. destruct (gr_sections _ _ G _ _ Hs') as (s'' & Hs'' & [_ _ _ Gal Gd _ (new & Er & Hn) _]).
  exists s''. split; [exact Hs''|]. unfold aligned_after in Ho. pose proof (zlen_nonneg (se_data s)). pose proof (zlen_nonneg d).
  assert (zlen (zeros (off - zlen (se_data s))) = off - zlen (se_data s)) as Hz by (apply zlen_zeros; lia).
  assert (zlen (se_data s') = off + zlen d) as El by (rewrite Es'; cbn [sec_with se_data]; rewrite !zlen_app, Hz; lia).
  split; [|split; [lia|]].
  - intros i Hi. destruct (Hn (off + i) ltac:(lia)) as [E|(r & Hr & Hro)]; [left|right; exists r; split; [rewrite Er; apply in_or_app; auto|exact Hro]].
    rewrite E, Es'. cbn [sec_with se_data]. rewrite zget_app2 by lia. rewrite zget_app2 by lia. f_equal. lia.
  - destruct Gal as [Gal|Gal]; [left; rewrite Es' in Gal; cbn [sec_with se_align] in Gal; lia|right]. rewrite Gal in El. change (zlen (@nil Z)) with 0 in El. lia.
Qed.
Lemma macho_abs a e off size fl' ad' v imp : translated FMachO a e off (RFgeneric KAbsolute EGeneric size) 0 fl' ad' -> adjust_addend FMachO a fl' ad' = Ok (v, imp) -> v = 0.
Proof.
  intros (t & pcrel & len & Ht & ->). unfold macho_translate in Ht. cbn [adjust_addend]. 
  destruct (macho_length a size); try discriminate. destruct (macho_type a KAbsolute EGeneric) as [[p ty]| |] eqn:Ety; try discriminate.
  assert (p = false) as -> by (destruct a; cbn in Ety; congruence).
  assert (macho_subtracts a KAbsolute EGeneric = false) as Es by (destruct a; reflexivity). rewrite Es in Ht. cbn in Ht. injection Ht as <- <- <- <-.
  cbn. intros [= <- _]. reflexivity.
Qed.
Lemma zero_reloc o o' sec off sym size : o_format o = FMachO -> relocates o o' sec off sym 0 (RFgeneric KAbsolute EGeneric size) ->
  exists s s' r, zget (o_sections o) sec = Some s /\ zget (o_sections o') sec = Some s' /\ se_relocs s' = se_relocs s ++ [r] /\ se_data s' = se_data s /\
    ol_offset r = off /\ ol_symbol r = sym /\ ol_addend r = 0.
Proof.
  intros Ef (s & s' & r & fl' & ad' & v & imp & Hs & Hs' & Ht & Ha & (_ & _ & _ & _ & _ & _ & Er & Hd) & Eo & Ey & _). rewrite Ef in Ht, Ha.
  pose proof (macho_abs _ _ _ _ _ _ _ _ Ht Ha) as ->. cbn [Z.eqb negb] in Hd. rewrite andb_false_r in Hd. destruct Hd as [Hd1 Hd2]. exists s, s', r. auto 10.
Qed.
Lemma thread_var_spec o id y init o' : coherent o -> o_format o = FMachO -> zget (o_symbols o) id = Some y -> sy_kind y = YTls -> o_add_thread_var o id = (Ok init, o') ->
  init = zlen (o_symbols o) /\ exists asz tv off boot s r1 r2 l, address_size (o_arch o) = Some asz /\ lookup_std (o_std o') StTlsVariables = Some tv /\ o_tlv o' = Some boot /\
    zget (o_symbols o') init = Some {| sy_name := sy_name y ++ str "$tlv$init"; sy_value := 0; sy_size := 0; sy_kind := YTls; sy_scope := ScCompilation;
      sy_weak := false; sy_section := YUndefined; sy_flags := None |} /\
    zget (o_symbols o') id = Some (sym_at y off (asz * 3) (YSec tv)) /\
    zget (o_sections o') tv = Some s /\ 0 <= off /\ (asz | off) /\ off + 3 * asz = zlen (se_data s) /\ zslice off (3 * asz) (se_data s) = zeros (3 * asz) /\
    se_relocs s = l ++ [r1; r2] /\ ol_offset r1 = off /\ ol_symbol r1 = boot /\ ol_addend r1 = 0 /\ ol_offset r2 = off + 2 * asz /\ ol_symbol r2 = init /\ ol_addend r2 = 0.
Proof.
  intros Hc Ef Hy Ky. unfold o_add_thread_var. rewrite Hy, Ky.
  match goal with |- context [o_add_raw o ?x] => set (st := x) end. assert (sy_kind st = YTls) as Kst by reflexivity. clearbody st.
  destruct (o_add_raw o st) as [init0 o1] eqn:E1. destruct (add_raw_keeps _ _ _ _ E1 ltac:(congruence) Hc) as [Hc1 G1].
  injection E1 as <- <-. set (o1 := with_symbols o _) in *.
  assert (o_symbols o1 = o_symbols o ++ [st]) as Y1 by reflexivity. clearbody o1.
  destruct (o_section_id o1 StTlsVariables) as [sec o2] eqn:E2. destruct (section_id_spec _ _ _ _ Hc1 E2) as (K2 & L2 & X2 & Y2 & _). destruct (K2 Hc1) as [Hc2 G2]. clear E2 K2.
  destruct (address_size (o_arch o2)) as [asz|] eqn:Ea; [|discriminate]. pose proof (address_size_pos _ _ Ea) as Ba.
  destruct (o_append o2 sec _ asz) as [r3 o3] eqn:E3. assert (u64_ok asz) as Ua by (unfold u64_ok; lia).
  pose proof (append_keeps _ _ _ _ _ _ Ua E3) as K3. apply (append_spec _ _ _ _ _ _ Ua) in E3. destruct r3 as [off| |]; cbn [bs]; [|discriminate|discriminate].
  destruct (K3 ltac:(discriminate) Hc2) as [Hc3 G3]. clear K3.
  destruct E3 as (s2 & s3 & Hs2 & Eo3 & _ & _ & Ho & Es3). pose proof (zget_Some_lt _ _ _ Hs2) as B2.
  assert (zget (o_sections o3) sec = Some s3 /\ o_symbols o3 = o_symbols o2) as (Hs3 & Y3) by (rewrite Eo3; cbn [with_sections o_sections o_symbols]; rewrite zget_zset, Z.eqb_refl by lia; auto).
  destruct (o_tlv_bootstrap o3) as [r4 o4] eqn:E4. assert (r4 <> Panic -> coherent o4 /\ grows o3 o4 /\
    match r4 with Ok id => o_tlv o4 = Some id /\ o_sections o4 = o_sections o3 /\ prefix_of (o_symbols o3) (o_symbols o4) | _ => False end) as K4 by (intros; eapply tlv_spec; eauto).
  destruct r4 as [boot| |]; cbn [bs]; [|discriminate|discriminate]. destruct (K4 ltac:(discriminate)) as (Hc4 & G4 & T4 & Sec4 & Y4).
  assert (o_format o4 = FMachO) as Ef4 by (rewrite (gr_format _ _ G4), (gr_format _ _ G3), (gr_format _ _ G2), (gr_format _ _ G1); exact Ef).
  unfold aligned_after in Ho. pose proof (zlen_nonneg (se_data s2)).
  destruct (o_add_relocation o4 sec off _ _ _ _) as [r5 o5] eqn:E5. unfold o_add_relocation in E5.
  destruct r5 as [u5| |]; cbn [bs unwrap_r]; try discriminate.
  assert (keeps o4 o5) as K5 by (eapply internal_keeps; [|exact E5|discriminate]; cbn [ol_offset]; lia). destruct (K5 Hc4) as [Hc5 G5].
  apply (internal_spec _ _ _ _ _ Hc4) in E5; [|cbn [ol_offset]; lia]. cbn [ol_offset ol_symbol ol_addend ol_flags] in E5. destruct E5 as [R5 (O5 & Y5 & _)].
  destruct R5 as (sym5 & T5 & R5); [congruence|]. rewrite Ef4 in T5. cbn in T5. subst sym5.
  apply (zero_reloc _ _ _ _ _ _ Ef4) in R5 as (s4 & s5 & r1 & Hs4 & Hs5 & Er5 & Ed5 & Eo5 & Ey5 & Ead5). assert (s4 = s3) as -> by congruence.
  assert (o_format o5 = FMachO) as Ef5 by (rewrite (gr_format _ _ G5); exact Ef4).
  destruct (o_add_relocation o5 sec (off + asz * 2) _ _ _ _) as [r6 o6] eqn:E6. unfold o_add_relocation in E6.
  destruct r6 as [u6| |]; cbn [bs unwrap_r]; try discriminate.
  assert (keeps o5 o6) as K6 by (eapply internal_keeps; [|exact E6|discriminate]; cbn [ol_offset]; lia). destruct (K6 Hc5) as [Hc6 G6].
  apply (internal_spec _ _ _ _ _ Hc5) in E6; [|cbn [ol_offset]; lia]. cbn [ol_offset ol_symbol ol_addend ol_flags] in E6. destruct E6 as [R6 (O6 & Y6 & _)].
  destruct R6 as (sym6 & T6 & R6); [congruence|]. rewrite Ef5 in T6. cbn in T6. subst sym6.
  apply (zero_reloc _ _ _ _ _ _ Ef5) in R6 as (s5' & s6 & r2 & Hs5' & Hs6 & Er6 & Ed6 & Eo6 & Ey6 & Ead6). assert (s5' = s5) as -> by congruence.
  assert (prefix_of (o_symbols o1) (o_symbols o6)) as Y16.
  { rewrite <- Y2, <- Y3. eapply prefix_trans; [exact Y4|]. eapply prefix_trans; [exact Y5|exact Y6]. }
  assert (zget (o_symbols o6) id = Some y) as Hy6 by (eapply prefix_zget; [exact Y16|]; rewrite Y1; apply zget_snoc_old; exact Hy).
  assert (zget (o_symbols o6) (zlen (o_symbols o)) = Some st) as Hi6 by (eapply prefix_zget; [exact Y16|]; rewrite Y1, zget_snoc, Z.eqb_refl; reflexivity).
  unfold set_sym. rewrite Hy6. cbn [bs]. intros HH. apply pair_equal_spec in HH as [HI <-]. injection HI as <-. split; [reflexivity|].
  pose proof (zget_Some_lt _ _ _ Hy) as By. pose proof (zget_Some_lt _ _ _ Hy6) as By6.
  exists asz, sec, off, boot, s6, r1, r2, (se_relocs s3).
  assert (zlen (zeros (off - zlen (se_data s2))) = off - zlen (se_data s2)) as Hz by (apply zlen_zeros; lia).
  assert (zlen (zeros (asz * 3)) = asz * 3) as Hz3 by (apply zlen_zeros; lia).
  split. { rewrite <- Ea, (gr_arch _ _ G2), (gr_arch _ _ G1). reflexivity. }
  cbn [with_symbols o_std o_tlv o_symbols o_sections].
  split. { apply (gr_std _ _ G6), (gr_std _ _ G5), (gr_std _ _ G4), (gr_std _ _ G3). exact L2. }
  split. { apply (gr_tlv _ _ G6), (gr_tlv _ _ G5). exact T4. }
  split. { rewrite zget_zset by lia. destruct (Z.eqb_spec (zlen (o_symbols o)) id); [lia|]. exact Hi6. }
  split. { rewrite zget_zset, Z.eqb_refl by lia. reflexivity. }
  split; [exact Hs6|]. split; [lia|]. split; [apply Ho|].
  assert (se_data s6 = se_data s2 ++ zeros (off - zlen (se_data s2)) ++ zeros (asz * 3)) as Ed by (rewrite Ed6, Ed5, Es3; reflexivity).
  split. { rewrite Ed, !zlen_app, Hz, Hz3. lia. }
  split. { rewrite Ed, app_assoc. replace (3 * asz) with (asz * 3) by lia. rewrite <- (app_nil_r (zeros (asz * 3))) at 1. apply zslice_app_eq; rewrite ?zlen_app, ?Hz, ?Hz3; lia. }
  split. { rewrite Er6, Er5, <- app_assoc. reflexivity. }
  repeat split; auto; lia.
Qed.

(** ** data given to symbols *)
Lemma symbol_data_spec o id sec d al off o' y : u64_ok al -> zget (o_symbols o) id = Some y -> o_format o <> FMachO \/ sy_kind y <> YTls ->
  o_add_symbol_data o id sec d al = (Ok off, o') ->
  exists o1, o_append o sec (datum o d) al = (Ok off, o1) /\ sy_scope y <> ScUnknown /\
    o' = with_symbols o1 (zset (o_symbols o) id (sym_at y off (zlen (datum o d)) (YSec sec))).
Proof.
  intros Ha Hy Hk. unfold o_add_symbol_data. cbv zeta. fold (datum o d).
  destruct (o_append o sec (datum o d) al) as [r1 o1] eqn:E1. destruct r1 as [off1| |]; cbn [bs]; [|discriminate|discriminate].
  destruct (append_spec _ _ _ _ _ _ Ha E1) as (s & s' & Hs & Eo1 & _).
  assert (o_symbols o1 = o_symbols o /\ o_format o1 = o_format o) as (Y & F) by (rewrite Eo1; split; reflexivity).
  unfold o_set_symbol_data. rewrite Y, Hy. destruct (scope_beq (sy_scope y) ScUnknown) eqn:Esc; [discriminate|].
  assert (match o_format o1 with FMachO => o_add_thread_var o1 id | _ => (Ok id, o1) end = (Ok id, o1)) as ->.
  { rewrite F. destruct (o_format o); try reflexivity. unfold o_add_thread_var. rewrite Y, Hy. destruct (sy_kind y); try reflexivity. destruct Hk; congruence. }
  cbn [bs]. unfold set_sym. rewrite Y, Hy. cbn [bs]. intros H. apply pair_equal_spec in H as [HI <-]. injection HI as <-. exists o1. split; [reflexivity|]. split; [|reflexivity].
  intros E. rewrite E in Esc. discriminate.
Qed.
Lemma symbol_bss_spec o id sec n al off o' y : coherent o -> u64_ok n -> u64_ok al -> zget (o_symbols o) id = Some y -> o_format o <> FMachO \/ sy_kind y <> YTls ->
  o_add_symbol_bss o id sec n al = (Ok off, o') ->
  exists o1, o_append_bss o sec (bss_size o n) al = (Ok off, o1) /\ sy_scope y <> ScUnknown /\
    o' = with_symbols o1 (zset (o_symbols o) id (sym_at y off (bss_size o n) (YSec sec))).
Proof.
  intros Hc Hn Ha Hy Hk. unfold o_add_symbol_bss. cbv zeta. fold (bss_size o n). assert (u64_ok (bss_size o n)) as Hb by (unfold bss_size; destruct (_ && _); [unfold u64_ok; lia|exact Hn]).
  destruct (o_append_bss o sec (bss_size o n) al) as [r1 o1] eqn:E1. destruct r1 as [off1| |]; cbn [bs]; [|discriminate|discriminate].
  destruct (append_bss_spec _ _ _ _ _ _ Hc Hb Ha E1) as (s & s' & Hs & Eo1 & _).
  assert (o_symbols o1 = o_symbols o /\ o_format o1 = o_format o) as (Y & F) by (rewrite Eo1; split; reflexivity).
  unfold o_set_symbol_data. rewrite Y, Hy. destruct (scope_beq (sy_scope y) ScUnknown) eqn:Esc; [discriminate|].
  assert (match o_format o1 with FMachO => o_add_thread_var o1 id | _ => (Ok id, o1) end = (Ok id, o1)) as ->.
  { rewrite F. destruct (o_format o); try reflexivity. unfold o_add_thread_var. rewrite Y, Hy. destruct (sy_kind y); try reflexivity. destruct Hk; congruence. }
  cbn [bs]. unfold set_sym. rewrite Y, Hy. cbn [bs]. intros H. apply pair_equal_spec in H as [HI <-]. injection HI as <-. exists o1. split; [reflexivity|]. split; [|reflexivity].
  intros E. rewrite E in Esc. discriminate.
Qed.
(** ** what [symbol_id] finds *)
Lemma fs_map o o' : o_map o' = o_map o -> finds_same o o'.
Proof. intros E n _. unfold o_symbol_id. now rewrite E. Qed.
Lemma fs_trans a b c : finds_same a b -> finds_same b c -> finds_same a c.
Proof. intros H1 H2 n Hn. rewrite H2, H1 by assumption. reflexivity. Qed.
Lemma on_section_map {A} o id (f : osec -> out A * osec) r o' : on_section o id f = (r, o') -> o_map o' = o_map o.
Proof. unfold on_section. destruct (zget _ _); [destruct (f _)|]; intros [= _ <-]; reflexivity. Qed.
Lemma section_symbol_map o id r o' : o_section_symbol o id = (r, o') -> o_map o' = o_map o.
Proof.
  unfold o_section_symbol, o_add_raw. destruct (zget _ _) as [s|]; [|intros [= _ <-]; reflexivity]. destruct (se_symbol s); [intros [= _ <-]; reflexivity|].
  intros H. apply pair_equal_spec in H as [_ <-]. reflexivity.
Qed.
Lemma relocation_map o sec off y ad sub fl r o' : coherent o -> u64_ok off -> o_add_relocation o sec off y ad sub fl = (r, o') -> r <> Panic -> o_map o' = o_map o.
Proof.
  intros Hc Ho. unfold o_add_relocation.
  assert (forall rr, ol_offset rr = off -> o_add_reloc_internal o sec rr = (r, o') -> r <> Panic -> o_map o' = o_map o) as G.
  { intros rr E H Hr. apply (internal_spec _ _ _ _ _ Hc) in H; [|rewrite E; apply Ho]. destruct r as [u| |]; [| |congruence].
    - destruct H as [_ (_ & _ & M & _)]. exact M.
    - destruct H as (_ & _ & M & _). exact M. }
  destruct sub, (o_format o); try (apply G; reflexivity); intros [= _ <-] _; reflexivity.
Qed.
Lemma tlv_finds o r o' : o_tlv_bootstrap o = (r, o') -> r <> Panic -> finds_same o o'.
Proof.
  unfold o_tlv_bootstrap. destruct (o_tlv o); [intros [= _ <-] _; apply fs_map; reflexivity|].
  match goal with |- context [o_add_symbol o ?x] => set (st := x) end. 
  assert (sy_kind st = YText /\ sy_name st = str "_tlv_bootstrap" /\ named st = true) as (K1 & K2 & K3) by (repeat split). clearbody st.
  destruct (o_add_symbol o st) as [r1 o1] eqn:E. intros H Hr. assert (r1 <> Panic) as Hr1 by (intros ->; cbn [bs] in H; congruence).
  apply add_symbol_other in E as (-> & _ & E); [|congruence|exact Hr1]. cbn [bs] in H. apply pair_equal_spec in H as [_ <-].
  intros n Hn. rewrite E, K3, K2. unfold o_symbol_id. cbn [with_tlv with_map o_map]. rewrite lookup_name_cons. 
  destruct (bytes_eqb _ n) eqn:Eb; [|reflexivity]. apply bytes_eqb_eq in Eb. congruence.
Qed.
Lemma thread_var_finds o id r o' : coherent o -> o_add_thread_var o id = (r, o') -> r <> Panic -> finds_same o o'.
Proof.
  intros Hc. unfold o_add_thread_var. destruct (zget (o_symbols o) id) as [y|] eqn:Hy; [|intros [= <- <-]; congruence].
  destruct (sy_kind y) eqn:Ek; try (intros [= _ <-] _; apply fs_map; reflexivity).
  match goal with |- context [o_add_raw o ?x] => set (st := x) end. assert (sy_kind st = YTls) as Kst by reflexivity. clearbody st.
  destruct (o_add_raw o st) as [init o1] eqn:E1. destruct (add_raw_keeps _ _ _ _ E1 ltac:(congruence) Hc) as [Hc1 _].
  assert (o_map o1 = o_map o) as M1 by (injection E1 as _ <-; reflexivity).
  destruct (o_section_id o1 StTlsVariables) as [sec o2] eqn:E2. destruct (section_id_spec _ _ _ _ Hc1 E2) as (K2 & _ & _ & _ & M2 & _). destruct (K2 Hc1) as [Hc2 _].
  destruct (address_size (o_arch o2)) as [asz|] eqn:Ea; [|intros [= <- <-]; congruence]. apply address_size_pos in Ea.
  destruct (o_append o2 sec _ asz) as [r3 o3] eqn:E3. assert (u64_ok asz) as Ua by (unfold u64_ok; lia).
  pose proof (on_section_map _ _ _ _ _ E3) as M3. pose proof (append_keeps _ _ _ _ _ _ Ua E3) as K3. apply (append_spec _ _ _ _ _ _ Ua) in E3.
  destruct r3 as [off| |]; cbn [bs]; [|contradiction|intros [= <- <-]; congruence].
  destruct E3 as (s2 & s3 & _ & _ & _ & _ & [Ho _] & _). pose proof (zlen_nonneg (se_data s2)).
  destruct (K3 ltac:(discriminate) Hc2) as [Hc3 _].
  destruct (o_tlv_bootstrap o3) as [r4 o4] eqn:E4. destruct r4 as [boot| |]; cbn [bs].
  2:{ intros [= <- <-] Hr. exact (fs_trans _ _ _ (fs_map o o3 ltac:(congruence)) (tlv_finds _ _ _ E4 ltac:(discriminate))). }
  2:{ intros [= <- <-]. congruence. }
  pose proof (tlv_finds _ _ _ E4 ltac:(discriminate)) as M4. destruct (tlv_keeps _ _ _ E4 ltac:(discriminate) Hc3) as [Hc4 _].
  assert (finds_same o o4) as F4 by (apply (fs_trans _ o3); [apply fs_map; congruence|exact M4]).
  destruct (o_add_relocation o4 sec off _ _ _ _) as [r5 o5] eqn:E5. 
  destruct r5 as [u5| |]; cbn [bs unwrap_r]; try (intros [= <- <-]; congruence).
  unfold o_add_relocation in E5. assert (keeps o4 o5) as K5 by (eapply internal_keeps; [|exact E5|discriminate]; cbn [ol_offset]; lia). destruct (K5 Hc4) as [Hc5 _].
  apply (internal_spec _ _ _ _ _ Hc4) in E5; [|cbn [ol_offset]; lia]. destruct E5 as [_ (_ & _ & M5 & _)].
  destruct (o_add_relocation o5 sec _ _ _ _ _) as [r6 o6] eqn:E6. 
  destruct r6 as [u6| |]; cbn [bs unwrap_r]; try (intros [= <- <-]; congruence).
  unfold o_add_relocation in E6. apply (internal_spec _ _ _ _ _ Hc5) in E6; [|cbn [ol_offset]; lia]. destruct E6 as [_ (_ & _ & M6 & _)].
  intros HH Hr. apply (fs_trans _ o4); [exact F4|]. apply fs_map. unfold set_sym in HH. destruct (zget (o_symbols o6) id); cbn [bs] in H; injection HH as <- <-; [|congruence].
  cbn [with_symbols o_map]. congruence.
Qed.
Lemma set_symbol_data_finds o id sec off n r o' : coherent o -> o_set_symbol_data o id sec off n = (r, o') -> r <> Panic -> finds_same o o'.
Proof.
  intros Hc. unfold o_set_symbol_data. destruct (zget (o_symbols o) id); [|intros [= <- <-]; congruence]. destruct (scope_beq _ _); [intros [= <- <-]; congruence|].
  assert (forall r1 o1, match o_format o with FMachO => o_add_thread_var o id | _ => (Ok id, o) end = (r1, o1) -> r1 <> Panic -> finds_same o o1) as G.
  { intros r1 o1 H Hr. destruct (o_format o); try (injection H as _ <-; apply fs_map; reflexivity). eapply thread_var_finds; eauto. }
  destruct (match o_format o with FMachO => _ | _ => _ end) as [r1 o1]. specialize (G r1 o1 eq_refl).
  destruct r1 as [i| |]; cbn [bs]; [|intros [= <- <-]; intros _; apply G; discriminate|intros [= <- <-]; congruence].
  unfold set_sym. destruct (zget (o_symbols o1) i); intros [= <- <-] Hr; [|congruence]. apply (fs_trans _ o1); [apply G; discriminate|apply fs_map; reflexivity].
Qed.
Lemma call_finds c o r o' : coherent o -> call_ok c o -> call c o = (r, o') -> r <> Panic -> match c with OAddSymbol _ | OAddCommon _ _ _ => False | _ => True end -> finds_same o o'.
Proof.
  intros Hc. destruct c; cbn [call call_ok]; intros Hok H Hr HC;
    try (apply wrap_ret_inv in H as (r0 & H & Hr0 & _); specialize (Hr0 Hr)); try (unfold wrap_pure in H; apply pair_equal_spec in H as [_ <-]); try contradiction.
  - destruct (o_add_section o segment name kind) as [id o1] eqn:E. apply fs_map. now apply add_section_keeps in E.
  - destruct (o_section_id o s) as [id o1] eqn:E. apply fs_map. now apply (section_id_spec _ _ _ _ Hc) in E.
  - apply fs_map. revert H. unfold o_add_subsection. destruct (section_info _ _ _) as [[[sg nm] kd] fl]. destruct (o_format o).
    + destruct (o_add_section_flags _ _ _ _ _) as [id o1] eqn:E. intros [= <- <-]. now apply add_section_flags_spec in E.
    + destruct (o_add_section_flags _ _ _ _ _) as [id o1] eqn:E. intros [= <- <-]. now apply add_section_flags_spec in E.
    + destruct (o_section_id _ _) as [id o1] eqn:E. intros [= <- <-]. now apply (section_id_spec _ _ _ _ Hc) in E.
    + intros [= <- <-]. congruence.
  - apply fs_map. exact (on_section_map _ _ _ _ _ H).
  - apply fs_map. exact (on_section_map _ _ _ _ _ H).
  - apply fs_map. exact (on_section_map _ _ _ _ _ H).
  - apply fs_map. reflexivity.
  - apply fs_map. reflexivity.
  - apply fs_map. exact (section_symbol_map _ _ _ _ H).
  - apply fs_map. revert H. unfold o_symbol_section_and_offset. destruct (zget (o_symbols o) sym) as [y|]; [|intros [= _ <-]; reflexivity].
    assert (forall sec, (do s, o <- o_section_symbol o sec ;; (Ok (Some (s, sy_value y)), o)) = (r0, o') -> o_map o' = o_map o) as G.
    { intros sec. destruct (o_section_symbol o sec) as [[]o1] eqn:E; cbn [bs]; intros [= _ <-]; exact (section_symbol_map _ _ _ _ E). }
    destruct (sy_kind y); try (intros [= _ <-]; reflexivity); (destruct (sy_section y); try (intros [= _ <-]; reflexivity); apply G).
  - destruct Hok as [Ha Hn]. revert H. unfold o_add_symbol_data. cbv zeta. set (d' := if _ && _ then _ else _). clearbody d'.
    destruct (o_append o sec d' align) as [r1 o1] eqn:E1. pose proof (append_keeps _ _ _ _ _ _ Ha E1) as K1. apply on_section_map in E1.
    destruct r1 as [off| |]; cbn [bs]; [|intros [= <- <-]; apply fs_map; exact E1|intros [= <- <-]; congruence].
    destruct (K1 ltac:(discriminate) Hc) as [Hc1 _]. destruct (o_set_symbol_data o1 sym sec off (zlen d')) as [r2 o2] eqn:E2.
    pose proof (set_symbol_data_finds _ _ _ _ _ _ _ Hc1 E2) as F.
    destruct r2 as [u| |]; cbn [bs]; intros [= <- <-]; [| |congruence]; (apply (fs_trans _ o1); [apply fs_map; exact E1|apply F; discriminate]).
  - destruct Hok as (Hu & Ha & Hn). revert H. unfold o_add_symbol_bss. cbv zeta. set (d' := if _ && _ then _ else _). assert (u64_ok d') as Hd by (unfold d'; destruct (_ && _); [unfold u64_ok; lia|exact Hu]). clearbody d'.
    destruct (o_append_bss o sec d' align) as [r1 o1] eqn:E1. pose proof (append_bss_keeps _ _ _ _ _ _ Hd Ha E1) as K1. apply on_section_map in E1.
    destruct r1 as [off| |]; cbn [bs]; [|intros [= <- <-]; apply fs_map; exact E1|intros [= <- <-]; congruence].
    destruct (K1 ltac:(discriminate) Hc) as [Hc1 _]. destruct (o_set_symbol_data o1 sym sec off d') as [r2 o2] eqn:E2.
    pose proof (set_symbol_data_finds _ _ _ _ _ _ _ Hc1 E2) as F.
    destruct r2 as [u| |]; cbn [bs]; intros [= <- <-]; [| |congruence]; (apply (fs_trans _ o1); [apply fs_map; exact E1|apply F; discriminate]).
  - eapply set_symbol_data_finds; eauto.
  - apply fs_map. eapply relocation_map; eauto.
  - apply fs_map. reflexivity.
Qed.
(** ** the calls of C29 *)
Lemma built_format f a e o : built f a e o -> o_format o = f /\ o_arch o = a /\ o_endian o = e.
Proof.
  intros Hb. induction Hb as [|o c r o' Hb IH Hok H Hr]; [auto|]. pose proof (built_coherent _ _ _ _ Hb) as Hc. destruct (call_keeps _ _ _ _ Hok H Hr Hc) as [_ G].
  rewrite (gr_format _ _ G), (gr_arch _ _ G), (gr_endian _ _ G). exact IH.
Qed.
Lemma section_symbol_unique o y y' sec : coherent o -> is_section_symbol o y sec -> is_section_symbol o y' sec -> y' = y.
Proof. intros Hc H1 H2. apply (co_symbol _ Hc) in H1 as (s1 & H1 & E1). apply (co_symbol _ Hc) in H2 as (s2 & H2 & E2). congruence. Qed.
Lemma add_section_symbol_spec f a e o y sec r o' : built f a e o -> sy_kind y = YSection -> sy_section y = YSec sec -> call (OAddSymbol y) o = (r, o') -> r <> Panic ->
  exists id, r = Ok (RId id) /\ is_section_symbol o' id sec /\ (forall id', is_section_symbol o' id' sec -> id' = id) /\ (forall id', is_section_symbol o id' sec -> id' = id).
Proof.
  intros Hb K S H Hr. pose proof (built_coherent _ _ _ _ Hb) as Hc. pose proof (call_keeps (OAddSymbol y) o r o' I H Hr Hc) as [Hc' G].
  assert (exists id, r = Ok (RId id) /\ is_section_symbol o' id sec) as (id & -> & Hid).
  { cbn [call] in H. unfold o_add_symbol in H. destruct (_ && _); [cbn in H; congruence|]. rewrite K, S in H.
    destruct (o_section_symbol o sec) as [r1 o1] eqn:E. pose proof (section_symbol_spec _ _ _ _ Hc E) as P. destruct r1 as [id| |]; cbn [bs] in H; [|contradiction|cbn in H; congruence].
    destruct P as (P & _). destruct (sy_flags y) as [fl|]; [|cbn in H; injection H as <- <-; eauto].
    destruct (zget (o_symbols o1) id) as [y'|] eqn:Hy; [|cbn in H; congruence]. cbn [wrap_ret] in H. injection H as <- <-. exists id. split; [reflexivity|].
    destruct P as (y1 & Hy1 & K1 & S1). assert (y1 = y') as -> by congruence. exists (sym_with_flags y' (Some fl)). pose proof (zget_Some_lt _ _ _ Hy). cbn [with_symbols o_symbols].
    rewrite zget_zset, Z.eqb_refl by lia. auto. }
  exists id. split; [reflexivity|]. split; [exact Hid|]. split; [intros id' H'; eapply section_symbol_unique; eauto|].
  intros id' H'. apply (section_symbol_unique o' id id' sec Hc' Hid). apply (co_symbol _ Hc) in H' as (s & Hs & Es). apply (co_symbol _ Hc').
  destruct (gr_sections _ _ G _ _ Hs) as (s' & Hs' & Gs). exists s'. split; [exact Hs'|exact (sg_symbol _ _ Gs _ Es)].
Qed.
Lemma section_id_call f a e o st r o' : built f a e o -> call (OSectionId st) o = (r, o') ->
  exists id, r = Ok (RId id) /\ first_std o' st id /\ call (OSectionId st) o' = (Ok (RId id), o') /\
  ((o' = o /\ first_std o st id) \/ (forall i, ~ first_std o st i) /\ id = zlen (o_sections o) /\ exists s, o_sections o' = o_sections o ++ [s] /\ same_place s (section_info f a st) /\ se_size s = 0 /\ se_data s = [] /\ se_relocs s = [] /\ se_align s = 1 /\
      se_flags s = snd (section_info f a st)) /\ o_symbols o' = o_symbols o.
Proof.
  intros Hb H. pose proof (built_coherent _ _ _ _ Hb) as Hc. destruct (built_format _ _ _ _ Hb) as (<- & <- & _). cbn [call] in H |- *. unfold wrap_pure in *.
  destruct (o_section_id o st) as [id o1] eqn:E. cbn [fst snd] in H. apply pair_equal_spec in H as [<- <-]. exists id. split; [reflexivity|].
  destruct (section_id_spec _ _ _ _ Hc E) as (K & L & X & Y & _). destruct (K Hc) as [Hc' _]. split; [now apply (co_std _ Hc')|].
  split. { unfold o_section_id. rewrite L. reflexivity. }
  split; [|exact Y]. destruct (lookup_std (o_std o) st) as [i|] eqn:El.
  - destruct X as [-> ->]. left. split; [reflexivity|]. now apply (co_std _ Hc).
  - right. split; [|exact X]. intros i Hi. apply (co_std _ Hc) in Hi. congruence.
Qed.
Lemma relocation_call f a e o sec off sym ad sub fl r o' : built f a e o -> u64_ok off -> zget (o_sections o) sec <> None ->
  call (OAddRelocation sec off sym ad sub fl) o = (r, o') ->
  match r with
  | Ok _ => (exists sym', target o' f fl sym sym' /\ relocates o o' sec off sym' ad fl) /\ others_same o o' sec
  | Err => nearly o o' sec
  | Panic => True
  end.
Proof.
  intros Hb Ho Hs H. pose proof (built_coherent _ _ _ _ Hb) as Hc. destruct (built_format _ _ _ _ Hb) as (<- & _ & _). cbn [call] in H.
  destruct (o_add_relocation o sec off sym ad sub fl) as [r1 o1] eqn:E.
  assert (match r1 with
    | Ok _ => (exists sym', target o1 (o_format o) fl sym sym' /\ relocates o o1 sec off sym' ad fl) /\ others_same o o1 sec
    | Err => nearly o o1 sec
    | Panic => True
    end) as G.
  { unfold o_add_relocation in E. 
    assert (o_add_reloc_internal o sec {| ol_offset := off; ol_symbol := sym; ol_sub := sub; ol_addend := ad; ol_flags := fl |} = (r1, o1) \/ (r1 = Err /\ o1 = o)) as [E'|[-> ->]].
    { destruct sub, (o_format o); auto; injection E as <- <-; auto. }
    - apply (internal_spec _ _ _ _ _ Hc) in E'; [|apply Ho]. cbn [ol_offset ol_symbol ol_addend ol_flags] in E'. destruct r1; auto. destruct E' as [E1 E2]. split; [apply E1, Hs|exact E2].
    - apply nearly_refl. }
  destruct r1; cbn [wrap_ret] in H; injection H as <- <-; exact G.
Qed.
Lemma thread_variable_call a e o id sec d al off o' y : built FMachO a e o -> u64_ok al -> zget (o_symbols o) id = Some y -> sy_kind y = YTls ->
  call (OAddSymbolData id sec d al) o = (Ok (ROffset off), o') ->
  exists o1 asz tv voff boot s r1 r2 l by', call (OAppend sec (datum o d) al) o = (Ok (ROffset off), o1) /\ address_size a = Some asz /\ first_std o' StTlsVariables tv /\
    zget (o_symbols o') (zlen (o_symbols o)) = Some {| sy_name := sy_name y ++ str "$tlv$init"; sy_value := off; sy_size := zlen (datum o d); sy_kind := YTls;
      sy_scope := ScCompilation; sy_weak := false; sy_section := YSec sec; sy_flags := None |} /\
    zget (o_symbols o') id = Some (sym_at y voff (asz * 3) (YSec tv)) /\
    zget (o_symbols o') boot = Some by' /\ sy_name by' = mangled o (str "_tlv_bootstrap") /\
    zget (o_sections o') tv = Some s /\ (asz | voff) /\ zslice voff (3 * asz) (se_data s) = zeros (3 * asz) /\
    se_relocs s = l ++ [r1; r2] /\ ol_offset r1 = voff /\ ol_symbol r1 = boot /\ ol_addend r1 = 0 /\ ol_offset r2 = voff + 2 * asz /\ ol_symbol r2 = zlen (o_symbols o) /\ ol_addend r2 = 0.
Proof.
  intros Hb Ha Hy Ky H. pose proof (built_coherent _ _ _ _ Hb) as Hc. destruct (built_format _ _ _ _ Hb) as (Ef & <- & _).
  assert (call_ok (OAddSymbolData id sec d al) o) as Hok by (split; [exact Ha|]; intros sy Hsy; congruence).
  destruct (call_keeps _ _ _ _ Hok H ltac:(discriminate) Hc) as [Hc' G].
  cbn [call] in H |- *. apply wrap_ret_inv in H as (r0 & H & _ & Hx). destruct (Hx _ eq_refl) as (x & -> & [= <-]). clear Hx.
  revert H. unfold o_add_symbol_data. cbv zeta. fold (datum o d).
  destruct (o_append o sec (datum o d) al) as [r1 o1] eqn:E1. destruct r1 as [off1| |]; cbn [bs]; [|discriminate|discriminate].
  pose proof (append_keeps _ _ _ _ _ _ Ha E1 ltac:(discriminate) Hc) as [Hc1 G1].
  destruct (append_spec _ _ _ _ _ _ Ha E1) as (s & s' & Hs & Eo1 & _).
  assert (o_symbols o1 = o_symbols o) as Y by (rewrite Eo1; reflexivity). clear Eo1 Hs s s'.
  unfold o_set_symbol_data. rewrite Y, Hy. destruct (scope_beq _ _); [discriminate|].
  rewrite (gr_format _ _ G1), Ef. destruct (o_add_thread_var o1 id) as [r2 o2] eqn:E2. destruct r2 as [init| |]; cbn [bs]; [|discriminate|discriminate].
  apply thread_var_spec with (y := y) in E2; [|exact Hc1|rewrite (gr_format _ _ G1); exact Ef|congruence|exact Ky].
  destruct E2 as (-> & asz & tv & voff & boot & s & r1 & r2 & l & H1 & H2 & H3 & H4 & H5 & H6 & H7 & H8 & H9 & H10 & H11 & H12 & H13 & H14 & H15 & H16 & H17).
  rewrite Y in *. unfold set_sym. rewrite H4. cbn [bs]. intros H. apply pair_equal_spec in H as [HI <-]. injection HI as <-.
  pose proof (zget_Some_lt _ _ _ Hy) as By. pose proof (zget_Some_lt _ _ _ H4) as B4.
  destruct (co_tlv _ Hc' boot) as (by' & Hby & _ & Nby); [exact H3|].
  exists o1, asz, tv, voff, boot, s, r1, r2, l, by'. split; [reflexivity|]. split; [rewrite <- (gr_arch _ _ G1); exact H1|].
  split. { apply (co_std _ Hc'). exact H2. }
  split. { cbn [with_symbols o_symbols]. rewrite zget_zset, Z.eqb_refl by lia. reflexivity. }
  split. { cbn [with_symbols o_symbols]. rewrite zget_zset by lia. destruct (Z.eqb_spec id (zlen (o_symbols o))); [lia|exact H5]. }
  split; [exact Hby|]. split; [rewrite Nby; unfold mangled; rewrite (gr_prefix _ _ G); reflexivity|]. split; [exact H6|]. auto 12.
Qed.
