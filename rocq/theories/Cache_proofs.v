From Verif Require Import Core_proofs.
From Verif Require Export Cache_spec.

(** schedule consumption with an error flag *)
Definition used (s s' : list io) (err : Prop) : Prop :=
  exists u, s = u ++ s' /\ (err -> In IoErr u).
Lemma used_refl s : used s s False.
Proof. exists []. split; [reflexivity|tauto]. Qed.
Lemma used_trans s s' s'' e : used s s' False -> used s' s'' e -> used s s'' e.
Proof.
  intros (u & -> & _) (v & -> & H). exists (u ++ v). rewrite app_assoc. split; [reflexivity|].
  intro He. apply in_or_app; right; auto.
Qed.
Lemma used_weak s s' (e e' : Prop) : (e' -> e) -> used s s' e -> used s s' e'.
Proof. intros H (u & -> & Hu). exists u. split; [reflexivity|tauto]. Qed.
Lemma next_io_used s d s' : next_io s = (d, s') -> used s s' (d = IoErr).
Proof.
  destruct s as [|x s]; cbn [next_io]; intro H; inversion H; subst.
  - exists []. split; [reflexivity|discriminate].
  - exists [d]. split; [reflexivity|]. intros ->. left; reflexivity.
Qed.

Lemma is_slice_app_inv {A} (data : list A) off a b : is_slice data off (a ++ b) -> is_slice data off a.
Proof.
  intros (pre & post & -> & H). exists pre, (b ++ post). rewrite <- app_assoc. auto.
Qed.

Lemma until_loop_spec data start max d : 0 <= start -> 0 <= max -> start + max <= zlen data ->
  forall fuel s acc r s',
  until_loop fuel data s start max d acc = (r, s') ->
  zlen acc <= max -> max - zlen acc < Z.of_nat fuel ->
  acc = zslice start (zlen acc) data -> ~ In d acc ->
  match r with
  | Ok b => used s s' False /\ delimited_at data start d b /\ zlen b < max
  | Err => used s s' (In d (zslice start max data))
  | Panic => False
  end.
Proof.
  intros Hs Hm Hsm fuel; induction fuel as [|fuel IH]; intros s acc r s' E Hle Hf Hacc Hd.
  { lia. }
  cbn [until_loop] in E. destruct (next_io s) as [[|n] s1] eqn:En.
  { inversion E; subst. eapply used_weak; [|apply next_io_used; exact En]. auto. }
  apply next_io_used in En. assert (Hu: used s s1 False) by (eapply used_weak; [|exact En]; tauto). clear En.
  pose proof (zlen_nonneg acc) as Hacc0.
  set (want := Z.min (zlen acc + 256) max - zlen acc) in *.
  unfold io_read_count in E. set (avail := Z.max 0 (Z.min want (zlen data - (start + zlen acc)))) in *.
  destruct (Z.eqb_spec avail 0) as [Ha|Ha].
  { cbn in E. inversion E; subst. assert (zlen acc = max) by lia.
    apply used_weak with (e := False); [|assumption]. rewrite <- H, <- Hacc. auto. }
  set (read := Z.max 1 (Z.min n avail)) in *.
  destruct (Z.eqb_spec read 0); [lia|].
  assert (Hread: 1 <= read <= want) by lia.
  set (chunk := zslice (start + zlen acc) read data) in *.
  assert (Hcl: zlen chunk = read) by (apply zlen_zslice; lia).
  assert (Hcat: acc ++ chunk = zslice start (zlen acc + read) data).
  { apply zget_ext.
    - rewrite zlen_app, Hcl, zlen_zslice; lia.
    - intros i Hi. rewrite zlen_app, Hcl in Hi. unfold zslice at 1.
      rewrite zget_ztake, zget_zdrop by lia. destruct (Z.lt_ge_cases i (zlen acc)).
      + rewrite zget_app1 by lia. rewrite Hacc. unfold zslice. rewrite zget_ztake, zget_zdrop by lia. reflexivity.
      + rewrite zget_app2 by lia. unfold chunk, zslice. rewrite zget_ztake, zget_zdrop by lia. f_equal. lia. }
  destruct (memchr d chunk) as [len|] eqn:Em.
  - inversion E; subst r s'. apply memchr_Some in Em as (Hl & Hg & Hn).
    split; [assumption|].
    assert (Hb: zlen (acc ++ ztake len chunk) = zlen acc + len) by (rewrite zlen_app, zlen_ztake; lia).
    split; [|lia]. split.
    + intro H. apply in_app_or in H as [H|H]; auto.
    + assert (Hfull: (acc ++ ztake len chunk) ++ [d] = zslice start (zlen acc + len + 1) data).
      { apply zget_ext.
        - rewrite zlen_app, Hb, zlen_zslice by lia. reflexivity.
        - intros i Hi. rewrite zlen_app, Hb in Hi. change (zlen [d]) with 1 in Hi.
          replace (zget (zslice start (zlen acc + len + 1) data) i) with (zget (acc ++ chunk) i).
          2: { rewrite Hcat. unfold zslice. rewrite !zget_ztake by lia. reflexivity. }
          destruct (Z.eq_dec i (zlen acc + len)) as [->|].
          + rewrite zget_app2, Hb by lia. rewrite Z.sub_diag, zget_0.
            rewrite zget_app2 by lia. replace (zlen acc + len - zlen acc) with len by lia. auto.
          + rewrite zget_app1 by lia. destruct (Z.lt_ge_cases i (zlen acc)).
            * rewrite !zget_app1 by lia. reflexivity.
            * rewrite !zget_app2 by lia. apply zget_ztake. lia. }
      rewrite Hfull. apply zslice_is_slice; lia.
  - apply memchr_None in Em. destruct (Z.leb_spec max (zlen acc + read)).
    + inversion E; subst. apply used_weak with (e := False); [|assumption].
      replace max with (zlen acc + read) by lia. rewrite <- Hcat. intro H0. apply in_app_or in H0 as [?|?]; auto.
    + apply IH in E.
      * destruct r; try assumption.
        -- destruct E as (H1 & H2 & H3). split; [eapply used_trans; eassumption|auto].
        -- eapply used_trans; eassumption.
      * rewrite zlen_app, Hcl. lia.
      * rewrite zlen_app, Hcl. lia.
      * rewrite zlen_app, Hcl. exact Hcat.
      * intro H0. apply in_app_or in H0 as [?|?]; auto.
Qed.

(** The invariant. [reqs] lists the delimited reads requested so far. *)
Record cinv (data : bytes) (reqs : list (Z * Z * Z)) (c : cache) : Prop := {
  ci_contents : contents c = data;
  ci_len : clen c = None \/ clen c = Some (zlen data);
  ci_bufs : forall o s b, In ((o, s), b) (bufs c) -> is_slice data o b /\ zlen b = s;
  ci_strings : forall s d b, In ((s, d), b) (strings c) ->
     delimited_at data s d b /\ zlen b < 4096 /\
     exists f, In (s, f, d) reqs /\ s + zlen b < f
}.

Lemma lookup_In k m b : lookup k m = Some b -> In (k, b) m.
Proof.
  induction m as [|[k' v] m IH]; cbn [lookup]; [discriminate|].
  destruct ((fst k =? fst k') && (snd k =? snd k')) eqn:E.
  - intro H; inversion H; subst. left. f_equal. destruct k, k'; cbn in *. f_equal; lia.
  - right. auto.
Qed.
Lemma lookup_cons_other k k' v m : lookup k m <> None -> lookup k' m = None ->
  lookup k ((k', v) :: m) = lookup k m.
Proof.
  intros H H'. cbn [lookup]. destruct ((fst k =? fst k') && (snd k =? snd k')) eqn:E; [|reflexivity].
  exfalso. apply H. rewrite <- H'. f_equal. destruct k, k'; cbn in *; f_equal; lia.
Qed.

Lemma cinv_weaken data r r' c : cinv data r c -> (forall x, In x r -> In x r') -> cinv data r' c.
Proof.
  intros [H1 H2 H3 H4] Hr. split; try assumption.
  intros s d b Hin. destruct (H4 s d b Hin) as (Ha & Hb & f & Hf & Hl). eauto 10.
Qed.
Lemma cinv_with_sched data r c s : cinv data r c -> cinv data r (with_sched c s).
Proof. intros [H1 H2 H3 H4]. split; assumption. Qed.

Lemma cache_len_spec data r c o c' : cinv data r c -> cache_len c = (o, c') ->
  cinv data r c' /\ bufs c' = bufs c /\ strings c' = strings c /\
  used (sched c) (sched c') (o = Err) /\ o <> Panic /\
  (forall l, o = Ok l -> l = zlen data).
Proof.
  intros Hi. unfold cache_len. destruct (clen c) as [l|] eqn:E.
  - intro H; inversion H; subst. destruct (ci_len _ _ _ Hi) as [Hl|Hl]; [congruence|].
    split; [assumption|]. repeat (split; [congruence|]). split; [|split; congruence].
    exists []. split; [reflexivity|discriminate].
  - destruct (next_io (sched c)) as [[|n] s] eqn:En; intro H; inversion H; subst;
      apply next_io_used in En; cbn [with_sched contents sched bufs strings clen].
    + split; [apply cinv_with_sched; assumption|]. repeat (split; [congruence|]). split; [|split; congruence].
      eapply used_weak; [|exact En]. auto.
    + rewrite (ci_contents _ _ _ Hi). split; [destruct Hi; split; cbn; auto|].
      repeat (split; [congruence|]). split; [|split; congruence].
      eapply used_weak; [|exact En]. discriminate.
Qed.
Lemma range_in_bounds_spec data r c s f o c' : cinv data r c -> range_in_bounds c s f = (o, c') ->
  cinv data r c' /\ bufs c' = bufs c /\ strings c' = strings c /\
  used (sched c) (sched c') (o = Err /\ s <= f <= zlen data) /\ o <> Panic /\
  (o = Ok tt -> s <= f <= zlen data).
Proof.
  intros Hi. unfold range_in_bounds. destruct (Z.leb_spec s f).
  - destruct (cache_len c) as [o1 c1] eqn:E. apply (cache_len_spec data r) in E; [|assumption].
    destruct E as (H1 & H2 & H3 & H4 & H5 & H6). destruct o1 as [l| |]; [|..]; [|..|].
    + specialize (H6 l eq_refl). subst l.
      destruct (Z.leb_spec f (zlen data)); intro E; inversion E; subst;
        (split; [assumption|]; repeat split; try assumption; try congruence; try lia).
      * eapply used_weak; [|exact H4]. intros [? _]; congruence.
      * eapply used_weak; [|exact H4]. intros [_ ?]. lia.
    + intro E; inversion E; subst. split; [assumption|]. repeat split; try assumption; try congruence.
      eapply used_weak; [|exact H4]. auto.
    + congruence.
  - intro E; inversion E; subst. split; [assumption|]. repeat split; try congruence; try lia.
    eapply used_weak; [|apply used_refl]. lia.
Qed.

Definition mono (c c' : cache) : Prop :=
  (forall k b, lookup k (bufs c) = Some b -> lookup k (bufs c') = Some b) /\
  (forall k b, lookup k (strings c) = Some b -> lookup k (strings c') = Some b).

Lemma cache_read_spec data r c o s res c' : cinv data r c -> u64_ok o -> u64_ok s -> zlen data < 2 ^ 64 ->
  cache_read_bytes_at c o s = (res, c') ->
  cinv data r c' /\ mono c c' /\
  used (sched c) (sched c') (res <> rr_read_bytes_at data o s) /\
  res <> Panic /\ (forall b, res = Ok b -> rr_read_bytes_at data o s = Ok b).
Proof.
  intros Hi Ho Hs Hlen. unfold cache_read_bytes_at.
  assert (Hp := rr_read_bytes_at_no_panic data o s).
  destruct (Z.eqb_spec s 0) as [->|Hs0].
  { intro E; inversion E; subst. split; [assumption|]. split; [split; auto|].
    unfold rr_read_bytes_at; cbn [Z.eqb]. repeat split; try congruence.
    eapply used_weak; [|apply used_refl]. congruence. }
  destruct (range_in_bounds c o (sadd 64 o s)) as [ob c1] eqn:Eb.
  apply (range_in_bounds_spec data r) in Eb; [|assumption].
  destruct Eb as (H1 & H2 & H3 & H4 & H5 & H6).
  assert (Hslice_err: ~ (o + s <= zlen data) -> rr_read_bytes_at data o s = Err).
  { intro Hno. destruct (rr_read_bytes_at data o s) as [b| |] eqn:E; try congruence.
    apply read_bytes_at_exact in E; [|assumption|assumption].
    destruct E as [[? _]|(_ & Hsl & Hl)]; [lia|]. apply is_slice_zslice in Hsl. lia. }
  assert (Hslice_ok: o + s <= zlen data -> rr_read_bytes_at data o s = Ok (zslice o s data)).
  { intros Hyes. apply read_bytes_at_exact; [assumption|assumption|]. unfold u64_ok in *. right.
    split; [lia|]. split; [apply zslice_is_slice; lia|apply zlen_zslice; lia]. }
  unfold u64_ok in *.
  assert (Hsadd: sadd 64 o s <= zlen data <-> o + s <= zlen data \/ (2 ^ 64 <= o + s /\ zlen data = 2 ^ 64 - 1)).
  { unfold sadd. destruct (Z.ltb_spec (o + s) (2 ^ 64)); lia. }
  assert (Hsadd2: o <= sadd 64 o s). { unfold sadd. destruct (Z.ltb_spec (o + s) (2 ^ 64)); lia. }
  destruct ob as [[]| |]; [| |congruence].
  2: { intro E; inversion E; subst. split; [assumption|]. split; [split; congruence|].
       repeat split; try congruence.
       eapply used_weak; [|exact H4]. intro Hne. split; [reflexivity|].
       destruct (Z.le_gt_cases (o + s) (zlen data)); [lia|]. rewrite Hslice_err in Hne by lia. congruence. }
  specialize (H6 eq_refl).
  assert (H4': used (sched c) (sched c1) False) by (eapply used_weak; [|exact H4]; tauto).
  assert (Hm: mono c c1) by (split; congruence).
  destruct (lookup (o, s) (bufs c1)) as [b|] eqn:El.
  { intro E; inversion E; subst. split; [assumption|]. split; [assumption|].
    apply lookup_In in El. apply (ci_bufs _ _ _ H1) in El.
    assert (Hr: rr_read_bytes_at data o s = Ok b).
    { apply read_bytes_at_exact; [red; lia|red; lia|]. right. split; [lia|assumption]. }
    repeat split; try congruence. eapply used_weak; [|exact H4']. congruence. }
  assert (Hfail: forall s', used (sched c1) s' True ->
    cinv data r (with_sched c1 s') /\ mono c (with_sched c1 s') /\
    used (sched c) (sched (with_sched c1 s')) (Err <> rr_read_bytes_at data o s) /\
    (@Err bytes) <> Panic /\ (forall b, Err = Ok b -> rr_read_bytes_at data o s = Ok b)).
  { intros s' Hu. split; [apply cinv_with_sched; assumption|]. split; [exact Hm|].
    repeat split; try congruence. cbn [with_sched sched].
    eapply used_weak; [|eapply used_trans; eassumption]. auto. }
  destruct (next_io (sched c1)) as [[|n1] s1] eqn:E1; apply next_io_used in E1.
  { intro E; inversion E; subst. apply Hfail. eapply used_weak; [|exact E1]. auto. }
  assert (E1': used (sched c1) s1 False) by (eapply used_weak; [|exact E1]; tauto).
  destruct (next_io s1) as [[|n2] s2] eqn:E2; apply next_io_used in E2.
  { intro E; inversion E; subst. apply Hfail. eapply used_weak; [|eapply used_trans; eassumption]. auto. }
  assert (E2': used (sched c1) s2 False)
    by (eapply used_trans; [exact E1'|]; eapply used_weak; [|exact E2]; tauto).
  destruct (next_io s2) as [[|n3] s3] eqn:E3; apply next_io_used in E3.
  { intro E; inversion E; subst. apply Hfail. eapply used_weak; [|eapply used_trans; eassumption]. auto. }
  assert (E3': used (sched c1) s3 False)
    by (eapply used_trans; [exact E2'|]; eapply used_weak; [|exact E3]; tauto).
  rewrite (ci_contents _ _ _ H1). unfold io_read_exact.
  destruct (Z.leb_spec (o + s) (zlen data)).
  - intro E; inversion E; subst. clear E. rewrite (Hslice_ok H).
    split; [|split; [|repeat split; try congruence]].
    + destruct H1 as [K1 K2 K3 K4]. split; cbn; try assumption; try congruence.
      intros o0 s0 b0 [Hin|Hin]; [|auto]. inversion Hin; subst.
      split; [apply zslice_is_slice; lia|apply zlen_zslice; lia].
    + destruct Hm as [Hm1 Hm2]. split; cbn [bufs strings]; [|assumption].
      intros k b Hk. apply Hm1 in Hk. rewrite lookup_cons_other; congruence.
    + cbn [sched]. eapply used_trans; [eassumption|]. eapply used_weak; [|exact E3']. congruence.
  - intro E; inversion E; subst. clear E. rewrite Hslice_err by lia.
    split; [apply cinv_with_sched; assumption|]. split; [exact Hm|].
    repeat split; try congruence. cbn [with_sched sched].
    eapply used_trans; [eassumption|]. eapply used_weak; [|exact E3']. congruence.
Qed.

Lemma delimited_until data s f d b : 0 <= s -> f <= zlen data ->
  rr_read_bytes_at_until data s f d = Ok b <-> delimited_at data s d b /\ s + zlen b < f.
Proof.
  intros Hs Hf. unfold delimited_at. split.
  - intro H. apply rr_until_Ok in H; [|assumption]. destruct H as (H1 & H2 & H3 & H4 & H5).
    assert (H6: rr_read_bytes_at_until data s f d = Ok b) by (apply rr_until_Ok; auto).
    pose proof (zlen_nonneg b).
    split; [split; [assumption|]|lia].
    assert (E: b ++ [d] = zslice s (zlen b + 1) data).
    { apply zget_ext. { rewrite zlen_app, zlen_zslice by lia. reflexivity. }
      intros i Hi. rewrite zlen_app in Hi. change (zlen [d]) with 1 in Hi.
      unfold zslice. rewrite zget_ztake, zget_zdrop by lia. destruct (Z.lt_ge_cases i (zlen b)).
      - rewrite zget_app1 by lia. rewrite H3. unfold zslice. rewrite zget_ztake, zget_zdrop by lia. reflexivity.
      - rewrite zget_app2 by lia. replace i with (zlen b) by lia. rewrite Z.sub_diag, zget_0. auto. }
    rewrite E. apply zslice_is_slice; lia.
  - intros ((H1 & pre & post & -> & H2) & H3). apply rr_until_Ok; [assumption|].
    pose proof (zlen_nonneg pre). pose proof (zlen_nonneg b).
    rewrite <- !app_assoc in *. rewrite !zlen_app in *. change (zlen [d]) with 1 in *.
    repeat split; try lia; try assumption.
    + rewrite zslice_app_eq by auto. reflexivity.
    + rewrite zget_app2 by lia. rewrite zget_app2 by lia. rewrite H2.
      replace (s + zlen b - s - zlen b) with 0 by lia. apply zget_0.
Qed.
Lemma delimited_unique data s d b b' : delimited_at data s d b -> delimited_at data s d b' -> b = b'.
Proof.
  intros H H'.
  assert (0 <= s). { destruct H as (_ & H). apply is_slice_zslice in H. lia. }
  assert (Hb: rr_read_bytes_at_until data s (zlen data) d = Ok b).
  { apply delimited_until; [assumption|lia|]. split; [assumption|].
    destruct H as (_ & H). apply is_slice_zslice in H. rewrite zlen_app in H. change (zlen [d]) with 1 in H. lia. }
  assert (Hb': rr_read_bytes_at_until data s (zlen data) d = Ok b').
  { apply delimited_until; [assumption|lia|]. split; [assumption|].
    destruct H' as (_ & H'). apply is_slice_zslice in H'. rewrite zlen_app in H'. change (zlen [d]) with 1 in H'. lia. }
  congruence.
Qed.

Lemma cache_until_spec data r c s f d res c' : cinv data r c -> u64_ok s ->
  cache_read_until c s f d = (res, c') ->
  cinv data ((s, f, d) :: r) c' /\ mono c c' /\ res <> Panic /\
  (forall b, res = Ok b -> s <= f <= zlen data /\ delimited_at data s d b /\ zlen b < 4096 /\
     exists f', In (s, f', d) ((s, f, d) :: r) /\ s + zlen b < f') /\
  used (sched c) (sched c')
     (res = Err /\ exists b, rr_read_bytes_at_until data s f d = Ok b /\ zlen b < 4096).
Proof.
  intros Hi Hs. unfold cache_read_until.
  destruct (range_in_bounds c s f) as [ob c1] eqn:Eb.
  apply (range_in_bounds_spec data r) in Eb; [|assumption].
  destruct Eb as (H1 & H2 & H3 & H4 & H5 & H6). unfold u64_ok in *.
  assert (Hm: mono c c1) by (split; congruence).
  assert (Hw: cinv data ((s, f, d) :: r) c1) by (eapply cinv_weaken; [exact H1|]; intros; right; assumption).
  destruct ob as [[]| |]; [| |congruence].
  2: { intro E; inversion E; subst. split; [assumption|]. split; [assumption|]. split; [congruence|]. split; [congruence|].
       eapply used_weak; [|exact H4]. intros (_ & b & Hb & _). split; [reflexivity|].
       apply rr_until_Ok in Hb; [|lia]. pose proof (zlen_nonneg b). lia. }
  specialize (H6 eq_refl).
  assert (H4': used (sched c) (sched c1) False) by (eapply used_weak; [|exact H4]; intros []).
  destruct (lookup (s, d) (strings c1)) as [b|] eqn:El.
  { intro E; inversion E; subst. split; [assumption|]. split; [assumption|].
    split; [congruence|]. split.
    - intros b0 Hb0. inversion Hb0; subst. apply lookup_In in El.
      apply (ci_strings _ _ _ Hw) in El. destruct El as (? & ? & ?). auto.
    - eapply used_weak; [|exact H4']. intros (? & _); discriminate. }
  destruct (next_io (sched c1)) as [[|n1] s1] eqn:E1; apply next_io_used in E1.
  { intro E; inversion E; subst. split; [apply cinv_with_sched; assumption|].
    split; [exact Hm|]. split; [congruence|]. split; [congruence|]. cbn [with_sched sched].
    eapply used_trans; [eassumption|]. eapply used_weak; [|exact E1]. auto. }
  assert (E1': used (sched c1) s1 False) by (eapply used_weak; [|exact E1]; tauto).
  rewrite (ci_contents _ _ _ H1).
  destruct (until_loop _ data s1 s _ d []) as [res2 s2] eqn:Eu.
  apply until_loop_spec in Eu; [|lia|lia|lia|unfold zlen; cbn [length]; lia|unfold zlen; cbn [length]; lia|reflexivity|intros []].
  destruct res2 as [b| |]; [| |contradiction].
  - destruct Eu as (Hu & Hd & Hl). intro E; inversion E; subst. clear E.
    split; [|split; [|split; [congruence|split]]].
    + destruct Hw as [K1 K2 K3 K4]. split; cbn; try assumption; try congruence.
      intros s0 d0 b0 [Hin|Hin].
      * inversion Hin; subst. split; [assumption|]. split; [lia|]. exists f. split; [left; reflexivity|lia].
      * apply K4; assumption.
    + destruct Hm as [Hm1 Hm2]. split; cbn [bufs strings]; [assumption|].
      intros k b0 Hk. apply Hm2 in Hk. rewrite lookup_cons_other; congruence.
    + intros b0 Hb0. inversion Hb0; subst. split; [lia|]. split; [assumption|]. split; [lia|].
      exists f. split; [left; reflexivity|lia].
    + cbn [sched]. eapply used_trans; [eassumption|]. eapply used_trans; [eassumption|].
      eapply used_weak; [|exact Hu]. intros (? & _); discriminate.
  - intro E; inversion E; subst. clear E.
    split; [apply cinv_with_sched; assumption|]. split; [exact Hm|]. split; [congruence|]. split; [congruence|].
    cbn [with_sched sched]. eapply used_trans; [eassumption|]. eapply used_trans; [eassumption|].
    eapply used_weak; [|exact Eu]. intros (_ & b & Hb & Hl).
    apply rr_until_Ok in Hb; [|lia]. destruct Hb as (K1 & K2 & K3 & K4 & K5).
    pose proof (zlen_nonneg b).
    assert (Hg: zget (zslice s (Z.min (f - s) 4096) data) (zlen b) = Some d).
    { unfold zslice. rewrite zget_ztake, zget_zdrop by lia. assumption. }
    apply zget_In in Hg. assumption.
Qed.

Lemma cinv_clear data r c : cinv data r c -> cinv data r (cache_clear c).
Proof. intros [H1 H2 H3 H4]. split; cbn; try assumption. intros o s b []. Qed.

Definition op_reqs (op : cop) : list (Z * Z * Z) :=
  match until_request op with Some q => [q] | None => [] end.
Definition all_reqs (ops : list cop) : list (Z * Z * Z) := flat_map op_reqs ops.

Lemma range_read_spec data r c ro rs o s res c' : cinv data r c -> u64_ok ro -> u64_ok rs -> u64_ok o -> u64_ok s ->
  zlen data < 2 ^ 64 ->
  range_read_bytes_at c ro rs o s = (res, c') ->
  cinv data r c' /\ mono c c' /\ res <> Panic /\
  (forall b, res = Ok b -> (s = 0 /\ b = []) \/ (0 < s /\ o + s <= rs /\ is_slice data (ro + o) b /\ zlen b = s)) /\
  used (sched c) (sched c')
    (res = Err /\ (s = 0 \/ (o + s <= rs /\ ro + o + s <= zlen data))).
Proof.
  intros Hi Hro Hrs Ho Hs Hd. unfold u64_ok in *. unfold range_read_bytes_at, cadd.
  assert (Hm: mono c c) by (split; auto).
  destruct (Z.eqb_spec s 0) as [->|Hs0].
  { intro E; inversion E; subst. do 3 (split; [assumption || congruence|]). split.
    - intros b Hb; inversion Hb; auto.
    - eapply used_weak; [|apply used_refl]. intros (? & _); discriminate. }
  destruct (Z.ltb_spec (o + s) (2 ^ 64)).
  2: { intro E; inversion E; subst. do 3 (split; [assumption || congruence|]). split; [congruence|].
       eapply used_weak; [|apply used_refl]. lia. }
  destruct (Z.ltb_spec rs (o + s)).
  { intro E; inversion E; subst. do 3 (split; [assumption || congruence|]). split; [congruence|].
       eapply used_weak; [|apply used_refl]. lia. }
  destruct (Z.ltb_spec (ro + o) (2 ^ 64)).
  2: { intro E; inversion E; subst. do 3 (split; [assumption || congruence|]). split; [congruence|].
       eapply used_weak; [|apply used_refl]. lia. }
  intro E. apply (cache_read_spec data r) in E; [|assumption|red; lia|red; lia|assumption].
  destruct E as (H3 & H4 & H5 & H6 & H7). do 3 (split; [assumption|]). split.
  - intros b Hb. specialize (H7 b Hb). apply read_bytes_at_exact in H7; [|red; lia|red; lia].
    destruct H7 as [?|(K1 & K2 & K3)]; auto 10.
  - eapply used_weak; [|exact H5]. intros (-> & [?|[K1 K2]]); [lia|].
    intro Hc. pose proof (read_bytes_at_exact data (ro + o) s (zslice (ro + o) s data)) as Hx.
    destruct Hx as [_ Hx]; [red; lia|red; lia|]. rewrite Hx in Hc; [discriminate|].
    right. split; [lia|]. split; [apply zslice_is_slice; lia|apply zlen_zslice; lia].
Qed.

Lemma range_until_spec data r c ro rs s f d res c' : cinv data r c -> u64_ok ro -> u64_ok rs -> u64_ok s -> u64_ok f ->
  zlen data < 2 ^ 64 ->
  range_read_until c ro rs s f d = (res, c') ->
  cinv data ((ro + s, ro + f, d) :: r) c' /\ mono c c' /\ res <> Panic /\
  (forall b, res = Ok b -> s <= f /\ ro + f <= zlen data /\ delimited_at data (ro + s) d b /\ zlen b < 4096 /\
     s + zlen b <= rs /\
     exists f', In (ro + s, f', d) ((ro + s, ro + f, d) :: r) /\ ro + s + zlen b < f') /\
  used (sched c) (sched c')
    (res = Err /\ exists b, rr_read_bytes_at_until data (ro + s) (ro + f) d = Ok b /\ zlen b < 4096 /\ s + zlen b <= rs).
Proof.
  intros Hi Hro Hrs Hs Hf Hd. unfold u64_ok in *. unfold range_read_until, cadd.
  assert (Hm: mono c c) by (split; auto).
  assert (Hw: cinv data ((ro + s, ro + f, d) :: r) c) by (eapply cinv_weaken; [exact Hi|]; intros; right; assumption).
  assert (Hbad: 2 ^ 64 <= ro + s \/ 2 ^ 64 <= ro + f ->
     cinv data ((ro + s, ro + f, d) :: r) c /\ mono c c /\ (@Err bytes) <> Panic /\
  (forall b, Err = Ok b -> s <= f /\ ro + f <= zlen data /\ delimited_at data (ro + s) d b /\ zlen b < 4096 /\
     s + zlen b <= rs /\
     exists f', In (ro + s, f', d) ((ro + s, ro + f, d) :: r) /\ ro + s + zlen b < f') /\
  used (sched c) (sched c)
    ((@Err bytes) = Err /\ exists b, rr_read_bytes_at_until data (ro + s) (ro + f) d = Ok b /\ zlen b < 4096 /\ s + zlen b <= rs)).
  { intros Hbad. do 3 (split; [assumption || congruence|]). split; [congruence|].
    eapply used_weak; [|apply used_refl]. intros (_ & b & Hb & _). apply rr_until_Ok in Hb; [|lia].
    pose proof (zlen_nonneg b). lia. }
  destruct (Z.ltb_spec (ro + s) (2 ^ 64)).
  2: { intro E; inversion E; subst. apply Hbad. auto. }
  destruct (Z.ltb_spec (ro + f) (2 ^ 64)).
  2: { intro E; inversion E; subst. apply Hbad. auto. }
  clear Hbad.
  destruct (cache_read_until c (ro + s) (ro + f) d) as [res1 c1] eqn:E1.
  apply (cache_until_spec data r) in E1; [|assumption|red; lia].
  destruct E1 as (H1 & H2 & H3 & H4 & H5).
  destruct res1 as [b| |]; [| |congruence].
  - destruct (H4 b eq_refl) as (K1 & K2 & K3 & f' & K4 & K5).
    assert (Hlb: s + zlen b < 2 ^ 64).
    { destruct K2 as (_ & K2). apply is_slice_zslice in K2. rewrite zlen_app in K2. change (zlen [d]) with 1 in K2. lia. }
    destruct (Z.ltb_spec (s + zlen b) (2 ^ 64)); [|lia].
    destruct (Z.ltb_spec rs (s + zlen b)); intro E; inversion E; subst;
      do 3 (split; [assumption || congruence|]).
    + split; [congruence|]. eapply used_weak; [|exact H5]. intros (_ & b0 & Hb0 & Hl & Hr).
      apply delimited_until in Hb0; [|lia|lia]. destruct Hb0 as (Hb0 & _).
      rewrite (delimited_unique _ _ _ _ _ K2 Hb0) in *. lia.
    + split.
      * intros b0 Hb0; inversion Hb0; subst. repeat (split; [assumption || lia|]). eauto.
      * eapply used_weak; [|exact H5]. intros (? & _); discriminate.
  - intro E; inversion E; subst. do 3 (split; [assumption || congruence|]). split; [congruence|].
    eapply used_weak; [|exact H5]. intros (_ & b0 & Hb0 & Hl & Hr). eauto.
Qed.

Lemma run_cop_inv data r op c : cinv data r c -> cop_ok op -> zlen data < 2 ^ 64 ->
  cinv data (op_reqs op ++ r) (run_cop op c).
Proof.
  intros Hi Ho Hd. destruct op; cbn [run_cop op_reqs until_request app cop_ok] in *.
  - destruct (cache_len c) as [o c'] eqn:E. eapply cache_len_spec in E; [|eassumption]. apply E.
  - destruct (cache_read_bytes_at c offset size) as [o c'] eqn:E. eapply cache_read_spec in E; try eassumption; [|tauto..].
    apply E.
  - destruct (cache_read_until c start fin delim) as [o c'] eqn:E. eapply cache_until_spec in E; try eassumption; [|tauto].
    apply E.
  - destruct (range_read_bytes_at c ro rs offset size) as [o c'] eqn:E. eapply range_read_spec in E; try eassumption; [|tauto..].
    apply E.
  - destruct (range_read_until c ro rs start fin delim) as [o c'] eqn:E. eapply range_until_spec in E; try eassumption; [|tauto..].
    apply E.
  - apply cinv_clear; assumption.
Qed.

Lemma after_inv data io ops : Forall cop_ok ops -> zlen data < 2 ^ 64 ->
  cinv data (all_reqs ops) (after data io ops).
Proof.
  intros Hf Hd. unfold after, run_cops.
  assert (G: forall r c, cinv data r c ->
    cinv data (r ++ all_reqs ops) (fold_left (fun c op => run_cop op c) ops c)).
  { induction Hf as [|op ops Hop Hops IH]; intros r c Hc; cbn [fold_left all_reqs flat_map].
    - rewrite app_nil_r. exact Hc.
    - eapply cinv_weaken.
      + apply IH. eapply run_cop_inv; eassumption.
      + unfold all_reqs. intros x Hx. apply in_app_or in Hx as [Hx|Hx]; [apply in_app_or in Hx as [Hx|Hx]|];
          repeat (apply in_or_app); [right; apply in_or_app; left; assumption|left; assumption|
          right; apply in_or_app; right; assumption]. }
  apply (G [] (cache_new data io)). split; cbn; auto; contradiction.
Qed.

Lemma used_io_error c c' e : used (sched c) (sched c') e -> e -> io_error_between c c'.
Proof. intros (u & H & Hu) He. exists u. auto. Qed.

(** C04 *)
Lemma cache_read_agrees data io ops o s : Forall cop_ok ops -> zlen data < 2 ^ 64 -> u64_ok o -> u64_ok s ->
  let c := after data io ops in
  let '(res, c') := cache_read_bytes_at c o s in
  res = rr_read_bytes_at data o s \/ (res = Err /\ io_error_between c c').
Proof.
  intros Hops Hd Ho Hs c. destruct (cache_read_bytes_at c o s) as [res c'] eqn:E.
  eapply (cache_read_spec data) in E; try eassumption; [|apply after_inv; assumption].
  destruct E as (_ & _ & Hu & Hp & Hok). destruct res as [b| |]; [|..].
  - left. symmetry. apply Hok. reflexivity.
  - destruct (rr_read_bytes_at data o s) eqn:Er.
    + right. split; [reflexivity|]. eapply used_io_error; [exact Hu|]. congruence.
    + left; reflexivity.
    + exfalso. exact (rr_read_bytes_at_no_panic _ _ _ Er).
  - congruence.
Qed.

Definition is_clear (op : cop) : bool := match op with CClear => true | _ => false end.
Lemma mono_trans a b c : mono a b -> mono b c -> mono a c.
Proof. intros [H1 H2] [H3 H4]. split; auto. Qed.
Lemma run_cop_mono data r op c : cinv data r c -> cop_ok op -> zlen data < 2 ^ 64 -> is_clear op = false ->
  mono c (run_cop op c).
Proof.
  intros Hi Ho Hd Hc. destruct op; cbn [run_cop cop_ok] in *; try discriminate.
  - destruct (cache_len c) as [o c'] eqn:E. eapply cache_len_spec in E; [|eassumption].
    destruct E as (_ & E1 & E2 & _). cbn [snd]. split; congruence.
  - destruct (cache_read_bytes_at c offset size) as [o c'] eqn:E. eapply cache_read_spec in E; try eassumption; [|tauto..].
    apply E.
  - destruct (cache_read_until c start fin delim) as [o c'] eqn:E. eapply cache_until_spec in E; try eassumption; [|tauto].
    apply E.
  - destruct (range_read_bytes_at c ro rs offset size) as [o c'] eqn:E. eapply range_read_spec in E; try eassumption; [|tauto..].
    apply E.
  - destruct (range_read_until c ro rs start fin delim) as [o c'] eqn:E. eapply range_until_spec in E; try eassumption; [|tauto..].
    apply E.
Qed.
Lemma run_cops_app a b c : run_cops (a ++ b) c = run_cops b (run_cops a c).
Proof. unfold run_cops. apply fold_left_app. Qed.
Lemma cache_entries_stable data io ops later : Forall cop_ok (ops ++ later) -> zlen data < 2 ^ 64 ->
  forallb (fun op => negb (is_clear op)) later = true ->
  mono (after data io ops) (after data io (ops ++ later)).
Proof.
  intros Hf Hd. induction later as [|op later IH] using rev_ind; intros Hc.
  - rewrite app_nil_r. split; auto.
  - rewrite app_assoc in *. apply Forall_app in Hf as [Hf1 Hf2]. rewrite forallb_app in Hc.
    apply andb_prop in Hc as [Hc1 Hc2]. cbn in Hc2.
    unfold after at 2. rewrite run_cops_app. eapply mono_trans; [apply IH; assumption|].
    unfold run_cops at 2. cbn [fold_left]. eapply run_cop_mono with (r := all_reqs (ops ++ later)).
    + apply after_inv; assumption.
    + inversion Hf2; assumption.
    + assumption.
    + destruct (is_clear op); [discriminate|reflexivity].
Qed.

(** C05 *)
Lemma In_all_reqs ops s f d : In (s, f, d) (all_reqs ops) <-> exists op, In op ops /\ until_request op = Some (s, f, d).
Proof.
  unfold all_reqs, op_reqs. rewrite in_flat_map. split; intros (op & Ho & H); exists op; split; try assumption.
  - destruct (until_request op) as [q|]; [|contradiction]. destruct H as [->|[]]. reflexivity.
  - rewrite H. left; reflexivity.
Qed.
Lemma cache_until_agrees data io ops s f d : Forall cop_ok ops -> zlen data < 2 ^ 64 -> u64_ok s ->
  let c := after data io ops in
  let '(res, c') := cache_read_until c s f d in
  (forall b, res = Ok b -> s <= f <= zlen data /\ delimited_at data s d b /\ zlen b < 4096) /\
  (forall b, rr_read_bytes_at_until data s f d = Ok b -> zlen b < 4096 ->
      res = Ok b \/ (res = Err /\ io_error_between c c')) /\
  res <> Panic.
Proof.
  intros Hops Hd Hs c. destruct (cache_read_until c s f d) as [res c'] eqn:E.
  eapply (cache_until_spec data) in E; try eassumption; [|apply after_inv; assumption].
  destruct E as (_ & _ & Hp & Hok & Hu). split; [|split; [|assumption]].
  - intros b Hb. destruct (Hok b Hb) as (? & ? & ? & _). auto.
  - intros b Hb Hl. destruct res as [b'| |]; [..|congruence].
    + left. f_equal. destruct (Hok b' eq_refl) as (? & ? & _). red in Hs.
      apply delimited_until in Hb; [|lia|lia]. destruct Hb as (Hb & _).
      eapply delimited_unique; eassumption.
    + right. split; [reflexivity|]. eapply used_io_error; [exact Hu|]. eauto.
Qed.
Lemma cache_until_agrees_exact data io ops s f d : Forall cop_ok ops -> zlen data < 2 ^ 64 -> u64_ok s ->
  (forall op f', In op ops -> until_request op = Some (s, f', d) -> f' <= f) ->
  let c := after data io ops in
  let '(res, c') := cache_read_until c s f d in
  res = (match rr_read_bytes_at_until data s f d with
         | Ok b => if zlen b <? 4096 then Ok b else Err
         | r => r end) \/
  (res = Err /\ io_error_between c c').
Proof.
  intros Hops Hd Hs Hends c. destruct (cache_read_until c s f d) as [res c'] eqn:E.
  eapply (cache_until_spec data) in E; try eassumption; [|apply after_inv; assumption].
  destruct E as (_ & _ & Hp & Hok & Hu). red in Hs.
  destruct res as [b'| |]; [..|congruence].
  - left. destruct (Hok b' eq_refl) as (K1 & K2 & K3 & f' & K4 & K5).
    assert (f' <= f). { destruct K4 as [K4|K4]; [inversion K4; lia|].
      apply In_all_reqs in K4 as (op & Hop & Hq). eapply Hends; eassumption. }
    assert (Hr: rr_read_bytes_at_until data s f d = Ok b') by (apply delimited_until; [lia|lia|]; split; [assumption|lia]).
    rewrite Hr. destruct (Z.ltb_spec (zlen b') 4096); [reflexivity|lia].
  - destruct (rr_read_bytes_at_until data s f d) as [b| |] eqn:Er.
    + destruct (Z.ltb_spec (zlen b) 4096); [|left; reflexivity].
      right. split; [reflexivity|]. eapply used_io_error; [exact Hu|]. eauto.
    + left; reflexivity.
    + exfalso. exact (rr_until_no_panic _ _ _ _ Er).
Qed.

(** C06 *)
Lemma is_slice_sub (data : bytes) ro rs o b : 0 <= ro -> 0 <= rs -> ro + rs <= zlen data -> 0 <= o ->
  is_slice (zslice ro rs data) o b <-> (is_slice data (ro + o) b /\ o + zlen b <= rs).
Proof.
  intros H1 H2 H3 H4. split.
  - intros (pre & post & E & Hp).
    assert (Hl: zlen (zslice ro rs data) = rs) by (apply zlen_zslice; lia).
    rewrite E in Hl. rewrite !zlen_app in Hl. pose proof (zlen_nonneg post). split; [|lia].
    destruct (zslice_is_slice data ro rs) as (pre' & post' & E' & Hp'); [lia..|].
    rewrite E in E'. exists (pre' ++ pre), (post ++ post').
    split; [rewrite E', <- !app_assoc; reflexivity|rewrite zlen_app; lia].
  - intros (Hsl & Hle). apply is_slice_zslice in Hsl as (Hb & _ & Hl).
    assert (E: b = zslice o (zlen b) (zslice ro rs data)).
    { pose proof (zlen_nonneg b). rewrite Hb at 1. apply zget_ext.
      - rewrite zlen_zslice, zlen_zslice; try lia. rewrite zlen_zslice; lia.
      - intros i Hi. rewrite zlen_zslice in Hi by lia. unfold zslice.
        rewrite !zget_ztake, !zget_zdrop by lia. rewrite zget_ztake, zget_zdrop by lia. f_equal. lia. }
    rewrite E. pose proof (zlen_nonneg b). apply zslice_is_slice; [lia|lia|rewrite zlen_zslice; lia].
Qed.
Lemma range_read_agrees data io ops ro rs o s : Forall cop_ok ops -> zlen data < 2 ^ 64 ->
  u64_ok ro -> u64_ok rs -> u64_ok o -> u64_ok s -> ro + rs <= zlen data ->
  let c := after data io ops in
  let '(res, c') := range_read_bytes_at c ro rs o s in
  res = rr_read_bytes_at (zslice ro rs data) o s \/ (res = Err /\ io_error_between c c').
Proof.
  intros Hops Hd Hro Hrs Ho Hs Hin c. destruct (range_read_bytes_at c ro rs o s) as [res c'] eqn:E.
  eapply (range_read_spec data) in E; try eassumption; [|apply after_inv; assumption].
  destruct E as (_ & _ & Hp & Hok & Hu). red in Hro, Hrs.
  destruct res as [b| |]; [..|congruence].
  - left. symmetry. apply read_bytes_at_exact; [assumption|assumption|].
    destruct (Hok b eq_refl) as [?|(K1 & K2 & K3 & K4)]; [left; assumption|right].
    split; [assumption|]. split; [|assumption]. red in Ho. apply is_slice_sub; try lia. split; [assumption|lia].
  - destruct (rr_read_bytes_at (zslice ro rs data) o s) as [b| |] eqn:Er.
    + right. split; [reflexivity|]. eapply used_io_error; [exact Hu|]. split; [reflexivity|].
      apply read_bytes_at_exact in Er; [|assumption|assumption]. red in Ho, Hs.
      destruct Er as [[? _]|(K1 & K2 & K3)]; [left; assumption|right].
      apply is_slice_zslice in K2. rewrite zlen_zslice in K2; lia.
    + left; reflexivity.
    + exfalso. exact (rr_read_bytes_at_no_panic _ _ _ Er).
Qed.
(** whatever the range: nothing outside of it or of the file is returned *)
Lemma range_read_sound data io ops ro rs o s b c' : Forall cop_ok ops -> zlen data < 2 ^ 64 ->
  u64_ok ro -> u64_ok rs -> u64_ok o -> u64_ok s ->
  range_read_bytes_at (after data io ops) ro rs o s = (Ok b, c') ->
  zlen b = s /\ (b = [] \/ (o + zlen b <= rs /\ is_slice data (ro + o) b)).
Proof.
  intros Hops Hd Hro Hrs Ho Hs E.
  eapply (range_read_spec data) in E; try eassumption; [|apply after_inv; assumption].
  destruct E as (_ & _ & Hp & Hok & Hu).
  destruct (Hok b eq_refl) as [[-> ->]|(K1 & K2 & K3 & K4)]; [auto|].
  split; [assumption|right]. rewrite K4. auto.
Qed.
Lemma range_until_sound data io ops ro rs s f d b c' : Forall cop_ok ops -> zlen data < 2 ^ 64 ->
  u64_ok ro -> u64_ok rs -> u64_ok s -> u64_ok f ->
  range_read_until (after data io ops) ro rs s f d = (Ok b, c') ->
  s + zlen b <= rs /\ is_slice data (ro + s) b /\ ~ In d b /\ ro + f <= zlen data.
Proof.
  intros Hops Hd Hro Hrs Ho Hs E.
  eapply (range_until_spec data) in E; try eassumption; [|apply after_inv; assumption].
  destruct E as (_ & _ & Hp & Hok & Hu).
  destruct (Hok b eq_refl) as (K1 & K2 & [K3 K3'] & K4 & K5 & _).
  split; [assumption|]. split; [eapply is_slice_app_inv; eassumption|]. auto.
Qed.
Lemma range_until_agrees data io ops ro rs s f d : Forall cop_ok ops -> zlen data < 2 ^ 64 ->
  u64_ok ro -> u64_ok rs -> u64_ok s -> u64_ok f -> ro + rs <= zlen data -> f <= rs ->
  (forall op f', In op ops -> until_request op = Some (ro + s, f', d) -> f' <= ro + f) ->
  let c := after data io ops in
  let '(res, c') := range_read_until c ro rs s f d in
  res = (match rr_read_bytes_at_until (zslice ro rs data) s f d with
         | Ok b => if zlen b <? 4096 then Ok b else Err
         | r => r end) \/
  (res = Err /\ io_error_between c c').
Proof.
  intros Hops Hd Hro Hrs Hs Hf Hin Hfr Hends c.
  destruct (range_read_until c ro rs s f d) as [res c'] eqn:E.
  eapply (range_until_spec data) in E; try eassumption; [|apply after_inv; assumption].
  destruct E as (_ & _ & Hp & Hok & Hu). unfold u64_ok in *.
  assert (Hsub: forall b, rr_read_bytes_at_until (zslice ro rs data) s f d = Ok b <->
                          rr_read_bytes_at_until data (ro + s) (ro + f) d = Ok b).
  { intro b. rewrite !delimited_until; try lia. 2: rewrite zlen_zslice; lia.
    unfold delimited_at. rewrite is_slice_sub by lia. rewrite zlen_app. change (zlen [d]) with 1.
    split; intros H; repeat (split; [tauto|]); [|split; [split; [tauto|split; [tauto|lia]]|lia]]. lia. }
  destruct res as [b'| |]; [..|congruence].
  - left. destruct (Hok b' eq_refl) as (K1 & K2 & K3 & K4 & K5 & f' & K6 & K7).
    assert (f' <= ro + f). { destruct K6 as [K6|K6]; [inversion K6; lia|].
      apply In_all_reqs in K6 as (op & Hop & Hq). eapply Hends; eassumption. }
    assert (Hr: rr_read_bytes_at_until (zslice ro rs data) s f d = Ok b').
    { apply Hsub. apply delimited_until; [lia|lia|]; split; [assumption|lia]. }
    rewrite Hr. destruct (Z.ltb_spec (zlen b') 4096); [reflexivity|lia].
  - destruct (rr_read_bytes_at_until (zslice ro rs data) s f d) as [b| |] eqn:Er.
    + destruct (Z.ltb_spec (zlen b) 4096); [|left; reflexivity].
      right. split; [reflexivity|]. eapply used_io_error; [exact Hu|]. split; [reflexivity|].
      exists b. split; [apply Hsub; reflexivity|]. split; [assumption|].
      apply delimited_until in Er; [lia|lia|rewrite zlen_zslice; lia].
    + left; reflexivity.
    + exfalso. exact (rr_until_no_panic _ _ _ _ Er).
Qed.
