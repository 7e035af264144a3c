From Verif Require Import Core_proofs Str_proofs Tab_spec.

Lemma tab_run_spec {T} (ops : list (tab_op T)) : forall t, ids_valid (zlen t) ops ->
  exists t', tab_run t ops = Ok t' /\ zlen t' = zlen t + zlen (pushed ops) /\
    forall id, zget t' id = option_map (changes ops id) (zget (t ++ pushed ops) id).
Proof.
  induction ops as [|[x|i f] ops IH]; intros t Hv; cbn [tab_run pushed ids_valid changes] in *.
  - exists t. rewrite app_nil_r. change (zlen (@nil T)) with 0. split; [reflexivity|]. split; [lia|].
    intro id. destruct (zget t id); reflexivity.
  - destruct (IH (tab_push t x)) as (t' & E & Hl & H).
    { unfold tab_push. rewrite zlen_app. exact Hv. }
    exists t'. split; [exact E|]. unfold tab_push in *. rewrite zlen_app in Hl. zl_norm. zl_norm_in Hl.
    split; [lia|]. intro id. rewrite H, <- app_assoc. reflexivity.
  - destruct Hv as [Hi Hv]. unfold tab_update. destruct (zget_lt_Some t i Hi) as [y Ey]. rewrite Ey.
    cbn [unwrap bind].
    assert (Hzl : zlen (zset t i (f y)) = zlen t) by (apply zlen_zset; lia).
    destruct (IH (zset t i (f y))) as (t' & E & Hl & H); [rewrite Hzl; exact Hv|].
    exists t'. split; [exact E|]. split; [lia|]. intro id. rewrite H.
    destruct (Z.lt_ge_cases id (zlen t)) as [Hlt|Hge].
    + rewrite !zget_app1 by lia. rewrite zget_zset by lia. destruct (Z.eqb_spec i id) as [->|Hne].
      * rewrite Z.eqb_refl, Ey. reflexivity.
      * destruct (Z.eqb_spec id i); [congruence|]. reflexivity.
    + rewrite !zget_app2 by lia. rewrite Hzl. destruct (Z.eqb_spec i id); [lia|]. reflexivity.
Qed.

Lemma iter_next_filter {T} (deleted : T -> bool) it :
  match tab_iter_next deleted it with
  | (None, _) => filter (fun x => negb (deleted x)) it = []
  | (Some x, it') => filter (fun x => negb (deleted x)) it = x :: filter (fun x => negb (deleted x)) it' /\
                     (length it' < length it)%nat
  end.
Proof.
  induction it as [|y it IH]; cbn [tab_iter_next filter]; [reflexivity|].
  destruct (deleted y); cbn [negb].
  - destruct (tab_iter_next deleted it) as [[x|] it']; [|exact IH]. destruct IH; split; [assumption|cbn; lia].
  - split; [reflexivity|cbn; lia].
Qed.
Lemma drain_filter {T} (deleted : T -> bool) fuel : forall it, (length it < fuel)%nat ->
  tab_drain deleted fuel it = filter (fun x => negb (deleted x)) it.
Proof.
  induction fuel as [|fuel IH]; intros it Hf; [lia|]. cbn [tab_drain].
  pose proof (iter_next_filter deleted it) as H. destruct (tab_iter_next deleted it) as [[x|] it'].
  - destruct H as [-> Hl]. rewrite IH by lia. reflexivity.
  - symmetry; exact H.
Qed.
Lemma iter_filter {T} (deleted : T -> bool) t : tab_iter deleted t = filter (fun x => negb (deleted x)) t.
Proof. apply drain_filter. lia. Qed.
Lemma is_empty_iter {T} (deleted : T -> bool) t : tab_is_empty deleted t = true <-> tab_iter deleted t = [].
Proof.
  rewrite iter_filter. unfold tab_is_empty. pose proof (iter_next_filter deleted t) as H.
  destruct (tab_iter_next deleted t) as [[x|] it']; cbn [fst].
  - destruct H as [-> _]. split; discriminate.
  - tauto.
Qed.
Lemma tab_history {T} (deleted : T -> bool) (ops : list (tab_op T)) : ids_valid 0 ops ->
  exists t, tab_run tab_new ops = Ok t /\
    (forall id, tab_get t id = unwrap (option_map (changes ops id) (zget (pushed ops) id))) /\
    tab_len t = zlen (pushed ops) /\
    tab_iter deleted t = filter (fun x => negb (deleted x))
      (map (fun p => changes ops (fst p) (snd p)) (combine (seqZ (length (pushed ops))) (pushed ops))) /\
    tab_count deleted t = zlen (tab_iter deleted t) /\
    (tab_is_empty deleted t = true <-> tab_count deleted t = 0).
Proof.
  intro Hv. destruct (tab_run_spec ops [] Hv) as (t & E & Hl & H). cbn [app] in H.
  change (zlen (@nil T)) with 0 in Hl. exists t. split; [exact E|].
  split. { intro id. unfold tab_get. rewrite H. reflexivity. }
  split. { unfold tab_len. lia. }
  split.
  { rewrite iter_filter. f_equal. apply zget_ext.
    - rewrite zlen_map. unfold zlen. rewrite combine_length. unfold seqZ. rewrite map_length, seq_length.
      unfold zlen in Hl. lia.
    - intros i Hi. rewrite H. assert (Hi2 : 0 <= i < zlen (pushed ops)) by lia. clear -Hi2.
      assert (G : forall k (l : list T) i, 0 <= i < zlen l ->
        zget (map (fun p => changes ops (fst p) (snd p)) (combine (map Z.of_nat (seq k (length l))) l)) i
        = option_map (changes ops (Z.of_nat k + i)) (zget l i)).
      { intros k l. revert k. induction l as [|x l IH]; intros k j Hj; [change (zlen (@nil T)) with 0 in Hj; lia|].
        cbn [length seq map combine]. rewrite zlen_cons in Hj. destruct (Z.eq_dec j 0) as [->|].
        - rewrite !zget_0. cbn [fst snd option_map]. rewrite Z.add_0_r. reflexivity.
        - rewrite !zget_S by lia. rewrite IH by lia. do 2 f_equal. lia. }
      unfold seqZ. rewrite (G 0%nat) by exact Hi2. reflexivity. }
  split; [reflexivity|]. rewrite is_empty_iter. unfold tab_count. split; intro Hx.
  - rewrite Hx. reflexivity.
  - apply zlen_0_nil; exact Hx.
Qed.
