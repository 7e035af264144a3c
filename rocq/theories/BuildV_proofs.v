(** Proofs about [delete_unused_versions] (src/build/elf.rs). *)
From Verif Require Import Core_proofs Str_proofs Tab_proofs Build_proofs BuildD_proofs.
From Verif Require Import Build_spec.

Lemma mark_ok v i v' : mark v i = Ok v' <-> 0 <= i < zlen v /\ v' = zset v i true.
Proof.
  unfold mark. split.
  - destruct (zget v i) as [x|] eqn:E; cbn; [|discriminate]. intros [= <-]. split; [apply (zget_Some_lt _ _ _ E)|reflexivity].
  - intros [H ->]. destruct (zget_lt_Some v i H) as (x & ->). reflexivity.
Qed.
Lemma marked v i v' : mark v i = Ok v' -> zlen v' = zlen v /\ forall j, zget v' j = Some true <-> j = i \/ zget v j = Some true.
Proof.
  intros H. apply mark_ok in H as [H ->]. split; [apply zlen_zset; exact H|]. intros j. rewrite zget_zset by lia.
  destruct (Z.eqb_spec j i) as [->|N]; [tauto|]. split; [tauto|intros [->|W]; [congruence|exact W]].
Qed.
Lemma mark_symbols_ok : forall l used used', mark_symbols used l = Ok used' ->
  zlen used' = zlen used /\ Forall (fun m => 0 <= m_version m < zlen used) l /\
  forall i, zget used' i = Some true <-> zget used i = Some true \/ exists m, In m l /\ m_version m = i.
Proof.
  induction l as [|m l IH]; intros used used'; cbn.
  - intros [= <-]. split; [reflexivity|]. split; [constructor|]. intros i. split; [tauto|]. intros [H|(m & [] & _)]. exact H.
  - intros H. inv_bind H u E. pose proof (marked _ _ _ E) as [L1 M1]. apply mark_ok in E as [E _].
    destruct (IH _ _ H) as (L2 & F & M2). rewrite L1 in F. split; [congruence|]. split; [constructor; assumption|].
    intros i. rewrite M2, M1. split.
    + intros [[->|W]|(x & A & B)]; [right; exists m; tauto|tauto|right; exists x; tauto].
    + intros [W|(x & [->|A] & B)]; [tauto|left; left; congruence|right; eauto].
Qed.
Lemma mark_symbols_ex l : forall used, Forall (fun m => 0 <= m_version m < zlen used) l -> exists used', mark_symbols used l = Ok used'.
Proof.
  induction l as [|m l IH]; intros used H; [cbn; eauto|]. inversion H as [|? ? A B]; subst. cbn.
  destruct (mark used (m_version m)) as [u| |] eqn:E.
  - cbn. apply IH. destruct (marked _ _ _ E) as [-> _]. exact B.
  - unfold mark in E. destruct (zget used (m_version m)); discriminate.
  - unfold mark in E. destruct (zget_lt_Some used _ A) as (x & W). rewrite W in E. discriminate.
Qed.

Definition relr (v : bver) := exists file fl, v_data v = VNeed file relr_name fl.
Lemma relr_iff v : relr v <-> match v_data v with VNeed _ name _ => bytes_eqb name relr_name | _ => false end = true.
Proof.
  unfold relr. destruct (v_data v) as [ns fl|f n fl].
  - split; [intros (a & b & H); discriminate|discriminate].
  - rewrite bytes_eqb_eq. split; [intros (a & b & H); congruence|intros ->; eauto].
Qed.
Definition wanted (used : list bool) (i : Z) (v : bver) := zget used i = Some true \/ relr v.
Definition needs (l : list bver) (f : Z) := exists k v name fl, zget l k = Some v /\ v_del v = false /\ v_data v = VNeed f name fl.
Lemma needs_cons v l f : needs (v :: l) f <-> (v_del v = false /\ exists name fl, v_data v = VNeed f name fl) \/ needs l f.
Proof.
  unfold needs. split.
  - intros (k & w & name & fl & A & B & C). pose proof (zget_Some_lt _ _ _ A). destruct (Z.eq_dec k 0) as [->|N].
    + rewrite zget_0 in A. injection A as <-. left. eauto.
    + rewrite zget_S in A by lia. right. eauto 8.
  - intros [(A & name & fl & B)|(k & w & name & fl & A & B & C)].
    + exists 0, v, name, fl. rewrite zget_0. tauto.
    + exists (k + 1), w, name, fl. pose proof (zget_Some_lt _ _ _ A). rewrite zget_S by lia. replace (k + 1 - 1) with k by lia. tauto.
Qed.
Definition ver_done (used : list bool) (i : Z) (v v' : bver) :=
  v_data v' = v_data v /\ (v_del v' = false <-> v_del v = false /\ wanted used i v).
Inductive vers_done (used : list bool) : Z -> list bver -> list bver -> Prop :=
| vd_nil i : vers_done used i [] []
| vd_cons i v v' l l' : ver_done used i v v' -> vers_done used (i + 1) l l' -> vers_done used i (v :: l) (v' :: l').
Lemma vers_done_ext used used2 : forall l i l', (forall j, i <= j -> zget used2 j = Some true <-> zget used j = Some true) ->
  vers_done used2 i l l' -> vers_done used i l l'.
Proof.
  intros l i l' H D. revert H. induction D as [|i v v' l l' [A B] D IH]; intros H; constructor.
  - split; [exact A|]. unfold wanted in *. rewrite <- (H i) by lia. exact B.
  - apply IH. intros j Hj. apply H. lia.
Qed.
Lemma mark_versions_ok : forall l used fused id used' fused' l',
  mark_versions used fused id l = Ok (used', fused', l') ->
  vers_done used id l l' /\ zlen fused' = zlen fused /\
  (forall f, needs l' f -> 0 <= f < zlen fused) /\
  (forall f, zget fused' f = Some true <-> zget fused f = Some true \/ needs l' f).
Proof.
  induction l as [|v l IH]; intros used fused id used' fused' l'; cbn [mark_versions].
  - intros [= <- <- <-]. split; [constructor|]. split; [reflexivity|].
    assert (forall f, ~ needs [] f) as N. { intros f (k & w & n & fl & A & _). apply zget_Some_lt in A. change (zlen (@nil bver)) with 0 in A. lia. }
    split; [intros f H; destruct (N f H)|]. intros f. split; [tauto|]. intros [H|H]; [exact H|destruct (N f H)].
  - destruct (v_del v) eqn:D.
    + intros H. inv_bind H p E. destruct p as [[u1 f1] l1]. injection H as <- <- <-.
      destruct (IH _ _ _ _ _ _ E) as (A & B & C & F). split; [|split; [exact B|]].
      * constructor; [|exact A]. split; [reflexivity|]. rewrite D. split; [discriminate|tauto].
      * split; intros f; rewrite needs_cons, D.
        -- intros [[W _]|W]; [discriminate|auto].
        -- rewrite F. split; [tauto|]. intros [W|[[W _]|W]]; [tauto|discriminate|tauto].
    + intros H. inv_bind H used1 E1.
      assert (zlen used1 = zlen used /\ (forall j, id < j -> zget used1 j = Some true <-> zget used j = Some true) /\
              (zget used1 id = Some true <-> wanted used id v)) as (U1 & U2 & U3).
      { unfold wanted. rewrite relr_iff. destruct (v_data v) as [ns fl|f n fl]; [|destruct (bytes_eqb n relr_name)].
        - injection E1 as <-. split; [reflexivity|]. split; [tauto|]. intuition discriminate.
        - destruct (marked _ _ _ E1) as [A B]. split; [exact A|]. split; [|rewrite B; tauto].
          intros j Hj. rewrite B. split; [intros [->|W]; [lia|exact W]|tauto].
        - injection E1 as <-. split; [reflexivity|]. split; [tauto|]. intuition discriminate. }
      clear E1. inv_bind H u E2. assert (zget used1 id = Some u) as Hu by (unfold unwrap in E2; destruct (zget used1 id); congruence).
      destruct u; cbn [negb] in H.
      * inv_bind H fused1 E3. inv_bind H p E. destruct p as [[u1 f1] l1]. injection H as <- <- <-.
        destruct (IH _ _ _ _ _ _ E) as (A & B & C & F).
        assert (zlen fused1 = zlen fused /\ (forall f name fl, v_data v = VNeed f name fl -> 0 <= f < zlen fused) /\
           forall f, zget fused1 f = Some true <-> zget fused f = Some true \/ exists name fl, v_data v = VNeed f name fl) as (V1 & V2 & V3).
        { destruct (v_data v) as [ns fl|f n fl].
          - injection E3 as <-. split; [reflexivity|]. split; [discriminate|]. intros f. split; [tauto|]. intros [W|(a & b & W)]; [exact W|discriminate].
          - destruct (marked _ _ _ E3) as [P1 P2]. split; [exact P1|]. apply mark_ok in E3 as [E3 _].
            split; [intros f0 n0 fl0 [= <- _ _]; exact E3|]. intros f0. rewrite P2. split.
            + intros [->|W]; [right; eauto|tauto].
            + intros [W|(a & b & [= -> _ _])]; tauto. }
        split; [|split; [congruence|]].
        -- constructor; [|eapply vers_done_ext; [|exact A]; intros j Hj; apply U2; lia].
           split; [reflexivity|]. rewrite D. tauto.
        -- split; intros f; rewrite needs_cons, D.
           ++ intros [(_ & n & fl & W)|W]; [eauto|]. rewrite <- V1. auto.
           ++ rewrite F, V3. tauto.
      * inv_bind H p E. destruct p as [[u1 f1] l1]. injection H as <- <- <-.
        destruct (IH _ _ _ _ _ _ E) as (A & B & C & F). split; [|split; [exact B|]].
        -- constructor; [|eapply vers_done_ext; [|exact A]; intros j Hj; apply U2; lia].
           split; [reflexivity|]. cbn [v_del]. split; [discriminate|]. intros [_ W]. apply U3 in W. congruence.
        -- split; intros f; rewrite needs_cons; cbn [v_del].
           ++ intros [[W _]|W]; [discriminate|auto].
           ++ rewrite F. split; [tauto|]. intros [W|[[W _]|W]]; [tauto|discriminate|tauto].
Qed.
Lemma mark_versions_ex : forall l used fused id, 0 <= id -> id + zlen l <= zlen used ->
  (forall k v f n fl, zget l k = Some v -> v_del v = false -> wanted used (id + k) v -> v_data v = VNeed f n fl -> 0 <= f < zlen fused) ->
  exists p, mark_versions used fused id l = Ok p.
Proof.
  induction l as [|v l IH]; intros used fused id Hid Hl H; cbn [mark_versions]; [eauto|]. rewrite zlen_cons in Hl. pose proof (zlen_nonneg l).
  assert (forall k v0 f n fl, zget l k = Some v0 -> v_del v0 = false -> wanted used (id + 1 + k) v0 -> v_data v0 = VNeed f n fl -> 0 <= f < zlen fused) as H'.
  { intros k v0 f n fl A B C. pose proof (zget_Some_lt _ _ _ A). apply (H (k + 1) v0 f n fl); [|exact B|].
    - rewrite zget_S by lia. replace (k + 1 - 1) with k by lia. exact A.
    - replace (id + (k + 1)) with (id + 1 + k) by lia. exact C. }
  destruct (v_del v) eqn:D.
  - destruct (IH used fused (id + 1) ltac:(lia) ltac:(lia) H') as ([[a b] c] & E). rewrite E. cbn. eauto.
  - assert (exists used1, match v_data v with VNeed _ name _ => if bytes_eqb name relr_name then mark used id else Ok used | _ => Ok used end = Ok used1 /\
      zlen used1 = zlen used /\ (forall j, id < j -> zget used1 j = Some true <-> zget used j = Some true) /\
      (zget used1 id = Some true -> wanted used id v)) as (used1 & -> & U1 & U2 & U3).
    { unfold wanted. pose proof (relr_iff v) as RI. revert RI. destruct (v_data v) as [ns fl|f n fl]; [|destruct (bytes_eqb n relr_name)].
      - intros RI. exists used. split; [reflexivity|]. split; [reflexivity|]. split; [tauto|tauto].
      - intros RI. exists (zset used id true). assert (mark used id = Ok (zset used id true)) as M by (apply mark_ok; split; [lia|reflexivity]).
        split; [exact M|]. destruct (marked _ _ _ M) as [A B]. split; [exact A|]. split; [|tauto].
        intros j Hj. rewrite B. split; [intros [->|W]; [lia|exact W]|tauto].
      - intros RI. exists used. split; [reflexivity|]. split; [reflexivity|]. split; [tauto|tauto]. }
    cbn [bind]. destruct (zget_lt_Some used1 id ltac:(lia)) as (u & Hu). rewrite Hu. cbn [unwrap bind].
    assert (forall fz, zlen fz = zlen fused -> exists p, mark_versions used1 fz (id + 1) l = Ok p) as R.
    { intros fz Hz. apply IH; [lia|lia|]. intros k v0 f n fl A B C. pose proof (zget_Some_lt _ _ _ A). rewrite Hz. apply (H' k v0 f n fl A B).
      unfold wanted in *. rewrite <- (U2 (id + 1 + k)) by lia. exact C. }
    destruct u; cbn [negb].
    + assert (wanted used id v) as W by auto. clear U3. specialize (H 0 v). rewrite zget_0, Z.add_0_r in H.
      destruct (v_data v) as [ns fl|f n fl].
      * destruct (R fused eq_refl) as ([[a b] c] & E). cbn [bind]. rewrite E. cbn. eauto.
      * specialize (H f n fl eq_refl D W eq_refl). assert (mark fused f = Ok (zset fused f true)) as M by (apply mark_ok; split; [lia|reflexivity]).
        rewrite M. cbn [bind]. destruct (R (zset fused f true) (zlen_zset fused f true ltac:(lia))) as ([[a b] c] & E). rewrite E. cbn. eauto.
    + destruct (R fused eq_refl) as ([[a b] c] & E). rewrite E. cbn. eauto.
Qed.
Lemma vers_done_get used : forall i l l', vers_done used i l l' -> zlen l' = zlen l /\
  forall k v, zget l k = Some v -> exists v', zget l' k = Some v' /\ ver_done used (i + k) v v'.
Proof.
  intros i l l' D. induction D as [|i v v' l l' W D [L IH]].
  - split; [reflexivity|]. intros k v H. apply zget_Some_lt in H. change (zlen (@nil bver)) with 0 in H. lia.
  - split; [rewrite !zlen_cons; lia|]. intros k w H. pose proof (zget_Some_lt _ _ _ H). destruct (Z.eq_dec k 0) as [->|N].
    + rewrite zget_0 in H. injection H as <-. exists v'. rewrite zget_0, Z.add_0_r. tauto.
    + rewrite zget_S in H by lia. rewrite zget_S by lia. destruct (IH _ _ H) as (w' & A & B). exists w'. split; [exact A|].
      replace (i + k) with (i + 1 + (k - 1)) by lia. exact B.
Qed.
Lemma unused_files_ok : forall l fused id l', unused_files fused id l = Ok l' -> zlen l' = zlen l /\
  forall k f, zget l k = Some f -> exists f', zget l' k = Some f' /\ f_name f' = f_name f /\
    (f_del f' = false <-> f_del f = false /\ zget fused (id + k) = Some true).
Proof.
  induction l as [|f l IH]; intros fused id l'; cbn [unused_files].
  - intros [= <-]. split; [reflexivity|]. intros k v H. apply zget_Some_lt in H. change (zlen (@nil bfile)) with 0 in H. lia.
  - intros H. inv_bind H f' E. inv_bind H l1 E1. injection H as <-. destruct (IH _ _ _ E1) as [L G1].
    split; [rewrite !zlen_cons; lia|]. intros k w H. pose proof (zget_Some_lt _ _ _ H). destruct (Z.eq_dec k 0) as [->|N].
    + rewrite zget_0 in H. injection H as <-. exists f'. rewrite zget_0, Z.add_0_r. split; [reflexivity|].
      destruct (f_del f) eqn:D.
      * injection E as <-. split; [reflexivity|]. rewrite D. split; [discriminate|tauto].
      * destruct (zget fused id) as [[|]|]; cbn in E; [| |discriminate]; injection E as <-.
        -- split; [reflexivity|]. rewrite D. tauto.
        -- split; [reflexivity|]. cbn. split; [discriminate|]. intros [_ W]. discriminate.
    + rewrite zget_S in H by lia. rewrite zget_S by lia. destruct (G1 _ _ H) as (w' & A & B). exists w'. split; [exact A|].
      replace (id + k) with (id + 1 + (k - 1)) by lia. exact B.
Qed.
Lemma unused_files_ex : forall l fused id, 0 <= id -> id + zlen l <= zlen fused -> exists l', unused_files fused id l = Ok l'.
Proof.
  induction l as [|f l IH]; intros fused id Hid Hl; [cbn; eauto|]. rewrite zlen_cons in Hl. pose proof (zlen_nonneg l). cbn.
  destruct (IH fused (id + 1) ltac:(lia) ltac:(lia)) as (l' & E).
  destruct (f_del f); cbn [bind]; [rewrite E; cbn; eauto|].
  destruct (zget_lt_Some fused id ltac:(lia)) as (u & ->). cbn. rewrite E. cbn. eauto.
Qed.
Lemma zget_falses n i : zget (repeat false n) i <> Some true.
Proof. intros H. apply zget_In, repeat_spec in H. discriminate. Qed.
Lemma zlen_falses n : zlen (repeat false n) = Z.of_nat n.
Proof. unfold zlen. rewrite repeat_length. reflexivity. Qed.
Lemma live_in b m : In m (tab_iter m_del (b_dynsyms b)) <-> In m (b_dynsyms b) /\ m_del m = false.
Proof. rewrite iter_filter, filter_In. destruct (m_del m); cbn; intuition discriminate. Qed.

Lemma versions_ok b b' : delete_unused_versions b = Ok b' -> unused_deleted b b' /\ ver_ids_ok b.
Proof.
  unfold delete_unused_versions. intros H. inv_bind H used E1. inv_bind H p E2. destruct p as [[u2 fused] vers]. inv_bind H files E3.
  injection H as <-. destruct (mark_symbols_ok _ _ _ E1) as (L1 & R1 & M1). rewrite zlen_falses in L1, R1.
  destruct (mark_versions_ok _ _ _ _ _ _ _ E2) as (A & B & C & F). rewrite zlen_falses in B, C. fold (zlen (b_files b)) in B, C.
  destruct (vers_done_get _ _ _ _ A) as [LV GV]. destruct (unused_files_ok _ _ _ _ E3) as [LF GF].
  assert (forall i v, zget (b_vers b) i = Some v -> (wanted used (VERSION_ID_BASE + i) v <-> ver_used b i v)) as WU.
  { intros i v Hv. unfold wanted, ver_used, relr. rewrite M1. unfold VERSION_ID_BASE.
    assert ((exists m, In m (tab_iter m_del (b_dynsyms b)) /\ m_version m = 2 + i) <-> (exists m, In m (b_dynsyms b) /\ m_del m = false /\ m_version m = i + 2)) as ->.
    { split; intros (m & P & Q).
      - apply live_in in P. exists m. split; [tauto|]. split; [tauto|lia].
      - exists m. rewrite live_in. split; [tauto|lia]. }
    split; [|tauto]. intros [[W|W]|W]; [destruct (zget_falses _ _ W)|tauto|tauto]. }
  split.
  - unfold unused_deleted, with_vers. cbn [b_segs b_secs b_syms b_dynsyms b_vers b_files].
    do 4 (split; [reflexivity|]). split; [exact LV|]. split; [exact LF|]. split.
    + intros i v Hv. destruct (GV i v Hv) as (v' & P & Q & R). exists v'. rewrite (WU i v Hv) in R. tauto.
    + intros i f Hf. destruct (GF i f Hf) as (f' & P & Q & R). exists f'. split; [exact P|]. split; [exact Q|].
      rewrite R, F. unfold file_used. cbn [b_vers with_vers]. fold (needs vers (0 + i)). rewrite Z.add_0_l.
      split; [|tauto]. intros [X [W|W]]; [destruct (zget_falses _ _ W)|tauto].
  - split.
    + intros m Hm Hd. rewrite Forall_forall in R1. specialize (R1 m). rewrite live_in in R1. specialize (R1 (conj Hm Hd)). unfold zlen in *. lia.
    + intros i v file name fl Hv Hd Hu Hn. destruct (GV i v Hv) as (v' & P & Q & R). apply C.
      exists i, v', name, fl. split; [exact P|]. rewrite R, (WU i v Hv), Q. tauto.
Qed.
Lemma versions_ex b : ver_ids_ok b -> exists b', delete_unused_versions b = Ok b'.
Proof.
  intros [H1 H2]. unfold delete_unused_versions.
  destruct (mark_symbols_ex (tab_iter m_del (b_dynsyms b)) (repeat false (length (b_vers b) + 2))) as (used & E).
  { apply Forall_forall. intros m Hm. apply live_in in Hm as [Hm Hd]. rewrite zlen_falses. specialize (H1 m Hm Hd). unfold zlen in H1. lia. }
  rewrite E. cbn [bind]. destruct (mark_symbols_ok _ _ _ E) as (L1 & R1 & M1). rewrite zlen_falses in L1.
  destruct (mark_versions_ex (b_vers b) used (repeat false (length (b_files b))) VERSION_ID_BASE) as ([[u2 fused] vers] & E2).
  - unfold VERSION_ID_BASE; lia.
  - unfold VERSION_ID_BASE. unfold zlen in *. lia.
  - intros k v f n fl Hv Hd Hw Hn. rewrite zlen_falses. fold (zlen (b_files b)). apply (H2 k v f n fl Hv Hd); [|exact Hn].
    unfold wanted, VERSION_ID_BASE in Hw. rewrite M1 in Hw. unfold ver_used. destruct Hw as [[W|(m & P & Q)]|W].
    + destruct (zget_falses _ _ W).
    + left. apply live_in in P. exists m. split; [tauto|]. split; [tauto|lia].
    + right. exact W.
  - rewrite E2. cbn [bind]. destruct (mark_versions_ok _ _ _ _ _ _ _ E2) as (_ & B & _). rewrite zlen_falses in B.
    destruct (unused_files_ex (b_files b) fused 0 ltac:(lia)) as (l' & E3); [unfold zlen in *; lia|]. rewrite E3. cbn. eauto.
Qed.
