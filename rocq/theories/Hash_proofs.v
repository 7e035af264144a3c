From Coq Require Import Permutation Sorting.Sorted.
From Verif Require Import Core_proofs Str_proofs Map_proofs Util_proofs.
From Verif Require Export Hash_spec.

(** * SysV *)
Inductive chain (chains : list Z) : Z -> list Z -> Prop :=
| chain_nil : chain chains 0 []
| chain_cons j nx l : j <> 0 -> zget chains j = Some nx -> chain chains nx l -> chain chains j (j :: l).

Lemma chain_zset chains i x s l : 0 <= i < zlen chains -> chain chains s l -> (forall j, In j l -> j <> i) ->
  chain (zset chains i x) s l.
Proof.
  intros Hi H. induction H; intro Hn; [constructor|].
  apply chain_cons with nx; [assumption| |].
  - rewrite zget_zset by assumption. destruct (Z.eqb_spec j i); [exfalso; eapply Hn; [left; reflexivity|assumption]|assumption].
  - apply IHchain. intros. apply Hn. now right.
Qed.

Definition hinv (B N : Z) (hash : Z -> option Z) (i : Z) (buckets chains : list Z) : Prop :=
  zlen buckets = B /\ zlen chains = N /\
  Forall (fun x => 0 <= x < 2 ^ 32) buckets /\ Forall (fun x => 0 <= x < 2 ^ 32) chains /\
  forall b, 0 <= b < B -> exists s l, zget buckets b = Some s /\ chain chains s l /\
    (forall j, In j l <-> 0 < j < i /\ exists h, hash j = Some h /\ h mod B = b) /\
    StronglySorted (fun x y => y < x) l.

Lemma Forall_zset {A} (P : A -> Prop) l i x : Forall P l -> P x -> Forall P (zset l i x).
Proof.
  intros H Hx. unfold zset. apply Forall_app. split; [|constructor; [assumption|]].
  - rewrite <- (ztake_zdrop i l) in H. apply Forall_app in H. tauto.
  - rewrite <- (ztake_zdrop (i + 1) l) in H. apply Forall_app in H. tauto.
Qed.
Lemma Forall_zget {A} (P : A -> Prop) l i x : Forall P l -> zget l i = Some x -> P x.
Proof. intros H E. rewrite Forall_forall in H. apply H. eapply zget_In; eauto. Qed.

Lemma hw_loop_inv B N hash : 0 < B < 2 ^ 32 -> N < 2 ^ 32 -> forall n i buckets chains,
  0 <= i -> i + Z.of_nat n = N -> hinv B N hash i buckets chains ->
  exists bs cs, hw_loop n i B hash buckets chains = Ok (bs, cs) /\ hinv B N hash N bs cs.
Proof.
  intros HB HN. induction n as [|n IH]; intros i buckets chains Hi Hn Hinv.
  - cbn. replace N with i by lia. eauto. exists buckets, chains. split; [reflexivity|]. replace i with N by lia.
    replace i with N in Hinv by lia. assumption.
  - cbn [hw_loop]. destruct Hinv as (L1 & L2 & F1 & F2 & H).
    destruct (hash i) as [h|] eqn:Eh.
    + destruct (Z.eqb_spec B 0); [lia|].
      assert (Hb : 0 <= h mod B < B) by (apply Z.mod_pos_bound; lia). cbv zeta.
      destruct (zget_lt_Some buckets (h mod B)) as [old Eold]; [lia|]. rewrite Eold. cbn [unwrap bind].
      destruct (zget_lt_Some chains i) as [ci Eci]; [lia|]. rewrite Eci. cbn [unwrap bind].
      apply IH; [lia|lia|]. unfold hinv.
      rewrite !zlen_zset by lia. split; [assumption|]. split; [assumption|].
      split; [apply Forall_zset; [assumption|lia]|].
      split; [apply Forall_zset; [assumption|apply (Forall_zget _ _ _ _ F1 Eold)]|].
      intros b Hb2. rewrite zget_zset by lia.
      destruct (H b Hb2) as (s & l & E1 & C & M & S).
      assert (Hlt : forall j, In j l -> j <> i) by (intros j Hj; apply M in Hj; lia).
      destruct (Z.eqb_spec b (h mod B)) as [Eb|Nb].
      * destruct (Z.eq_dec i 0) as [Ei|Ni].
        -- exists i, []. split; [reflexivity|]. split; [rewrite Ei; constructor|]. split; [|constructor].
           intro j. split; [intros []|]. lia.
        -- exists i, (i :: l). split; [reflexivity|].
           assert (old = s) by congruence. subst old.
           split; [|split].
           ++ econstructor; [assumption| |].
              ** rewrite zget_zset by lia. rewrite Z.eqb_refl. reflexivity.
              ** apply chain_zset; try assumption; lia.
           ++ intro j. cbn [In]. rewrite M. split.
              ** intros [<-|(? & ?)]; [|split; [lia|assumption]]. split; [lia|]. exists h. auto.
              ** intros (? & ?). destruct (Z.eq_dec i j); [left; assumption|right]. split; [lia|assumption].
           ++ constructor; [assumption|]. apply Forall_forall. intros j Hj. apply M in Hj. lia.
      * exists s, l. split; [assumption|]. split; [apply chain_zset; try assumption; lia|]. split; [|assumption].
        intro j. rewrite M. split; intros (? & h' & ? & ?); (split; [|eauto]); [lia|].
        destruct (Z.eq_dec j i) as [->|]; [|lia]. congruence.
    + apply IH; [lia|lia|]. split; [assumption|]. split; [assumption|]. split; [assumption|]. split; [assumption|].
      intros b Hb2. destruct (H b Hb2) as (s & l & E1 & C & M & S). exists s, l.
      split; [assumption|]. split; [assumption|]. split; [|assumption].
      intro j. rewrite M. split; intros (? & h' & ? & ?); (split; [|eauto]); [lia|].
      destruct (Z.eq_dec j i) as [->|]; [|lia]. congruence.
Qed.

Lemma hinv_init B N hash : 0 <= B -> 0 <= N -> hinv B N hash 0 (zeros B) (zeros N).
Proof.
  intros. unfold hinv. rewrite !zlen_zeros by assumption. split; [reflexivity|]. split; [reflexivity|].
  assert (Hz : forall n, Forall (fun x => 0 <= x < 2 ^ 32) (zeros n)).
  { intro n. apply Forall_forall. intros x Hx. apply repeat_spec in Hx. lia. }
  split; [apply Hz|]. split; [apply Hz|]. intros b Hb. exists 0, [].
  split.
  - destruct (zget_lt_Some (zeros B) b) as [x Ex]; [rewrite zlen_zeros; lia|]. rewrite Ex.
    apply zget_In, repeat_spec in Ex. congruence.
  - split; [constructor|]. split; [|constructor]. intro j. split; [intros []|lia].
Qed.

Lemma zlen_words e l : zlen (words e l) = 4 * zlen l.
Proof.
  unfold words. rewrite (zlen_concat_const 4).
  - rewrite zlen_map. lia.
  - apply (Forall_write_u e 4).
Qed.

Lemma fld_app e pre v n post off : off = zlen pre -> 0 <= v < 2 ^ (8 * Z.of_nat n) ->
  fld e off (Z.of_nat n) (pre ++ write_u e n v ++ post) = v.
Proof.
  intros -> Hv. unfold fld. rewrite zslice_app_eq; [|reflexivity|symmetry; apply zlen_write_u].
  apply read_write_u_small; assumption.
Qed.

Lemma name_is_true nm j name : name_is nm j name = true <-> zget nm j = Some (Ok name).
Proof.
  unfold name_is. destruct (zget nm j) as [[n| |]|]; [|split; congruence..].
  rewrite bytes_eqb_eq. split; congruence.
Qed.
Definition mtest nm vm name j := name_is nm j name && vm j.
Lemma mtest_true nm vm name j : mtest nm vm name j = true <-> sym_matches nm vm name j.
Proof. unfold mtest, sym_matches. rewrite andb_true_iff, name_is_true. tauto. Qed.

Lemma ht_find_loop_chain chains nm vm name : forall l fuel s, chain chains s l -> (length l <= fuel)%nat ->
  ht_find_loop fuel chains nm vm name s = find (mtest nm vm name) l.
Proof.
  induction l as [|j l IH]; intros fuel s C Hf; inversion C as [|j' nx l' Hj Hz Hc]; subst.
  - destruct fuel; reflexivity.
  - destruct fuel as [|fuel]; [cbn in Hf; lia|]. cbn [ht_find_loop find].
    destruct (Z.eqb_spec j 0); [contradiction|]. change (name_is nm j name && vm j) with (mtest nm vm name j).
    destruct (mtest nm vm name j); [reflexivity|]. rewrite Hz. apply IH; [assumption|cbn in Hf; lia].
Qed.

Lemma find_desc (f : Z -> bool) l : StronglySorted (fun x y => y < x) l ->
  greatest_such (fun j => In j l /\ f j = true) (find f l).
Proof.
  induction 1 as [|x l H IH Hx]; cbn.
  - tauto.
  - destruct (f x) eqn:E; cbn.
    + split; [auto|]. intros k [[->|Hk] _]; [lia|]. rewrite Forall_forall in Hx. specialize (Hx k Hk). lia.
    + destruct (find f l); cbn in *.
      * destruct IH as [[] IH]. split; [auto|]. intros k [[->|Hk] ?]; [congruence|auto].
      * intros k [[->|Hk] ?]; [congruence|]. eapply IH; eauto.
Qed.
Lemma greatest_ext P Q r : (forall j, P j <-> Q j) -> greatest_such P r -> greatest_such Q r.
Proof. intros H. destruct r; cbn; [intros [A C]; split; [now apply H|intros; apply C; now apply H]|intros A k Hk; apply (A k); now apply H]. Qed.

Lemma sorted_desc_NoDup l : StronglySorted (fun x y => y < x) l -> NoDup l.
Proof.
  induction 1 as [|x l H IH Hx]; constructor; [|assumption].
  intro Hin. rewrite Forall_forall in Hx. specialize (Hx x Hin). lia.
Qed.
Lemma desc_length l N : NoDup l -> (forall j, In j l -> 0 <= j < N) -> (length l <= Z.to_nat N)%nat.
Proof.
  intros H1 H2. destruct l as [|x l']; [cbn; lia|]. set (l := x :: l') in *.
  assert (Hl : incl l (seqZ (Z.to_nat N))).
  { intros j Hj. apply seqZ_spec. specialize (H2 j Hj). lia. }
  apply NoDup_incl_length in Hl; [|assumption]. unfold seqZ in Hl. rewrite map_length, seq_length in Hl. exact Hl.
Qed.

(** The table that the reader sees. *)
Lemma ht_parse_written e B N bs cs : zlen bs = B -> zlen cs = N -> B < 2 ^ 32 -> N < 2 ^ 32 ->
  Forall (fun x => 0 <= x < 2 ^ 32) bs -> Forall (fun x => 0 <= x < 2 ^ 32) cs -> forall rest,
  ht_parse e ((write_u e 4 B ++ write_u e 4 N ++ words e bs ++ words e cs) ++ rest) = Ok (bs, cs).
Proof.
  intros L1 L2 HB HN F1 F2 rest. unfold ht_parse.
  pose proof (zlen_nonneg bs). pose proof (zlen_nonneg cs).
  set (h := write_u e 4 B ++ write_u e 4 N).
  assert (Lh : zlen h = 8) by (unfold h; rewrite zlen_app, !zlen_write_u; reflexivity).
  replace ((write_u e 4 B ++ write_u e 4 N ++ words e bs ++ words e cs) ++ rest)
    with ([] ++ h ++ (words e bs ++ words e cs ++ rest)) by (unfold h; rewrite <- !app_assoc; reflexivity).
  rewrite rr_read_app; [|reflexivity|symmetry; assumption|change (zlen (@nil Z)) with 0; lia].
  change (zlen (@nil Z)) with 0. rewrite Lh. cbn [bind Z.add app].
  assert (E0 : fld e 0 4 h = B).
  { unfold h. apply (fld_app e [] B 4 (write_u e 4 N)); [reflexivity|change (8 * Z.of_nat 4) with 32; lia]. }
  assert (E4 : fld e 4 4 h = N).
  { unfold h. rewrite <- (app_nil_r (write_u e 4 N)). apply (fld_app e (write_u e 4 B) N 4 []); [rewrite zlen_write_u; reflexivity|change (8 * Z.of_nat 4) with 32; lia]. }
  rewrite E0, E4.
  unfold words. rewrite (rr_read_slice_app h _ _ 8 4 B); [|lia|lia|apply (Forall_write_u e 4)|rewrite zlen_map; lia|rewrite zlen_map; lia].
  cbn [bind]. replace (zlen h + zlen (map (write_u e 4) bs) * 4) with (zlen (h ++ concat (map (write_u e 4) bs))).
  2:{ rewrite zlen_app, (zlen_concat_const 4); [reflexivity|apply (Forall_write_u e 4)]. }
  rewrite (app_assoc h). rewrite (rr_read_slice_app _ (map (write_u e 4) cs) rest _ 4 N); [|reflexivity|lia|apply (Forall_write_u e 4)|rewrite zlen_map; lia|].
  - cbn [bind]. rewrite !map_read_write_u; [reflexivity| |];
      (eapply Forall_impl; [|eassumption]; intros x Hx; change (8 * Z.of_nat 4) with 32; exact Hx).
  - rewrite zlen_app, (zlen_concat_const 4) by apply (Forall_write_u e 4). rewrite !zlen_map. lia.
Qed.

Lemma ht_find_inv B N hash bs cs nm vm name h : 0 < B -> hinv B N hash N bs cs -> 0 <= h ->
  exists r, ht_find (bs, cs) nm vm name h = Ok r /\
    greatest_such (fun j => sysv_member hash B N h j /\ sym_matches nm vm name j) r.
Proof.
  intros HB (L1 & L2 & F1 & F2 & H) Hh. unfold ht_find, ht_bucket. cbn [fst snd].
  rewrite L1. destruct (Z.eqb_spec B 0); [lia|].
  destruct (H (h mod B)) as (s & l & E1 & C & M & S); [apply Z.mod_pos_bound; lia|].
  rewrite E1. cbn [unwrap bind].
  rewrite (ht_find_loop_chain _ _ _ _ l); [|assumption|].
  - eexists. split; [reflexivity|]. eapply greatest_ext; [|apply find_desc; assumption].
    intro j. cbn beta. rewrite M, mtest_true. unfold sysv_member. tauto.
  - assert (N = zlen cs) by auto. replace (length cs) with (Z.to_nat N) by (unfold zlen in *; lia).
    apply desc_length; [apply sorted_desc_NoDup; assumption|]. intros j Hj. apply M in Hj. lia.
Qed.

Theorem sysv_written : forall e B N hash, 0 < B < 2 ^ 32 -> 0 <= N < 2 ^ 32 ->
  exists tab, hash_table e B N hash = Ok tab /\ zlen tab = hash_size B N /\
  forall rest, exists t, ht_parse e (tab ++ rest) = Ok t /\ ht_symbol_table_length t = N /\
  forall nm vm name h, 0 <= h -> exists r, ht_find t nm vm name h = Ok r /\
    greatest_such (fun j => sysv_member hash B N h j /\ sym_matches nm vm name j) r.
Proof.
  intros e B N hash HB HN.
  destruct (hw_loop_inv B N hash HB (proj2 HN) (Z.to_nat N) 0 (zeros B) (zeros N)) as (bs & cs & E & I); [lia|lia|apply hinv_init; lia|].
  eexists. split; [unfold hash_table; rewrite E; reflexivity|]. pose proof I as (L1 & L2 & F1 & F2 & _).
  split.
  - rewrite !zlen_app, !zlen_write_u, !zlen_words. unfold hash_size. lia.
  - intro rest. eexists. split; [apply ht_parse_written; try assumption; lia|]. split.
    + unfold ht_symbol_table_length. cbn [snd]. unfold wrap_u. rewrite L2. apply Z.mod_small. lia.
    + intros. apply ht_find_inv; auto. lia.
Qed.

Lemma sysv_parse_no_panic e data : ht_parse e data <> Panic.
Proof.
  unfold ht_parse. pose proof (rr_read_no_panic data 0 8) as H1.
  destruct (rr_read data 0 8) as [[h| |] o]; cbn [fst bind] in *; try congruence.
  pose proof (rr_read_slice_no_panic data o 4 (fld e 0 4 h)) as H2.
  destruct (rr_read_slice data o 4 (fld e 0 4 h)) as [[x| |] o2]; cbn [fst bind] in *; try congruence.
  pose proof (rr_read_slice_no_panic data o2 4 (fld e 4 4 h)) as H3.
  destruct (rr_read_slice data o2 4 (fld e 4 4 h)) as [[y| |] o3]; cbn [fst bind] in *; try congruence.
Qed.
Lemma ht_bucket_no_panic bs h : 0 <= h -> exists r, ht_bucket bs h = Ok r.
Proof.
  intros. unfold ht_bucket. destruct (Z.eqb_spec (zlen bs) 0); [eauto|]. pose proof (zlen_nonneg bs).
  destruct (zget_lt_Some bs (h mod zlen bs)) as [x Ex]; [apply Z.mod_pos_bound; lia|]. rewrite Ex. cbn. eauto.
Qed.
Lemma ht_find_loop_sound chains nm vm name : forall fuel s j, ht_find_loop fuel chains nm vm name s = Some j ->
  j <> 0 /\ sym_matches nm vm name j.
Proof.
  induction fuel as [|fuel IH]; intros s j; cbn [ht_find_loop]; [discriminate|].
  destruct (Z.eqb_spec s 0); [discriminate|]. fold (mtest nm vm name s). destruct (mtest nm vm name s) eqn:E.
  - intro H; inversion H; subst. split; [assumption|]. now apply mtest_true.
  - destruct (zget chains s); [apply IH|discriminate].
Qed.
Theorem sysv_sound : forall t nm vm name h, 0 <= h -> exists r, ht_find t nm vm name h = Ok r /\
  forall j, r = Some j -> j <> 0 /\ sym_matches nm vm name j.
Proof.
  intros [bs cs] nm vm name h Hh. unfold ht_find. cbn [fst snd].
  destruct (ht_bucket_no_panic bs h Hh) as [b Eb]. rewrite Eb. cbn [bind].
  destruct b as [s|].
  - eexists. split; [reflexivity|]. intros j. apply ht_find_loop_sound.
  - eexists. split; [reflexivity|]. discriminate.
Qed.

(** * GNU *)
Lemma land_idx x m : 0 < m -> 0 <= Z.land x (m - 1) < m.
Proof. intro. pose proof (land_le x (m - 1)). lia. Qed.
Definition bidx (d : gnu_desc) wb h := Z.land (h / wb) (gd_bloom_count d - 1).
Definition bits_set (d : gnu_desc) wb h f := Z.testbit f (h mod wb) = true /\ Z.testbit f (Z.shiftr h (gd_bloom_shift d) mod wb) = true.

Lemma gw_bloom_inv wb d hash : 0 < wb -> 0 < gd_bloom_count d -> 0 <= gd_bloom_shift d < 32 ->
  forall n i filters, 0 <= i -> zlen filters = gd_bloom_count d -> Forall (fun f => 0 <= f < 2 ^ wb) filters ->
  (forall k, 0 <= k < i -> exists f, zget filters (bidx d wb (hash k)) = Some f /\ bits_set d wb (hash k) f) ->
  exists fs, gw_bloom n i wb d hash filters = Ok fs /\ zlen fs = gd_bloom_count d /\ Forall (fun f => 0 <= f < 2 ^ wb) fs /\
  (forall k, 0 <= k < i + Z.of_nat n -> exists f, zget fs (bidx d wb (hash k)) = Some f /\ bits_set d wb (hash k) f).
Proof.
  intros Hwb Hb Hs. induction n as [|n IH]; intros i filters Hi Hl HF H.
  - cbn [gw_bloom]. exists filters. rewrite Z.add_0_r. auto.
  - cbn [gw_bloom]. unfold psub. destruct (Z.leb_spec 1 (gd_bloom_count d)); [|lia]. cbn [bind].
    destruct (Z.leb_spec 32 (gd_bloom_shift d)); [lia|]. cbv zeta. fold (bidx d wb (hash i)).
    assert (Hidx : 0 <= bidx d wb (hash i) < gd_bloom_count d) by (apply land_idx; lia).
    destruct (zget_lt_Some filters (bidx d wb (hash i))) as [f Ef]; [lia|]. rewrite Ef. cbn [unwrap bind].
    set (bits := Z.lor (Z.shiftl 1 (hash i mod wb)) (Z.shiftl 1 (Z.shiftr (hash i) (gd_bloom_shift d) mod wb))).
    assert (Hbits : 0 <= bits < 2 ^ wb).
    { apply lor_bound; [lia| |]; apply shiftl1_bound; apply Z.mod_pos_bound; lia. }
    assert (Hset : bits_set d wb (hash i) (Z.lor f bits)).
    { unfold bits_set, bits. rewrite !Z.lor_spec.
      split; [rewrite (testbit_shiftl1 (hash i mod wb))|rewrite (testbit_shiftl1 (Z.shiftr _ _ mod wb))];
        try (apply Z.mod_pos_bound; lia); rewrite ?orb_true_r; reflexivity. }
    destruct (IH (i + 1) (zset filters (bidx d wb (hash i)) (Z.lor f bits))) as (fs & E & L & F & K).
    + lia.
    + rewrite zlen_zset by lia. assumption.
    + apply Forall_zset; [assumption|]. apply lor_bound; [lia|apply (Forall_zget _ _ _ _ HF Ef)|assumption].
    + intros k Hk. rewrite zget_zset by lia. destruct (Z.eqb_spec (bidx d wb (hash k)) (bidx d wb (hash i))) as [Ek|Nk].
      * eexists. split; [reflexivity|]. destruct (Z.eq_dec k i) as [->|]; [assumption|].
        destruct (H k) as (f' & Ef' & S1 & S2); [lia|]. rewrite Ek, Ef in Ef'. inversion Ef'; subst f'.
        unfold bits_set. rewrite !Z.lor_spec, S1, S2. auto.
      * destruct (Z.eq_dec k i) as [->|]; [congruence|]. apply H. lia.
    + exists fs. split; [assumption|]. split; [assumption|]. split; [assumption|].
      intros k Hk. apply K. lia.
Qed.

Definition bkt (d : gnu_desc) (hash : Z -> Z) k := hash k mod gd_bucket_count d.
(** [x] is the right entry for bucket [b], for the first [n] symbols. *)
Definition entry d hash n b x :=
  (x = 0 /\ forall k, 0 <= k < n -> bkt d hash k <> b) \/
  (exists k, 0 <= k < n /\ x = gd_symbol_base d + k /\ bkt d hash k = b /\ forall k', 0 <= k' < k -> bkt d hash k' <> b).

Lemma zget_zeros n i : 0 <= i < n -> zget (zeros n) i = Some 0.
Proof.
  intro H. destruct (zget_lt_Some (zeros n) i) as [x Ex]; [rewrite zlen_zeros; lia|]. rewrite Ex.
  apply zget_In, repeat_spec in Ex. congruence.
Qed.

Lemma gw_buckets_inv d hash : gnu_ok d hash -> forall n i bucket acc, 0 <= i -> i + Z.of_nat n <= gd_symbol_count d ->
  zlen acc = bucket -> bucket <= gd_bucket_count d ->
  (forall b, 0 <= b < bucket -> exists x, zget acc b = Some x /\ entry d hash i b x) ->
  (forall k, 0 <= k < i -> bkt d hash k < bucket) ->
  (0 < bucket -> exists k, 0 <= k < i /\ bkt d hash k = bucket - 1) ->
  exists acc' bucket', gw_buckets n i d hash bucket acc = Ok (acc', bucket') /\ zlen acc' = bucket' /\ bucket' <= gd_bucket_count d /\
  (forall b, 0 <= b < bucket' -> exists x, zget acc' b = Some x /\ entry d hash (i + Z.of_nat n) b x) /\
  (forall k, 0 <= k < i + Z.of_nat n -> bkt d hash k < bucket').
Proof.
  intros Hok. destruct Hok as [Kb Kbl Ks Kbase Kc Kt Kh Ksort].
  assert (Kbound : forall k, 0 <= bkt d hash k < gd_bucket_count d) by (intro; apply Z.mod_pos_bound; lia).
  induction n as [|n IH]; intros i bucket acc Hi Hn Hl Hb H1 H2 H3.
  - cbn [gw_buckets]. exists acc, bucket. rewrite Z.add_0_r. auto.
  - cbn [gw_buckets]. destruct (Z.eqb_spec (gd_bucket_count d) 0); [lia|]. cbv zeta. fold (bkt d hash i).
    pose proof (Kbound i). pose proof (zlen_nonneg acc).
    replace (i + Z.of_nat (S n)) with (i + 1 + Z.of_nat n) by lia.
    assert (Hfresh : forall acc1 b1, b1 = bkt d hash i -> zlen acc1 = b1 -> bucket <= b1 ->
      (forall b, 0 <= b < b1 -> exists x, zget acc1 b = Some x /\ entry d hash i b x) ->
      exists acc' bucket', gw_buckets n (i + 1) d hash (b1 + 1) (acc1 ++ [gd_symbol_base d + i]) = Ok (acc', bucket') /\
        zlen acc' = bucket' /\ bucket' <= gd_bucket_count d /\
        (forall b, 0 <= b < bucket' -> exists x, zget acc' b = Some x /\ entry d hash (i + 1 + Z.of_nat n) b x) /\
        (forall k, 0 <= k < i + 1 + Z.of_nat n -> bkt d hash k < bucket')).
    { intros acc1 b1 Eb1 Hl1 Hge He. apply IH; try lia.
      - rewrite zlen_app. change (zlen [gd_symbol_base d + i]) with 1. lia.
      - intros b Hb'. destruct (Z.eq_dec b b1) as [->|].
        + exists (gd_symbol_base d + i). split; [apply zget_mid; lia|]. right. exists i. split; [lia|]. split; [reflexivity|].
          split; [auto|]. intros k' Hk'. specialize (H2 k' Hk'). lia.
        + destruct (He b) as (x & Ex & He'); [lia|]. exists x. split; [rewrite zget_app1 by lia; assumption|].
          destruct He' as [[-> Hno]|(k & Hk & -> & Hbk & Hf)].
          * left. split; [reflexivity|]. intros k Hk. destruct (Z.eq_dec k i) as [->|]; [lia|]. apply Hno. lia.
          * right. exists k. split; [lia|]. auto.
      - intros k Hk. destruct (Z.eq_dec k i) as [->|]; [lia|]. specialize (H2 k). lia.
      - intros _. exists i. lia. }
    assert (Hpad : padd 32 (gd_symbol_base d) i = Ok (gd_symbol_base d + i)).
    { unfold padd. destruct (Z.ltb_spec (gd_symbol_base d + i) (2 ^ 32)); [reflexivity|lia]. }
    destruct (Z.ltb_spec bucket (bkt d hash i)).
    + rewrite Z.eqb_refl, Hpad. cbn [bind]. apply Hfresh; try lia.
      * rewrite zlen_app, zlen_zeros by lia. lia.
      * intros b Hb'. destruct (Z.lt_ge_cases b bucket).
        -- destruct (H1 b) as (x & Ex & He); [lia|]. exists x. split; [rewrite zget_app1 by lia; assumption|assumption].
        -- exists 0. split; [rewrite zget_app2 by lia; apply zget_zeros; lia|]. left. split; [reflexivity|].
           intros k Hk. specialize (H2 k Hk). lia.
    + destruct (Z.eqb_spec bucket (bkt d hash i)) as [E|N].
      * rewrite Hpad. cbn [bind]. apply Hfresh; try lia. intros. apply H1. lia.
      * destruct H3 as (k0 & Hk0 & Ek0); [lia|].
        assert (bkt d hash k0 <= bkt d hash i) by (apply Ksort; lia).
        apply IH; try lia.
        -- intros b Hb'. destruct (H1 b Hb') as (x & Ex & He). exists x. split; [assumption|].
           destruct He as [[-> Hno]|(k & Hk & -> & Hbk & Hf)].
           ++ left. split; [reflexivity|]. intros k Hk. destruct (Z.eq_dec k i) as [->|]; [|apply Hno; lia].
              intro. apply (Hno k0); lia.
           ++ right. exists k. split; [lia|]. auto.
        -- intros k Hk. destruct (Z.eq_dec k i) as [->|]; [lia|]. apply H2. lia.
        -- intros _. exists k0. lia.
Qed.

(** The table written. *)
Definition gvals d hash := map (gw_value d hash) (seqZ (Z.to_nat (gd_symbol_count d))).
Definition gwr (is64 : bool) e d (bloom buckets : list Z) hash : bytes :=
  write_u e 4 (gd_bucket_count d) ++ write_u e 4 (gd_symbol_base d) ++
  write_u e 4 (gd_bloom_count d) ++ write_u e 4 (gd_bloom_shift d) ++
  concat (map (write_u e (if is64 then 8 else 4)) bloom) ++ words e buckets ++ words e (gvals d hash).
Definition buckets_ok d hash bs :=
  zlen bs = gd_bucket_count d /\ forall b, 0 <= b < gd_bucket_count d -> exists x, zget bs b = Some x /\ entry d hash (gd_symbol_count d) b x.
Definition bloom_ok wb d hash fs :=
  zlen fs = gd_bloom_count d /\ Forall (fun f => 0 <= f < 2 ^ wb) fs /\
  forall k, 0 <= k < gd_symbol_count d -> exists f, zget fs (bidx d wb (hash k)) = Some f /\ bits_set d wb (hash k) f.

Lemma gnu_write is64 e d hash : gnu_ok d hash -> exists fs bs,
  gnu_hash_table is64 e d hash = Ok (gwr is64 e d fs bs hash) /\ bloom_ok (if is64 then 64 else 32) d hash fs /\ buckets_ok d hash bs.
Proof.
  intro Hok. pose proof Hok as [Kb Kbl Ks Kbase Kc Kt Kh Ksort]. unfold gnu_hash_table. cbv zeta.
  set (wb := if is64 then 64 else 32). assert (Hwb : 0 < wb) by (unfold wb; destruct is64; lia).
  destruct (gw_bloom_inv wb d hash Hwb (proj1 Kbl) Ks (Z.to_nat (gd_symbol_count d)) 0 (zeros (gd_bloom_count d)))
    as (fs & E & L & F & K); [lia|apply zlen_zeros; lia| |lia|].
  { apply Forall_forall. intros x Hx. apply repeat_spec in Hx. subst. split; [lia|]. apply Z.pow_pos_nonneg; lia. }
  rewrite E. cbn [bind].
  destruct (gw_buckets_inv d hash Hok (Z.to_nat (gd_symbol_count d)) 0 0 []) as (acc & bucket & E2 & L2 & B2 & K2 & K3);
    try lia; [reflexivity|].
  rewrite E2. cbn [bind]. pose proof (zlen_nonneg acc).
  rewrite Z.add_0_l, Z2Nat.id in K, K2, K3 by lia.
  exists fs, (acc ++ zeros (gd_bucket_count d - bucket)). split; [reflexivity|]. split; [split; [assumption|split; assumption]|].
  split; [rewrite zlen_app, zlen_zeros by lia; lia|].
  intros b Hb. destruct (Z.lt_ge_cases b bucket).
  - destruct (K2 b) as (x & Ex & He); [lia|]. exists x. split; [rewrite zget_app1 by lia; assumption|assumption].
  - exists 0. split; [rewrite zget_app2 by lia; apply zget_zeros; lia|]. left. split; [reflexivity|].
    intros k Hk. specialize (K3 k Hk). lia.
Qed.

Lemma zlen_gvals d hash : 0 <= gd_symbol_count d -> zlen (gvals d hash) = gd_symbol_count d.
Proof. intro. unfold gvals. rewrite zlen_map, zlen_seqZ. lia. Qed.
Lemma zget_gvals d hash k : 0 <= k < gd_symbol_count d -> zget (gvals d hash) k = Some (gw_value d hash k).
Proof. intro. unfold gvals. rewrite zget_map, zget_seqZ by lia. reflexivity. Qed.
Lemma gw_value_eq d hash k : u32_ok (hash k) -> exists c, gw_value d hash k = 2 * (hash k / 2) + (if c : bool then 1 else 0) /\
  (c = true <-> k = gd_symbol_count d - 1 \/ bkt d hash k <> bkt d hash (k + 1)).
Proof.
  intro Hu. unfold gw_value. fold (bkt d hash k) (bkt d hash (k + 1)).
  destruct (Z.eqb_spec k (gd_symbol_count d - 1)); cbn [orb].
  - exists true. rewrite lor_1. split; [reflexivity|]. tauto.
  - destruct (Z.eqb_spec (bkt d hash k) (bkt d hash (k + 1))); cbn [negb].
    + exists false. rewrite land_not1 by assumption. split; [lia|]. split; [discriminate|]. tauto.
    + exists true. rewrite lor_1. split; [reflexivity|]. tauto.
Qed.
Lemma gw_value_bound d hash k : u32_ok (hash k) -> 0 <= gw_value d hash k < 2 ^ 32.
Proof.
  intro Hu. destruct (gw_value_eq d hash k Hu) as (c & -> & _). unfold u32_ok in Hu.
  pose proof (Z.div_mod (hash k) 2). pose proof (Z.mod_pos_bound (hash k) 2). change (2 ^ 32) with (2 * 2 ^ 31) in *. destruct c; lia.
Qed.

Lemma zlen_gwr is64 e d fs bs hash : gnu_ok d hash -> zlen fs = gd_bloom_count d -> zlen bs = gd_bucket_count d ->
  zlen (gwr is64 e d fs bs hash) = gnu_hash_size is64 (gd_bloom_count d) (gd_bucket_count d) (gd_symbol_count d).
Proof.
  intros Hok L1 L2. pose proof Hok as [Kb Kbl Ks Kbase Kc Kt Kh Ksort]. unfold gwr, gnu_hash_size.
  rewrite !zlen_app, !zlen_write_u, !zlen_words, zlen_gvals by lia.
  destruct is64; [rewrite (zlen_concat_const 8) by apply (Forall_write_u e 8)|rewrite (zlen_concat_const 4) by apply (Forall_write_u e 4)];
    rewrite zlen_map; lia.
Qed.

Lemma fld_at e pre v post off n : off = zlen pre -> 0 <= v < 2 ^ (8 * Z.of_nat n) -> forall w, w = pre ++ write_u e n v ++ post ->
  fld e off (Z.of_nat n) w = v.
Proof. intros. subst w. apply fld_app; assumption. Qed.

Lemma gnu_parse_written (is64 : bool) e d fs bs hash rest : gnu_ok d hash -> bloom_ok (if is64 then 64 else 32) d hash fs -> buckets_ok d hash bs ->
  zlen (gwr is64 e d fs bs hash ++ rest) < 2 ^ 64 ->
  exists extra, gt_parse (if is64 then 8 else 4) e (gwr is64 e d fs bs hash ++ rest) = Ok
    {| gt_symbol_base := gd_symbol_base d; gt_bloom_shift := gd_bloom_shift d;
       gt_bloom := concat (map (write_u e (if is64 then 8 else 4)) fs); gt_buckets := bs; gt_values := gvals d hash ++ extra |}.
Proof.
  intros Hok (LF & FF & _) (LB & HB) Hlen. pose proof Hok as [Kb Kbl Ks Kbase Kc Kt Kh Ksort].
  set (ws := if is64 then 8 else 4). set (wn := if is64 then 8%nat else 4%nat).
  assert (Ews : ws = Z.of_nat wn) by (unfold ws, wn; destruct is64; reflexivity).
  set (hd := write_u e 4 (gd_bucket_count d) ++ write_u e 4 (gd_symbol_base d) ++ write_u e 4 (gd_bloom_count d) ++ write_u e 4 (gd_bloom_shift d)).
  assert (Lh : zlen hd = 16) by (unfold hd; rewrite !zlen_app, !zlen_write_u; reflexivity).
  set (bl := concat (map (write_u e wn) fs)).
  assert (Lbl : zlen bl = gd_bloom_count d * ws).
  { unfold bl. rewrite (zlen_concat_const ws); [rewrite zlen_map; lia|]. rewrite Ews. apply Forall_write_u. }
  set (bk := words e bs). assert (Lbk : zlen bk = 4 * gd_bucket_count d) by (unfold bk; rewrite zlen_words; lia).
  assert (Lv : zlen (words e (gvals d hash)) = 4 * gd_symbol_count d) by (rewrite zlen_words, zlen_gvals; lia).
  set (m := zlen rest / 4). assert (Hm : 0 <= m /\ m * 4 <= zlen rest).
  { pose proof (zlen_nonneg rest). unfold m. split; [apply Z.div_pos; lia|]. pose proof (Z.mul_div_le (zlen rest) 4). lia. }
  set (ec := chunks 4 (Z.to_nat m) rest).
  destruct (chunks_concat 4 (Z.to_nat m) rest) as (C1 & C2 & C3); [lia|rewrite Z2Nat.id by lia; lia|]. rewrite Z2Nat.id in C1 by lia. fold ec in C1, C2, C3.
  set (vc := map (write_u e 4) (gvals d hash) ++ ec).
  assert (Fvc : Forall (fun c => zlen c = 4) vc) by (apply Forall_app; split; [apply (Forall_write_u e 4)|assumption]).
  assert (Lvc : zlen vc = gd_symbol_count d + m).
  { unfold vc. rewrite zlen_app, zlen_map, zlen_gvals by lia. f_equal. unfold zlen. rewrite C3. lia. }
  assert (Eall : gwr is64 e d fs bs hash ++ rest = [] ++ hd ++ (bl ++ bk ++ words e (gvals d hash) ++ rest)).
  { unfold gwr, hd, bl, bk, wn. destruct is64; rewrite <- !app_assoc; reflexivity. }
  assert (Evr : words e (gvals d hash) ++ rest = concat vc ++ zdrop (m * 4) rest).
  { unfold vc, words. rewrite concat_app, C1, <- app_assoc, ztake_zdrop. reflexivity. }
  exists (map (read_u e) ec).
  pose proof Hlen as Hlen2. rewrite Eall in Hlen2. rewrite !zlen_app in Hlen2. change (zlen (@nil Z)) with 0 in Hlen2.
  pose proof (zlen_nonneg rest).
  assert (Hws : 0 <= gd_bloom_count d * ws) by (unfold ws; destruct is64; lia).
  unfold gt_parse. rewrite Eall.
  rewrite rr_read_app; [|reflexivity|symmetry; assumption|change (zlen (@nil Z)) with 0; lia].
  change (zlen (@nil Z)) with 0. cbn [bind app Z.add].
  assert (E0 : fld e 0 4 hd = gd_bucket_count d).
  { apply (fld_at e [] _ (write_u e 4 (gd_symbol_base d) ++ write_u e 4 (gd_bloom_count d) ++ write_u e 4 (gd_bloom_shift d)) 0 4); [reflexivity|change (8 * Z.of_nat 4) with 32; lia|reflexivity]. }
  assert (E4 : fld e 4 4 hd = gd_symbol_base d).
  { apply (fld_at e (write_u e 4 (gd_bucket_count d)) _ (write_u e 4 (gd_bloom_count d) ++ write_u e 4 (gd_bloom_shift d)) 4 4); [rewrite zlen_write_u; reflexivity|change (8 * Z.of_nat 4) with 32; lia|reflexivity]. }
  assert (E8 : fld e 8 4 hd = gd_bloom_count d).
  { apply (fld_at e (write_u e 4 (gd_bucket_count d) ++ write_u e 4 (gd_symbol_base d)) _ (write_u e 4 (gd_bloom_shift d)) 8 4); [rewrite zlen_app, !zlen_write_u; reflexivity|change (8 * Z.of_nat 4) with 32; lia|unfold hd; rewrite <- !app_assoc; reflexivity]. }
  assert (E12 : fld e 12 4 hd = gd_bloom_shift d).
  { apply (fld_at e (write_u e 4 (gd_bucket_count d) ++ write_u e 4 (gd_symbol_base d) ++ write_u e 4 (gd_bloom_count d)) _ [] 12 4); [rewrite !zlen_app, !zlen_write_u; reflexivity|change (8 * Z.of_nat 4) with 32; lia|unfold hd; rewrite <- !app_assoc, app_nil_r; reflexivity]. }
  rewrite E0, E4, E8, E12.
  rewrite (rr_read_bytes_app hd bl); [|reflexivity|lia|lia]. cbn [bind].
  replace (zlen hd + zlen bl) with (zlen (hd ++ bl)) by apply zlen_app.
  rewrite (app_assoc hd bl). unfold bk, words at 1.
  rewrite (rr_read_slice_app (hd ++ bl) (map (write_u e 4) bs)); [|reflexivity|lia|apply (Forall_write_u e 4)|rewrite zlen_map; lia|rewrite zlen_map, zlen_app; lia].
  cbn [bind]. fold (words e bs). fold bk.
  replace (zlen (hd ++ bl) + zlen (map (write_u e 4) bs) * 4) with (zlen ((hd ++ bl) ++ bk)) by (rewrite zlen_map, !zlen_app; lia).
  set (pre := (hd ++ bl) ++ bk). rewrite (app_assoc (hd ++ bl) bk). fold pre.
  assert (Lpre : zlen pre = 16 + gd_bloom_count d * ws + 4 * gd_bucket_count d) by (unfold pre; rewrite !zlen_app; lia).
  assert (Ltot : zlen (pre ++ words e (gvals d hash) ++ rest) = zlen pre + 4 * gd_symbol_count d + zlen rest) by (rewrite !zlen_app; lia).
  unfold psub. rewrite Ltot. destruct (Z.leb_spec (zlen pre) (zlen pre + 4 * gd_symbol_count d + zlen rest)); [|lia]. cbn [bind].
  replace ((zlen pre + 4 * gd_symbol_count d + zlen rest - zlen pre) / 4) with (gd_symbol_count d + m).
  2:{ unfold m. rewrite <- Z.div_add_l by lia. f_equal. lia. }
  rewrite Evr. rewrite (rr_read_slice_app pre vc); [|reflexivity|lia|assumption|lia|lia].
  cbn [bind]. f_equal. unfold vc. rewrite map_app.
  assert (HB2 : Forall (fun x => 0 <= x < 2 ^ 32) bs).
  { apply Forall_forall. intros x Hx. apply In_zget in Hx as [b Eb]. pose proof (zget_Some_lt _ _ _ Eb).
    destruct (HB b) as (y & Ey & He); [lia|]. assert (x = y) by congruence. subst y.
    destruct He as [[-> _]|(k & Hk & -> & _)]; lia. }
  rewrite !map_read_write_u.
  - unfold bl. unfold wn. destruct is64; reflexivity.
  - unfold gvals. rewrite Forall_map. apply Forall_forall. intros k Hk. apply seqZ_spec in Hk.
    change (8 * Z.of_nat 4) with 32. apply gw_value_bound. apply Kh. lia.
  - exact HB2.
Qed.

Lemma gt_find_loop_spec d hash nm extra vm name h : gnu_ok d hash ->
  forall m k, 0 <= k -> k < gd_symbol_count d -> gd_symbol_count d - k = Z.of_nat m ->
  bkt d hash k = h mod gd_bucket_count d ->
  least_such (fun j => gd_symbol_base d + k <= j /\ gnu_member d hash h j /\ sym_matches nm vm name j)
    (gt_find_loop (zdrop (gd_symbol_base d + k) nm) (zdrop k (gvals d hash ++ extra)) vm name h (gd_symbol_base d + k)).
Proof.
  intros Hok. pose proof Hok as [Kb Kbl Ks Kbase Kc Kt Kh Ksort].
  induction m as [|m IH]; intros k Hk0 Hk Hm Hb; [lia|].
  assert (Ev : zget (gvals d hash ++ extra) k = Some (gw_value d hash k)).
  { rewrite zget_app1 by (rewrite zlen_gvals; lia). apply zget_gvals. lia. }
  rewrite (zdrop_cons _ _ _ Ev).
  destruct (zget nm (gd_symbol_base d + k)) as [n|] eqn:En.
  2:{ assert (Hlen : zlen nm <= gd_symbol_base d + k) by (apply zget_None in En; lia).
      rewrite (zdrop_all _ nm) by lia. cbn. intros j (Hj & _ & Hs & _).
      apply zget_Some_lt in Hs. lia. }
  rewrite (zdrop_cons _ _ _ En). cbn [gt_find_loop].
  destruct (gw_value_eq d hash k) as (c & Ec & Hc); [apply Kh; lia|]. rewrite Ec.
  assert (E1 : (2 * (hash k / 2) + (if c then 1 else 0)) / 2 = hash k / 2).
  { destruct c; rewrite Z.mul_comm, Z.div_add_l by lia; rewrite ?Z.div_small by lia; lia. }
  assert (E2 : (Z.land (2 * (hash k / 2) + (if c then 1 else 0)) 1 =? 0) = negb c).
  { rewrite land_1. rewrite (Z.mul_comm 2), Z.add_comm, Z.mod_add by lia. destruct c; reflexivity. }
  rewrite E2, !lor_1, E1. rewrite negb_involutive.
  set (ts := (2 * (hash k / 2) + 1 =? 2 * (h / 2) + 1) && _ && vm (gd_symbol_base d + k)).
  assert (Hts : ts = true <-> gnu_member d hash h (gd_symbol_base d + k) /\ sym_matches nm vm name (gd_symbol_base d + k)).
  { unfold ts, gnu_member, sym_matches. replace (gd_symbol_base d + k - gd_symbol_base d) with k by lia.
    rewrite !andb_true_iff, Z.eqb_eq, En. fold (bkt d hash k).
    assert (Hn : match n with Ok n0 => bytes_eqb n0 name | _ => false end = true <-> Some n = Some (Ok name)).
    { destruct n as [n0| |]; [|split; congruence..]. rewrite bytes_eqb_eq. split; congruence. }
    rewrite Hn. split.
    - intros [[A B] C]. split; [split; [lia|split; [lia|assumption]]|]. auto.
    - intros [(_ & A & _) [B C]]. split; [split; [lia|assumption]|assumption]. }
  destruct ts.
  - cbn. destruct Hts as [Hts _]. specialize (Hts eq_refl). split; [split; [lia|exact Hts]|]. intros j (? & _). lia.
  - assert (Hn : ~ (gnu_member d hash h (gd_symbol_base d + k) /\ sym_matches nm vm name (gd_symbol_base d + k))).
    { intro Hx. apply Hts in Hx. discriminate. }
    destruct c.
    + cbn. intros j (Hj & Hmem & Hs). destruct (Z.eq_dec j (gd_symbol_base d + k)) as [->|]; [tauto|].
      destruct Hmem as (Hr & _ & Hbj). fold (bkt d hash (j - gd_symbol_base d)) in Hbj.
      destruct (proj1 Hc eq_refl) as [|Hd]; [lia|].
      assert (bkt d hash k <= bkt d hash (k + 1)) by (apply Ksort; lia).
      assert (bkt d hash (k + 1) <= bkt d hash (j - gd_symbol_base d)) by (apply Ksort; lia).
      lia.
    + assert (Hc2 : k <> gd_symbol_count d - 1 /\ bkt d hash k = bkt d hash (k + 1)).
      { split; [intro; assert (false = true) by tauto; discriminate|].
        destruct (Z.eq_dec (bkt d hash k) (bkt d hash (k + 1))); [assumption|]. assert (false = true) by tauto. discriminate. }
      destruct Hc2 as [Hc2 Hc3]. specialize (IH (k + 1)). rewrite !Z.add_assoc in IH.
      assert (IH' := IH ltac:(lia) ltac:(lia) ltac:(lia) ltac:(congruence)). clear IH.
      destruct (gt_find_loop _ _ _ _ _ _) as [r|]; cbn in *.
      * destruct IH' as [[A B] C]. split; [split; [lia|assumption]|]. intros j (Hj & Hj2).
        destruct (Z.eq_dec j (gd_symbol_base d + k)) as [->|]; [tauto|]. apply C. split; [lia|assumption].
      * intros j (Hj & Hj2). destruct (Z.eq_dec j (gd_symbol_base d + k)) as [->|]; [tauto|]. apply (IH' j). split; [lia|assumption].
Qed.

Lemma bloom_read e (is64 : bool) fs idx f : zget fs idx = Some f -> zlen fs < 2 ^ 32 -> 0 <= f < 2 ^ (if is64 then 64 else 32) ->
  exists b, rr_read_at (concat (map (write_u e (if is64 then 8%nat else 4%nat)) fs)) (idx * (if is64 then 8 else 4)) (if is64 then 8 else 4) = Ok b
    /\ read_u e b = f.
Proof.
  intros Hz Hl Hf. apply zget_split in Hz as (a & c & -> & <-).
  exists (write_u e (if is64 then 8%nat else 4%nat) f). split.
  - rewrite map_app, concat_app. cbn [map concat]. pose proof (zlen_nonneg a). rewrite zlen_app, zlen_cons in Hl. pose proof (zlen_nonneg c).
    apply rr_read_at_app; destruct is64; rewrite ?zlen_write_u;
      rewrite ?(zlen_concat_const 8) by apply (Forall_write_u e 8); rewrite ?(zlen_concat_const 4) by apply (Forall_write_u e 4);
      rewrite ?zlen_map; lia.
  - destruct is64; apply read_write_u_small; exact Hf.
Qed.

Definition written_table (is64 : bool) e d (fs bs : list Z) hash extra :=
  {| gt_symbol_base := gd_symbol_base d; gt_bloom_shift := gd_bloom_shift d;
     gt_bloom := concat (map (write_u e (if is64 then 8 else 4)) fs); gt_buckets := bs; gt_values := gvals d hash ++ extra |}.

Lemma zlen_bloom_bytes (is64 : bool) e fs : zlen (concat (map (write_u e (if is64 then 8%nat else 4%nat)) fs)) / (if is64 then 8 else 4) = zlen fs.
Proof.
  destruct is64.
  - rewrite (zlen_concat_const 8) by apply (Forall_write_u e 8). rewrite zlen_map. apply Z.div_mul. lia.
  - rewrite (zlen_concat_const 4) by apply (Forall_write_u e 4). rewrite zlen_map. apply Z.div_mul. lia.
Qed.

Lemma gnu_find_cases (is64 : bool) e d fs bs hash extra nm vm name h : gnu_ok d hash ->
  bloom_ok (if is64 then 64 else 32) d hash fs -> buckets_ok d hash bs -> u32_ok h ->
  exists r, gt_find (if is64 then 8 else 4) e (written_table is64 e d fs bs hash extra) nm vm name h = Ok r /\
   (least_such (fun j => gnu_member d hash h j /\ sym_matches nm vm name j) r \/
    (r = None /\ forall k, 0 <= k < gd_symbol_count d -> hash k <> h)).
Proof.
  intros Hok (LF & FF & HF) (LB & HB) Hh. pose proof Hok as [Kb Kbl Ks Kbase Kc Kt Kh Ksort].
  unfold gt_find, written_table. cbn [gt_bloom gt_bloom_shift gt_buckets gt_symbol_base gt_values].
  rewrite zlen_bloom_bytes, LF. destruct (Z.eqb_spec (gd_bloom_count d) 0); [lia|].
  unfold wrap_u. rewrite Z.mod_small by lia. unfold psub. destruct (Z.leb_spec 1 (gd_bloom_count d)); [|lia]. cbn [bind].
  set (ws := if is64 then 8 else 4).
  assert (Ewb : ws * 8 = if is64 then 64 else 32) by (unfold ws; destruct is64; reflexivity). rewrite Ewb.
  set (wb := if is64 then 64 else 32) in *. assert (Hwb : 32 <= wb <= 64) by (unfold wb; destruct is64; lia).
  fold (bidx d wb h). assert (Hidx : 0 <= bidx d wb h < gd_bloom_count d) by (apply land_idx; lia).
  assert (Hi2 : bidx d wb h <= h / wb).
  { unfold bidx. rewrite Z.land_comm. apply land_le. apply Z.div_pos; unfold u32_ok in Hh; lia. }
  assert (h / wb < 2 ^ 27) by (apply Z.div_lt_upper_bound; unfold u32_ok in Hh; lia).
  unfold pmul. destruct (Z.ltb_spec (bidx d wb h * ws) (2 ^ 32)); [|unfold ws in *; destruct is64; lia]. cbn [bind].
  destruct (zget_lt_Some fs (bidx d wb h)) as [f Ef]; [lia|].
  destruct (bloom_read e is64 fs (bidx d wb h) f Ef) as (fb & Efb & Erd); [lia|apply (Forall_zget _ _ _ _ FF Ef)|].
  fold ws in Efb. rewrite Efb, Erd. rewrite !land_bit by (apply Z.mod_pos_bound; lia).
  destruct (Z.testbit f (h mod wb)) eqn:T1; cbn [negb].
  2:{ eexists. split; [reflexivity|]. right. split; [reflexivity|]. intros k Hk Ehk. destruct (HF k Hk) as (f' & Ef' & S1 & _). rewrite Ehk in *. congruence. }
  destruct (Z.leb_spec 32 (gd_bloom_shift d)); [lia|].
  destruct (Z.testbit f (Z.shiftr h (gd_bloom_shift d) mod wb)) eqn:T2; cbn [negb].
  2:{ eexists. split; [reflexivity|]. right. split; [reflexivity|]. intros k Hk Ehk. destruct (HF k Hk) as (f' & Ef' & _ & S2). rewrite Ehk in *. congruence. }
  unfold ht_bucket. rewrite LB. destruct (Z.eqb_spec (gd_bucket_count d) 0); [lia|].
  destruct (HB (h mod gd_bucket_count d)) as (x & Ex & He); [apply Z.mod_pos_bound; lia|]. rewrite Ex. cbn [unwrap bind].
  destruct He as [[-> Hno]|(k & Hk & -> & Hbk & Hf)].
  - cbn [Z.eqb]. eexists. split; [reflexivity|]. left. cbn. intros j ((Hr & _ & Hbj) & _).
    apply (Hno (j - gd_symbol_base d)); [lia|assumption].
  - destruct (Z.eqb_spec (gd_symbol_base d + k) 0); [lia|].
    assert (Hmin : forall j, gnu_member d hash h j -> gd_symbol_base d + k <= j).
    { intros j (Hr & _ & Hbj). destruct (Z.lt_ge_cases (j - gd_symbol_base d) k); [|lia].
      exfalso. apply (Hf (j - gd_symbol_base d)); [lia|assumption]. }
    rewrite get_from_eq. destruct (Z.leb_spec 0 (gd_symbol_base d + k)); [|lia]. cbn [andb].
    destruct (Z.leb_spec (gd_symbol_base d + k) (zlen nm)).
    2:{ eexists. split; [reflexivity|]. left. cbn. intros j (Hm & Hs & _). apply Hmin in Hm. apply zget_Some_lt in Hs. lia. }
    unfold csub. destruct (Z.leb_spec (gd_symbol_base d) (gd_symbol_base d + k)); [|lia].
    replace (gd_symbol_base d + k - gd_symbol_base d) with k by lia.
    rewrite get_from_eq, zlen_app, zlen_gvals by lia. pose proof (zlen_nonneg extra).
    destruct (Z.leb_spec 0 k); [|lia]. destruct (Z.leb_spec k (gd_symbol_count d + zlen extra)); [|lia]. cbn [andb].
    eexists. split; [reflexivity|]. left.
    pose proof (gt_find_loop_spec d hash nm extra vm name h Hok (Z.to_nat (gd_symbol_count d - k)) k) as HS.
    specialize (HS ltac:(lia) ltac:(lia) ltac:(lia) Hbk).
    destruct (gt_find_loop _ _ _ _ _ _) as [r|]; cbn in *.
    + destruct HS as [(A & B) C]. split; [assumption|]. intros j Hj. apply C. split; [apply Hmin; tauto|assumption].
    + intros j Hj. apply (HS j). split; [apply Hmin; tauto|assumption].
Qed.

Theorem gnu_written : forall is64 e d hash, gnu_ok d hash ->
  exists tab, gnu_hash_table is64 e d hash = Ok tab /\
  zlen tab = gnu_hash_size is64 (gd_bloom_count d) (gd_bucket_count d) (gd_symbol_count d) /\
  forall rest, zlen (tab ++ rest) < 2 ^ 64 -> exists t, gt_parse (if is64 then 8 else 4) e (tab ++ rest) = Ok t /\
  forall nm vm name h, u32_ok h ->
    (forall j, gd_symbol_base d <= j < gd_symbol_base d + gd_symbol_count d -> sym_matches nm vm name j -> hash (j - gd_symbol_base d) = h) ->
    exists r, gt_find (if is64 then 8 else 4) e t nm vm name h = Ok r /\
    least_such (fun j => gd_symbol_base d <= j < gd_symbol_base d + gd_symbol_count d /\ sym_matches nm vm name j) r.
Proof.
  intros is64 e d hash Hok. destruct (gnu_write is64 e d hash Hok) as (fs & bs & E & HF & HB).
  eexists. split; [exact E|]. split; [apply zlen_gwr; [assumption|apply HF|apply HB]|].
  intros rest Hl. destruct (gnu_parse_written is64 e d fs bs hash rest Hok HF HB Hl) as (extra & Ep).
  eexists. split; [exact Ep|]. intros nm vm name h Hh Hname.
  destruct (gnu_find_cases is64 e d fs bs hash extra nm vm name h Hok HF HB Hh) as (r & Er & Hr).
  exists r. split; [exact Er|]. destruct Hr as [Hr|[-> Hno]].
  - assert (Heq : forall j, gnu_member d hash h j /\ sym_matches nm vm name j <->
      gd_symbol_base d <= j < gd_symbol_base d + gd_symbol_count d /\ sym_matches nm vm name j).
    { intro j. unfold gnu_member. split; [tauto|]. intros [Hj Hs]. rewrite (Hname j Hj Hs). tauto. }
    destruct r as [j|]; cbn in *.
    + destruct Hr as [A C]. split; [now apply Heq|]. intros k Hk. apply C. now apply Heq.
    + intros k Hk. apply (Hr k). now apply Heq.
  - cbn. intros j [Hj Hs]. apply (Hno (j - gd_symbol_base d)); [lia|]. apply Hname; assumption.
Qed.

(** symbol_table_length *)
Lemma list_max_spec l : l <> [] -> exists m, list_max l = Some m /\ In m l /\ forall x, In x l -> x <= m.
Proof.
  destruct l as [|x l]; [congruence|]. intros _. cbn [list_max]. eexists. split; [reflexivity|].
  assert (H : forall l a, (fold_left Z.max l a = a \/ In (fold_left Z.max l a) l) /\ a <= fold_left Z.max l a /\
     forall y, In y l -> y <= fold_left Z.max l a).
  { clear. induction l as [|b l IH]; intro a; cbn [fold_left].
    - split; [left; reflexivity|]. split; [lia|]. intros y [].
    - destruct (IH (Z.max a b)) as (H1 & H2 & H3). split; [|split].
      + destruct H1 as [H1|H1]; [|right; right; assumption]. rewrite H1. destruct (Z.max_spec a b) as [[_ E]|[_ E]]; rewrite E; [right; left; reflexivity|left; reflexivity].
      + lia.
      + intros y [->|Hy]; [lia|auto]. }
  destruct (H l x) as (H1 & H2 & H3). split; [destruct H1 as [H1|H1]; [left; symmetry; assumption|right; assumption]|].
  intros y [->|Hy]; [assumption|auto].
Qed.

Lemma gt_length_loop_spec d hash extra mb : gnu_ok d hash -> forall m k c, 0 <= k < gd_symbol_count d -> gd_symbol_count d - k = Z.of_nat m ->
  bkt d hash k = bkt d hash (gd_symbol_count d - 1) -> 0 <= c -> c + (gd_symbol_count d - k) < 2 ^ 32 ->
  gt_length_loop (zdrop k (gvals d hash ++ extra)) mb c = Ok (cadd 32 mb (c + (gd_symbol_count d - k))).
Proof.
  intros Hok. pose proof Hok as [Kb Kbl Ks Kbase Kc Kt Kh Ksort].
  induction m as [|m IH]; intros k c Hk Hm Hb Hc Hlt; [lia|].
  assert (Ev : zget (gvals d hash ++ extra) k = Some (gw_value d hash k)).
  { rewrite zget_app1 by (rewrite zlen_gvals; lia). apply zget_gvals. lia. }
  rewrite (zdrop_cons _ _ _ Ev). cbn [gt_length_loop]. unfold padd. destruct (Z.ltb_spec (c + 1) (2 ^ 32)); [|lia]. cbn [bind].
  destruct (gw_value_eq d hash k) as (b & Ec & Hcb); [apply Kh; lia|]. rewrite Ec.
  assert (E2 : (Z.land (2 * (hash k / 2) + (if b then 1 else 0)) 1 =? 0) = negb b).
  { rewrite land_1. rewrite (Z.mul_comm 2), Z.add_comm, Z.mod_add by lia. destruct b; reflexivity. }
  rewrite E2, negb_involutive.
  assert (Hmid : k <> gd_symbol_count d - 1 -> bkt d hash k = bkt d hash (k + 1)).
  { intro. assert (bkt d hash k <= bkt d hash (k + 1)) by (apply Ksort; lia).
    assert (bkt d hash (k + 1) <= bkt d hash (gd_symbol_count d - 1)) by (apply Ksort; lia). lia. }
  destruct b.
  - destruct (proj1 Hcb eq_refl) as [->|Hne]; [do 2 f_equal; lia|].
    destruct (Z.eq_dec k (gd_symbol_count d - 1)) as [E|]; [rewrite E; do 2 f_equal; lia|]. tauto.
  - assert (k <> gd_symbol_count d - 1) by (intro; assert (false = true) by tauto; discriminate).
    rewrite IH; [do 2 f_equal; lia|lia|lia|rewrite <- Hmid by assumption; assumption|lia|lia].
Qed.

Theorem gnu_length_written : forall is64 e d hash tab rest t, gnu_ok d hash ->
  gnu_hash_table is64 e d hash = Ok tab -> zlen (tab ++ rest) < 2 ^ 64 ->
  gt_parse (if is64 then 8 else 4) e (tab ++ rest) = Ok t ->
  gt_symbol_table_length t = Ok (if gd_symbol_count d =? 0 then None else Some (gd_symbol_base d + gd_symbol_count d)).
Proof.
  intros is64 e d hash tab rest t Hok Et Hl Ep. destruct (gnu_write is64 e d hash Hok) as (fs & bs & E & HF & HB).
  rewrite E in Et. inversion Et; subst tab. destruct (gnu_parse_written is64 e d fs bs hash rest Hok HF HB Hl) as (extra & Ep2).
  rewrite Ep2 in Ep. inversion Ep; subst t. clear Ep Ep2 Et E. destruct HB as [LB HB].
  pose proof Hok as [Kb Kbl Ks Kbase Kc Kt Kh Ksort].
  unfold gt_symbol_table_length. cbn [gt_bloom gt_bloom_shift gt_buckets gt_symbol_base gt_values].
  destruct (Z.eqb_spec (gd_symbol_base d) 0); [lia|].
  destruct (list_max_spec bs) as (m & Em & Hin & Hmax); [intros ->; change (zlen (@nil Z)) with 0 in LB; lia|].
  rewrite Em. apply In_zget in Hin as [b Eb]. pose proof (zget_Some_lt _ _ _ Eb).
  destruct (HB b) as (x & Ex & He); [lia|]. assert (x = m) by congruence. subst x. clear Ex.
  destruct (Z.eqb_spec (gd_symbol_count d) 0) as [E0|N0].
  - destruct He as [[-> _]|(k & Hk & _)]; [|lia]. unfold csub. destruct (Z.leb_spec (gd_symbol_base d) 0); [lia|reflexivity].
  - (* the entry of the last symbol's bucket *)
    set (lb := bkt d hash (gd_symbol_count d - 1)).
    destruct (HB lb) as (x & Ex & He2); [apply Z.mod_pos_bound; lia|].
    destruct He2 as [[_ Hno]|(k2 & Hk2 & -> & Hbk2 & Hf2)]; [exfalso; apply (Hno (gd_symbol_count d - 1)); [lia|reflexivity]|].
    assert (Hle : gd_symbol_base d + k2 <= m) by (apply Hmax; eapply zget_In; eauto).
    destruct He as [[-> _]|(k & Hk & -> & Hbk & Hf)]; [lia|].
    assert (k = k2).
    { assert (bkt d hash k2 <= bkt d hash k) by (apply Ksort; lia).
      assert (bkt d hash k <= lb) by (apply Ksort; lia).
      destruct (Z.eq_dec k k2); [assumption|]. exfalso. apply (Hf k2); lia. }
    subst k2. unfold csub. destruct (Z.leb_spec (gd_symbol_base d) (gd_symbol_base d + k)); [|lia].
    replace (gd_symbol_base d + k - gd_symbol_base d) with k by lia.
    rewrite get_from_eq, zlen_app, zlen_gvals by lia. pose proof (zlen_nonneg extra).
    destruct (Z.leb_spec 0 k); [|lia]. destruct (Z.leb_spec k (gd_symbol_count d + zlen extra)); [|lia]. cbn [andb].
    rewrite (gt_length_loop_spec d hash extra _ Hok (Z.to_nat (gd_symbol_count d - k)) k 0); try lia.
    unfold cadd. destruct (Z.ltb_spec (gd_symbol_base d + k + (0 + (gd_symbol_count d - k))) (2 ^ 32)); [|lia].
    do 2 f_equal. lia.
Qed.

(** arbitrary data *)
Lemma gt_find_loop_sound vm name h : forall nm values j0 r, gt_find_loop nm values vm name h j0 = Some r ->
  exists k, r = j0 + k /\ zget nm k = Some (Ok name) /\ vm r = true /\ exists v, zget values k = Some v /\ v / 2 = h / 2.
Proof.
  induction nm as [|n nm IH]; intros values j0 r; cbn [gt_find_loop]; [discriminate|].
  destruct values as [|v values]; [discriminate|].
  destruct ((Z.lor v 1 =? Z.lor h 1) && _ && vm j0) eqn:E.
  - intro H; inversion H; subst. apply andb_true_iff in E as [E E3]. apply andb_true_iff in E as [E1 E2].
    exists 0. rewrite Z.add_0_r. split; [reflexivity|]. rewrite !zget_0. destruct n as [n| |]; try discriminate.
    apply bytes_eqb_eq in E2. subst. split; [reflexivity|]. split; [assumption|]. exists v. split; [reflexivity|].
    apply Z.eqb_eq in E1. rewrite !lor_1 in E1. lia.
  - destruct (negb (Z.land v 1 =? 0)); [discriminate|]. intro H. apply IH in H as (k & -> & H1 & H2 & v' & H3 & H4).
    pose proof (zget_Some_lt _ _ _ H1). exists (k + 1). split; [lia|]. rewrite !zget_S by lia. replace (k + 1 - 1) with k by lia.
    split; [assumption|]. split; [assumption|]. eauto.
Qed.
Lemma gt_parse_inv ws e data t : ws = 4 \/ ws = 8 -> bytes_ok data -> zlen data < 2 ^ 64 -> gt_parse ws e data = Ok t ->
  u32_ok (gt_symbol_base t) /\ u32_ok (gt_bloom_shift t) /\ zlen (gt_bloom t) < 2 ^ 32 * ws /\ zlen (gt_bloom t) mod ws = 0 /\
  Forall u32_ok (gt_buckets t) /\ Forall u32_ok (gt_values t) /\ 4 * zlen (gt_values t) <= zlen data.
Proof.
  intros Hws Hb Hl. unfold gt_parse.
  destruct (rr_read data 0 16) as [[h| |] o1] eqn:E1; cbn [bind]; try discriminate.
  apply rr_read_inv in E1; try lia; [|apply zlen_nonneg]. destruct E1 as (-> & L1 & Lh & Eh).
  assert (Bh : bytes_ok h) by (subst h; apply bytes_ok_zslice; assumption).
  assert (Hf : forall o, 0 <= o -> o + 4 <= 16 -> u32_ok (fld e o 4 h)).
  { intros o Ho Ho2. unfold fld, u32_ok. replace 32 with (8 * zlen (zslice o 4 h)) by (rewrite zlen_zslice; lia).
    apply read_u_bound. apply bytes_ok_zslice. assumption. }
  assert (Hb8 := Hf 8 ltac:(lia) ltac:(lia)). assert (Hb0 := Hf 0 ltac:(lia) ltac:(lia)). unfold u32_ok in Hb8, Hb0.
  destruct (rr_read_bytes data (0 + 16) (fld e 8 4 h * ws)) as [[bl| |] o2] eqn:E2; cbn [bind]; try discriminate.
  apply rr_read_bytes_inv in E2; [|lia|destruct Hws; subst; lia|lia|lia]. destruct E2 as (-> & L2 & Lbl & Ebl).
  destruct (rr_read_slice data (0 + 16 + fld e 8 4 h * ws) 4 (fld e 0 4 h)) as [[bk| |] o3] eqn:E3; cbn [bind]; try discriminate.
  assert (0 <= fld e 8 4 h * ws) by (destruct Hws; subst; lia).
  apply rr_read_slice_inv in E3; [|lia|lia|lia|lia|lia]. destruct E3 as (-> & L3 & Lbk & Fbk & Ebk).
  unfold psub. destruct (Z.leb_spec (0 + 16 + fld e 8 4 h * ws + fld e 0 4 h * 4) (zlen data)); [|discriminate]. cbn [bind].
  set (o3 := 0 + 16 + fld e 8 4 h * ws + fld e 0 4 h * 4) in *.
  destruct (rr_read_slice data o3 4 ((zlen data - o3) / 4)) as [[vs| |] o4] eqn:E4; cbn [bind]; try discriminate.
  apply rr_read_slice_inv in E4; [|unfold o3; lia|lia|apply Z.div_pos; lia|lia|lia]. destruct E4 as (-> & L4 & Lvs & Fvs & Evs).
  intro H1; inversion H1; subst t. cbn [gt_symbol_base gt_bloom_shift gt_bloom gt_buckets gt_values].
  split; [apply Hf; lia|]. split; [apply Hf; lia|].
  split; [rewrite Lbl; destruct Hws; subst ws; lia|].
  split; [rewrite Lbl; apply Z.mod_mul; destruct Hws; lia|].
  split; [|split].
  - apply (read_u_words_bound e bk 4); [assumption|]. apply bytes_ok_concat. rewrite Ebk. apply bytes_ok_zslice. assumption.
  - apply (read_u_words_bound e vs 4); [assumption|]. apply bytes_ok_concat. rewrite Evs. apply bytes_ok_zslice. assumption.
  - rewrite zlen_map. unfold o3 in *. lia.
Qed.
Lemma gt_parse_no_panic ws e data : ws = 4 \/ ws = 8 -> bytes_ok data -> zlen data < 2 ^ 64 -> gt_parse ws e data <> Panic.
Proof.
  intros Hws Hb Hl. unfold gt_parse.
  pose proof (rr_read_no_panic data 0 16) as P1.
  destruct (rr_read data 0 16) as [[h| |] o1] eqn:E1; cbn [bind fst] in *; try congruence.
  apply rr_read_inv in E1; try lia; [|apply zlen_nonneg]. destruct E1 as (-> & L1 & Lh & Eh).
  assert (Bh : bytes_ok h) by (subst h; apply bytes_ok_zslice; assumption).
  assert (Hf : forall o, 0 <= o -> o + 4 <= 16 -> u32_ok (fld e o 4 h)).
  { intros o Ho Ho2. unfold fld, u32_ok. replace 32 with (8 * zlen (zslice o 4 h)) by (rewrite zlen_zslice; lia).
    apply read_u_bound. apply bytes_ok_zslice. assumption. }
  assert (Hb8 := Hf 8 ltac:(lia) ltac:(lia)). assert (Hb0 := Hf 0 ltac:(lia) ltac:(lia)). unfold u32_ok in Hb8, Hb0.
  pose proof (rr_read_bytes_no_panic data (0 + 16) (fld e 8 4 h * ws)) as P2.
  destruct (rr_read_bytes data (0 + 16) (fld e 8 4 h * ws)) as [[bl| |] o2] eqn:E2; cbn [bind fst] in *; try congruence.
  apply rr_read_bytes_inv in E2; [|lia|destruct Hws; subst; lia|lia|lia]. destruct E2 as (-> & L2 & Lbl & Ebl).
  pose proof (rr_read_slice_no_panic data (0 + 16 + fld e 8 4 h * ws) 4 (fld e 0 4 h)) as P3.
  destruct (rr_read_slice data (0 + 16 + fld e 8 4 h * ws) 4 (fld e 0 4 h)) as [[bk| |] o3] eqn:E3; cbn [bind fst] in *; try congruence.
  assert (0 <= fld e 8 4 h * ws) by (destruct Hws; subst; lia).
  apply rr_read_slice_inv in E3; [|lia|lia|lia|lia|lia]. destruct E3 as (-> & L3 & Lbk & Fbk & Ebk).
  unfold psub. destruct (Z.leb_spec (0 + 16 + fld e 8 4 h * ws + fld e 0 4 h * 4) (zlen data)); [|lia]. cbn [bind].
  match goal with |- context [rr_read_slice data ?o 4 ?c] => pose proof (rr_read_slice_no_panic data o 4 c) as P4;
    destruct (rr_read_slice data o 4 c) as [[vs| |] o4]; cbn [bind fst] in *; try congruence end.
Qed.

Theorem gnu_sound : forall ws e data t nm vm name h, ws = 4 \/ ws = 8 -> bytes_ok data -> zlen data < 2 ^ 64 ->
  gt_parse ws e data = Ok t -> u32_ok h -> gt_bloom_shift t < 32 ->
  exists r, gt_find ws e t nm vm name h = Ok r /\ forall j, r = Some j -> 0 < j /\ sym_matches nm vm name j.
Proof.
  intros ws e data t nm vm name h Hws Hb Hl Hp Hh Hsh. apply gt_parse_inv in Hp; try assumption.
  destruct Hp as (P1 & P2 & P3 & P4 & P5 & P6 & _). unfold gt_find.
  pose proof (zlen_nonneg (gt_bloom t)).
  assert (0 <= zlen (gt_bloom t) / ws) by (apply Z.div_pos; destruct Hws; lia).
  assert (zlen (gt_bloom t) / ws < 2 ^ 32) by (apply Z.div_lt_upper_bound; destruct Hws; lia).
  destruct (Z.eqb_spec (zlen (gt_bloom t) / ws) 0); [eexists; split; [reflexivity|discriminate]|].
  unfold wrap_u. rewrite Z.mod_small by lia. unfold psub. destruct (Z.leb_spec 1 (zlen (gt_bloom t) / ws)); [|lia]. cbn [bind].
  set (m := Z.land (h / (ws * 8)) (zlen (gt_bloom t) / ws - 1)).
  assert (Hm : 0 <= m <= h / (ws * 8)).
  { unfold m. rewrite Z.land_comm. apply land_le. apply Z.div_pos; unfold u32_ok in Hh; destruct Hws; lia. }
  assert (h / (ws * 8) < 2 ^ 28) by (apply Z.div_lt_upper_bound; unfold u32_ok in Hh; destruct Hws; lia).
  unfold pmul. destruct (Z.ltb_spec (m * ws) (2 ^ 32)); [|destruct Hws; subst ws; lia]. cbn [bind].
  destruct (rr_read_at (gt_bloom t) (m * ws) ws) as [f| |]; try (eexists; split; [reflexivity|discriminate]).
  destruct (Z.land (read_u e f) _ =? 0); [eexists; split; [reflexivity|discriminate]|].
  destruct (Z.leb_spec 32 (gt_bloom_shift t)); [lia|].
  destruct (Z.land (read_u e f) _ =? 0); [eexists; split; [reflexivity|discriminate]|].
  destruct (ht_bucket_no_panic (gt_buckets t) h) as [b Eb]; [unfold u32_ok in Hh; lia|]. rewrite Eb. cbn [bind].
  destruct b as [index|]; [|eexists; split; [reflexivity|discriminate]].
  assert (Hi : 0 <= index).
  { unfold ht_bucket in Eb. destruct (zlen (gt_buckets t) =? 0); [discriminate|].
    destruct (zget (gt_buckets t) (h mod zlen (gt_buckets t))) eqn:Ez; cbn in Eb; [|discriminate].
    inversion Eb; subst. apply (Forall_zget _ _ _ _ P5) in Ez. unfold u32_ok in Ez. lia. }
  destruct (Z.eqb_spec index 0); [eexists; split; [reflexivity|discriminate]|].
  rewrite get_from_eq. destruct ((0 <=? index) && (index <=? zlen nm)); [|eexists; split; [reflexivity|discriminate]].
  destruct (csub index (gt_symbol_base t)) as [k|]; [|eexists; split; [reflexivity|discriminate]].
  destruct (get_from (gt_values t) k) as [vs|]; [|eexists; split; [reflexivity|discriminate]].
  eexists. split; [reflexivity|]. intros j Hj. apply gt_find_loop_sound in Hj as (i & -> & Q5 & Q6 & _).
  pose proof (zget_Some_lt _ _ _ Q5). rewrite zget_zdrop in Q5 by lia. split; [lia|]. split; assumption.
Qed.

Lemma gt_length_loop_no_panic mb : forall vs c, 0 <= c -> c + zlen vs < 2 ^ 32 -> gt_length_loop vs mb c <> Panic.
Proof.
  induction vs as [|v vs IH]; intros c Hc Hl; cbn [gt_length_loop]; [discriminate|]. rewrite zlen_cons in Hl.
  pose proof (zlen_nonneg vs). unfold padd. destruct (Z.ltb_spec (c + 1) (2 ^ 32)); [|lia]. cbn [bind].
  destruct (negb _); [discriminate|]. apply IH; lia.
Qed.
Theorem gnu_length_no_panic : forall ws e data t, ws = 4 \/ ws = 8 -> bytes_ok data -> zlen data < 2 ^ 34 ->
  gt_parse ws e data = Ok t -> gt_symbol_table_length t <> Panic.
Proof.
  intros ws e data t Hws Hb Hl Hp. apply gt_parse_inv in Hp; try assumption; [|lia].
  destruct Hp as (P1 & P2 & P3 & P4 & P5 & P6 & P7). unfold gt_symbol_table_length.
  destruct (gt_symbol_base t =? 0); [discriminate|]. destruct (list_max (gt_buckets t)); [|discriminate].
  destruct (csub z (gt_symbol_base t)) as [s|] eqn:Es; [|discriminate].
  rewrite get_from_eq. destruct ((0 <=? s) && (s <=? zlen (gt_values t))) eqn:E; [|discriminate].
  apply gt_length_loop_no_panic; [lia|]. rewrite zlen_zdrop by lia. lia.
Qed.

(** hash functions *)
Lemma elf_hash_nonneg name : 0 <= elf_hash name.
Proof. unfold elf_hash. apply Z.land_nonneg. right. lia. Qed.
Lemma gnu_hash_u32 name : u32_ok (gnu_hash name).
Proof.
  unfold gnu_hash. assert (H : u32_ok 5381) by (unfold u32_ok; lia). revert H. generalize 5381.
  induction name as [|b name IH]; intros h Hh; cbn [gnu_hash_loop]; [assumption|]. apply IH.
  unfold wrap_u, u32_ok. apply Z.mod_pos_bound. lia.
Qed.
Theorem sysv_by_name : forall e B (names : list bytes) (hashed : Z -> bool), 0 < B < 2 ^ 32 -> zlen names < 2 ^ 32 ->
  exists tab, hash_table e B (zlen names) (fun j => if hashed j then option_map elf_hash (zget names j) else None) = Ok tab /\
  forall rest, exists t, ht_parse e (tab ++ rest) = Ok t /\
  forall vm name, exists r, ht_find t (map Ok names) vm name (elf_hash name) = Ok r /\
    greatest_such (fun j => 0 < j /\ hashed j = true /\ zget names j = Some name /\ vm j = true) r.
Proof.
  intros e B names hashed HB HN.
  destruct (sysv_written e B (zlen names) (fun j => if hashed j then option_map elf_hash (zget names j) else None)) as (tab & E & _ & H);
    [assumption|split; [apply zlen_nonneg|assumption]|].
  exists tab. split; [exact E|]. intro rest. destruct (H rest) as (t & Et & _ & Hf). exists t. split; [exact Et|].
  intros vm name. destruct (Hf (map Ok names) vm name (elf_hash name) (elf_hash_nonneg name)) as (r & Er & Hr).
  exists r. split; [exact Er|]. eapply greatest_ext; [|exact Hr]. intro j. cbn beta.
  unfold sysv_member, sym_matches. rewrite zget_map. split.
  - intros ((Hj & h & Eh & _) & En & Hv). destruct (hashed j); [|discriminate].
    destruct (zget names j) as [n|]; cbn in En; [|discriminate]. inversion En; subst. repeat split; auto; lia.
  - intros (Hj & Hh & En & Hv). rewrite Hh, En. cbn [option_map]. apply zget_Some_lt in En.
    repeat split; auto; try lia. eauto.
Qed.
Theorem gnu_by_name : forall is64 e d (unhashed names : list bytes),
  gd_symbol_base d = zlen unhashed -> gd_symbol_count d = zlen names ->
  let hash i := match zget names i with Some n => gnu_hash n | None => 0 end in
  gnu_ok d hash ->
  exists tab, gnu_hash_table is64 e d hash = Ok tab /\
  forall rest, zlen (tab ++ rest) < 2 ^ 64 -> exists t, gt_parse (if is64 then 8 else 4) e (tab ++ rest) = Ok t /\
  forall vm name, exists r, gt_find (if is64 then 8 else 4) e t (map Ok (unhashed ++ names)) vm name (gnu_hash name) = Ok r /\
    least_such (fun j => zlen unhashed <= j /\ zget (unhashed ++ names) j = Some name /\ vm j = true) r.
Proof.
  intros is64 e d unhashed names Hb Hc hash Hok.
  destruct (gnu_written is64 e d hash Hok) as (tab & E & _ & H). exists tab. split; [exact E|].
  intros rest Hl. destruct (H rest Hl) as (t & Et & Hf). exists t. split; [exact Et|]. intros vm name.
  destruct (Hf (map Ok (unhashed ++ names)) vm name (gnu_hash name) (gnu_hash_u32 name)) as (r & Er & Hr).
  - intros j Hj [Hn _]. rewrite zget_map in Hn. rewrite zget_app2 in Hn by lia. unfold hash. rewrite Hb.
    destruct (zget names (j - zlen unhashed)); cbn in Hn; congruence.
  - exists r. split; [exact Er|].
    assert (Heq : forall j, gd_symbol_base d <= j < gd_symbol_base d + gd_symbol_count d /\ sym_matches (map Ok (unhashed ++ names)) vm name j <->
      zlen unhashed <= j /\ zget (unhashed ++ names) j = Some name /\ vm j = true).
    { intro j. unfold sym_matches. rewrite zget_map, Hb, Hc. split.
      - intros (Hj & Hn & Hv). split; [lia|]. destruct (zget (unhashed ++ names) j); cbn in Hn; [|discriminate]. split; [congruence|assumption].
      - intros (Hj & Hn & Hv). rewrite Hn. pose proof (zget_Some_lt _ _ _ Hn) as Hlt. rewrite zlen_app in Hlt. cbn. repeat split; auto; lia. }
    destruct r as [j|]; cbn in *.
    + destruct Hr as [A C]. split; [now apply Heq|]. intros k Hk. apply C. now apply Heq.
    + intros k Hk. apply (Hr k). now apply Heq.
Qed.
