From Verif Require Import Core_proofs Buf_spec.

Lemma ztake_repeat {A} (x:A) n m : ztake n (repeat x m) = repeat x (Nat.min (Z.to_nat n) m).
Proof.
  unfold ztake. revert m; induction (Z.to_nat n) as [|k IH]; intros [|m]; cbn; try reflexivity.
  rewrite IH; reflexivity.
Qed.
Lemma zeros_app a b : 0 <= a -> 0 <= b -> zeros a ++ zeros b = zeros (a + b).
Proof. intros; unfold zeros. rewrite <- repeat_app. f_equal; lia. Qed.

(** Counting over a well-behaved appender. *)
Definition appends {S} (W : wbuf S) (I : S -> bytes -> Prop) (cap : Z) : Prop :=
  (forall s l b, I s l -> zlen l + zlen b <= cap ->
     exists s', w_write_bytes W s b = (Ok tt, s') /\ I s' (l ++ b)) /\
  (forall s l n, I s l -> 0 <= n -> zlen l + n <= cap ->
     exists s', w_write_zeros W s n = (Ok tt, s') /\ I s' (l ++ zeros n)).

Lemma wanted_zlen_pos c op b : wanted c op b -> 0 <= zlen b. Proof. intros; apply zlen_nonneg. Qed.

Lemma counting_zeros {S} (W : wbuf S) I cap s l c n : appends W I cap -> I s l -> 0 <= n ->
  zlen l + n <= cap -> 0 <= c -> c + n < 2 ^ 64 ->
  exists s', w_write_zeros (counting_wbuf W) (s, c) n = (Ok tt, (s', c + n)) /\ I s' (l ++ zeros n).
Proof.
  intros [_ HZ] HI Hn Hc H0 Hc2. destruct (HZ s l n HI Hn Hc) as (s' & E & HI').
  exists s'. split; [|exact HI']. cbn. rewrite E. unfold padd. destruct (Z.ltb_spec (c + n) (2 ^ 64)); [reflexivity|lia].
Qed.

Lemma run_wop_append {S} (W : wbuf S) I cap s l c op b : appends W I cap -> I s l -> wanted c op b ->
  zlen l + zlen b <= cap -> 0 <= c -> c + zlen b < 2 ^ 64 ->
  exists s', run_wop W (s, c) op = (Ok tt, (s', c + zlen b)) /\ I s' (l ++ b).
Proof.
  intros HW HI Hw Hcap Hc Hc2. destruct op; cbn [wanted run_wop] in *.
  - subst b0. destruct HW as [HB _]. destruct (HB s l b HI Hcap) as (s' & E & HI').
    exists s'; split; [|exact HI']. cbn. rewrite E. unfold padd.
    destruct (Z.ltb_spec (c + zlen b) (2 ^ 64)); [reflexivity|lia].
  - destruct Hw as [Hn ->]. rewrite zlen_zeros in * by lia. eapply counting_zeros; eauto.
  - destruct Hw as [Hn ->]. rewrite zlen_zeros in * by lia. unfold counting_resize. cbn [snd].
    destruct (Z.ltb_spec n c); [lia|]. unfold ssub. destruct (Z.leb_spec c n); [|lia].
    eapply counting_zeros; eauto; lia.
  - destruct Hw as [(k & Hk & ->) (p & Hp & Hd & ->)]. rewrite zlen_zeros in * by lia.
    unfold counting_write_align. cbn [snd].
    assert (Ha : align 64 c (2 ^ k) = Ok (c + p)).
    { destruct (align_exact 64 k c) as [_ Hx]; [lia|lia|]. apply Hx. repeat split; try assumption; lia. }
    rewrite Ha. unfold counting_resize. cbn [snd]. destruct (Z.ltb_spec (c + p) c); [lia|].
    unfold ssub. destruct (Z.leb_spec c (c + p)); [|lia]. replace (c + p - c) with p by lia.
    eapply counting_zeros; eauto; lia.
Qed.

Lemma run_wops_append {S} (W : wbuf S) I cap : appends W I cap ->
  forall ops s l c total, I s l -> wanted_all c ops total ->
  zlen l + zlen total <= cap -> 0 <= c -> c + zlen total < 2 ^ 64 ->
  exists s', run_wops W (s, c) ops = (Ok tt, (s', c + zlen total)) /\ I s' (l ++ total).
Proof.
  intros HW. induction ops as [|op ops IH]; intros s l c total HI Hw Hcap Hc Hc2.
  - inversion Hw; subst. exists s. cbn. change (zlen (@nil Z)) with 0. rewrite Z.add_0_r, app_nil_r. auto.
  - inversion Hw; subst. rewrite zlen_app in *. pose proof (zlen_nonneg b). pose proof (zlen_nonneg rest).
    destruct (run_wop_append W I cap s l c op b HW HI) as (s1 & E & HI1); try assumption; try lia.
    cbn [run_wops]. rewrite E.
    destruct (IH s1 (l ++ b) (c + zlen b) rest HI1) as (s2 & E2 & HI2); try assumption; try (rewrite ?zlen_app; lia).
    exists s2. rewrite E2, app_assoc. split; [do 2 f_equal; lia|exact HI2].
Qed.

Lemma vec_appends init : appends vec_wbuf (fun s l => s = init ++ l) (2 ^ 63 - 1 - zlen init).
Proof.
  split; intros s l b -> H; [|intros Hb]; cbn [w_write_bytes w_write_zeros vec_wbuf]; unfold vec_write_bytes; rewrite zlen_app.
  - destruct (Z.ltb_spec (zlen init + zlen l + zlen b) (2 ^ 63)); [|lia].
    eexists; split; [reflexivity|]. rewrite app_assoc; reflexivity.
  - destruct (Z.ltb_spec (zlen init + zlen l + b) (2 ^ 63)); [|lia].
    eexists; split; [reflexivity|]. rewrite app_assoc; reflexivity.
Qed.
Lemma slice_appends init : appends slice_wbuf
  (fun s l => fst s = l /\ snd s = zdrop (zlen l) init /\ zlen l <= zlen init) (zlen init).
Proof.
  split; intros [hd tl] l b (H1 & H2 & H3) H; [|intros Hb]; cbn in *; subst.
  - pose proof (zlen_nonneg l). pose proof (zlen_nonneg b). rewrite zlen_zdrop by lia.
    destruct (Z.leb_spec (zlen b) (zlen init - zlen l)); [|lia].
    eexists; split; [reflexivity|]. cbn. rewrite zlen_app, zdrop_zdrop by lia.
    repeat split; try lia. f_equal; lia.
  - pose proof (zlen_nonneg l). rewrite zlen_zdrop by lia.
    destruct (Z.leb_spec b (zlen init - zlen l)); [|lia].
    eexists; split; [reflexivity|]. cbn. rewrite zlen_app, zdrop_zdrop, zlen_zeros by lia.
    repeat split; try lia. f_equal; lia.
Qed.

Lemma vec_run ops total init : wanted_all 0 ops total -> zlen init + zlen total < 2 ^ 63 ->
  run_wops vec_wbuf (counting_new init) ops = (Ok tt, (init ++ total, zlen total)).
Proof.
  intros Hw Hl. pose proof (zlen_nonneg init). pose proof (zlen_nonneg total).
  destruct (run_wops_append vec_wbuf _ _ (vec_appends init) ops init [] 0 total) as (s' & E & ->);
    try assumption; try lia.
  - rewrite app_nil_r; reflexivity.
  - change (zlen (@nil Z)) with 0. lia.
Qed.
Lemma slice_run ops total init : wanted_all 0 ops total -> zlen total <= zlen init -> zlen init < 2 ^ 64 ->
  run_wops slice_wbuf (counting_new ([], init)) ops =
    (Ok tt, ((total, zdrop (zlen total) init), zlen total)).
Proof.
  intros Hw Hl Hi. pose proof (zlen_nonneg init). pose proof (zlen_nonneg total).
  destruct (run_wops_append slice_wbuf _ _ (slice_appends init) ops ([], init) [] 0 total) as ([a b] & E & HI);
    try assumption; try lia.
  - cbn [fst snd]. change (zlen (@nil Z)) with 0. rewrite zdrop_0. repeat split; lia.
  - cbn in HI. destruct HI as (-> & -> & _). exact E.
Qed.

(** Writing more than the slice holds panics (and never writes out of the array). *)
Lemma run_wops_slice_overflow : forall ops total hd tl c, wanted_all c ops total -> 0 <= c ->
  c + zlen total < 2 ^ 64 -> zlen tl < zlen total ->
  exists s, run_wops slice_wbuf ((hd, tl), c) ops = (Panic, s) /\
    zlen (fst (fst s) ++ snd (fst s)) = zlen hd + zlen tl.
Proof.
  induction ops as [|op ops IH]; intros total hd tl c Hw Hc Hc2 Hlt.
  - inversion Hw; subst. change (zlen (@nil Z)) with 0 in Hlt. pose proof (zlen_nonneg tl). lia.
  - inversion Hw as [|c0 o os b rest Hb Hr]; subst. rewrite zlen_app in *.
    pose proof (zlen_nonneg b). pose proof (zlen_nonneg rest). pose proof (zlen_nonneg tl).
    destruct (Z.le_gt_cases (zlen b) (zlen tl)) as [Hle|Hgt].
    + destruct (run_wop_append slice_wbuf _ _ (hd, tl) hd c op b (slice_appends (hd ++ tl)))
        as ([h t] & E & HI); try assumption; try (rewrite ?zlen_app; lia).
      { cbn. rewrite zdrop_app, zlen_app. repeat split; lia. }
      cbn in HI. destruct HI as (-> & -> & _). cbn [run_wops]. rewrite E.
      destruct (IH rest (hd ++ b) (zdrop (zlen (hd ++ b)) (hd ++ tl)) (c + zlen b) Hr) as (s & Es & Hz); try lia.
      { rewrite zlen_zdrop by (rewrite !zlen_app; pose proof (zlen_nonneg hd); lia). rewrite !zlen_app. lia. }
      exists s. split; [exact Es|]. rewrite Hz.
      rewrite zlen_zdrop by (rewrite !zlen_app; pose proof (zlen_nonneg hd); lia). rewrite !zlen_app. lia.
    + assert (Hz : forall n, zlen b = n -> 
         w_write_zeros (counting_wbuf slice_wbuf) ((hd, tl), c) n = (Panic, ((hd ++ tl, []), c))).
      { intros n <-. cbn. destruct (Z.leb_spec (zlen b) (zlen tl)); [lia|reflexivity]. }
      exists ((hd ++ tl, []), c). split; [|cbn; rewrite app_nil_r, zlen_app; lia].
      cbn [run_wops]. destruct op; cbn [wanted run_wop] in *.
      * subst b0. cbn. unfold slice_write. destruct (Z.leb_spec (zlen b) (zlen tl)); [lia|reflexivity].
      * destruct Hb as [Hn ->]. rewrite Hz; [reflexivity|]. apply zlen_zeros; lia.
      * destruct Hb as [Hn ->]. unfold counting_resize. cbn [snd].
        destruct (Z.ltb_spec n c); [lia|]. unfold ssub. destruct (Z.leb_spec c n); [|lia].
        rewrite Hz; [reflexivity|]. apply zlen_zeros; lia.
      * destruct Hb as [(k & Hk & ->) (p & Hp & Hd & ->)]. rewrite zlen_zeros in * by lia.
        unfold counting_write_align. cbn [snd].
        assert (Ha : align 64 c (2 ^ k) = Ok (c + p)).
        { destruct (align_exact 64 k c) as [_ Hx]; [lia|lia|]. apply Hx. repeat split; try assumption; lia. }
        rewrite Ha. unfold counting_resize. cbn [snd]. destruct (Z.ltb_spec (c + p) c); [lia|].
        unfold ssub. destruct (Z.leb_spec c (c + p)); [|lia]. replace (c + p - c) with p by lia.
        rewrite Hz; [reflexivity|reflexivity].
Qed.

(** Streaming. *)
Fixpoint send_all (s : streaming) (l : list bytes) : streaming :=
  match l with [] => s | b :: l => send_all (snd (streaming_write s b)) l end.
Lemma send_all_app s a b : send_all s (a ++ b) = send_all (send_all s a) b.
Proof. revert s; induction a; intro; cbn; auto. Qed.
Lemma streaming_write_ok s b : fst (streaming_write s b) = Ok tt.
Proof. unfold streaming_write. destruct (s_result s); [reflexivity|]. destruct (write_all _ _); reflexivity. Qed.

Lemma default_zeros_send fuel : forall s n, (Z.to_nat n <= fuel)%nat ->
  exists l, default_write_zeros streaming_write fuel s n = (Ok tt, send_all s l) /\
    concat l = zeros n /\ Forall (fun c => 0 < zlen c <= 1024) l.
Proof.
  induction fuel as [|fuel IH]; intros s n Hf; cbn [default_write_zeros].
  - destruct (Z.ltb_spec 0 n); [lia|]. exists []. cbn. unfold zeros. replace (Z.to_nat n) with 0%nat by lia.
    repeat split; constructor.
  - destruct (Z.ltb_spec 0 n).
    + destruct (streaming_write s (zeros (Z.min n 1024))) as [r s1] eqn:E.
      pose proof (streaming_write_ok s (zeros (Z.min n 1024))) as Hr. rewrite E in Hr. cbn in Hr. subst r.
      destruct (IH s1 (n - Z.min n 1024)) as (l & El & Hl & Hc); [lia|].
      exists (zeros (Z.min n 1024) :: l). rewrite El. cbn [send_all]. rewrite E. cbn [snd concat].
      rewrite Hl, zeros_app by lia. repeat split; [f_equal; lia|].
      constructor; [rewrite zlen_zeros; lia|exact Hc].
    + exists []. cbn. unfold zeros. replace (Z.to_nat n) with 0%nat by lia. repeat split; constructor.
Qed.

Lemma streamed_det sched l : forall c1 e1, streamed sched l c1 e1 -> forall c2 e2, streamed sched l c2 e2 ->
  c1 = c2 /\ e1 = e2.
Proof.
  induction 1; intros c2 e2 H2; inversion H2; subst; auto; try (edestruct IHstreamed; eauto; subst; auto).
Qed.

Lemma send_all_err s l e : s_result s = Some e -> send_all s l = s.
Proof.
  revert s; induction l as [|b l IH]; intros s H; [reflexivity|]. cbn [send_all].
  unfold streaming_write. rewrite H. cbn. apply IH; exact H.
Qed.
Lemma send_all_spec l : forall w, exists calls e,
  streamed (wr_sched w) l calls e /\
  s_result (send_all (streaming_new w) l) = e /\
  wr_calls (s_writer (send_all (streaming_new w) l)) = wr_calls w ++ calls /\
  wr_out (s_writer (send_all (streaming_new w) l)) = wr_out w ++ sink (wr_sched w) calls e.
Proof.
  induction l as [|b l IH]; intros w.
  - exists [], None. cbn. rewrite !app_nil_r. repeat split; constructor.
  - destruct w as [o c sch]. destruct sch as [|[[e k]|] sch].
    + replace (send_all _ (b :: l)) with
        (send_all (streaming_new {| wr_out := o ++ b; wr_calls := c ++ [b]; wr_sched := [] |}) l) by reflexivity.
      destruct (IH {| wr_out := o ++ b; wr_calls := c ++ [b]; wr_sched := [] |}) as (calls & e & H1 & H2 & H3 & H4).
      exists (b :: calls), e. cbn [wr_sched wr_out wr_calls] in *.
      rewrite H2, H3, H4. repeat split.
      * constructor; exact H1.
      * rewrite <- app_assoc. reflexivity.
      * rewrite <- app_assoc. f_equal. destruct e.
        { exfalso. clear -H1. remember [] as x. remember (Some z) as y. induction H1; try discriminate; auto. }
        reflexivity.
    + replace (send_all _ (b :: l)) with (send_all {| s_result := Some e;
        s_writer := {| wr_out := o ++ ztake k b; wr_calls := c ++ [b]; wr_sched := sch |} |} l) by reflexivity.
      rewrite send_all_err with (e := e) by reflexivity.
      exists [b], (Some e). cbn. repeat split. constructor.
    + replace (send_all _ (b :: l)) with
        (send_all (streaming_new {| wr_out := o ++ b; wr_calls := c ++ [b]; wr_sched := sch |}) l) by reflexivity.
      destruct (IH {| wr_out := o ++ b; wr_calls := c ++ [b]; wr_sched := sch |}) as (calls & e & H1 & H2 & H3 & H4).
      exists (b :: calls), e. cbn [wr_sched wr_out wr_calls] in *.
      rewrite H2, H3, H4. repeat split.
      * constructor; exact H1.
      * rewrite <- app_assoc. reflexivity.
      * rewrite <- app_assoc. f_equal. destruct e; [|reflexivity].
        destruct calls as [|x calls]; [exfalso; inversion H1|].
        unfold sink. replace (length (b :: x :: calls) - 1)%nat with (S (length (x :: calls) - 1)) by (cbn; lia).
        cbn [nth_error]. change (removelast (b :: x :: calls)) with (b :: removelast (x :: calls)).
        change (last (b :: x :: calls) []) with (last (x :: calls) []). cbn [concat].
        rewrite app_assoc. reflexivity.
Qed.

(** Streaming through a CountingBuffer: the stream gets the wanted bytes in pieces. *)
Lemma stream_appends w : appends streaming_wbuf
  (fun s l => exists pieces, s = send_all (streaming_new w) pieces /\ concat pieces = l) (2 ^ 64).
Proof.
  split.
  - intros s l b (ps & -> & <-) _. cbn. destruct (streaming_write _ b) as [r s'] eqn:E.
    pose proof (streaming_write_ok (send_all (streaming_new w) ps) b) as Hr. rewrite E in Hr. cbn in Hr. subst r.
    exists s'. split; [reflexivity|]. exists (ps ++ [b]). rewrite send_all_app, concat_app. cbn.
    rewrite E, app_nil_r. auto.
  - intros s l n (ps & -> & <-) Hn _. cbn.
    destruct (default_zeros_send (Z.to_nat n) (send_all (streaming_new w) ps) n) as (cs & E & Hc & _); [lia|].
    rewrite E. eexists; split; [reflexivity|]. exists (ps ++ cs). rewrite send_all_app, concat_app, Hc. auto.
Qed.
Lemma stream_run ops total w : wanted_all 0 ops total -> zlen total < 2 ^ 64 ->
  exists s pieces calls e, run_wops streaming_wbuf (counting_new (streaming_new w)) ops = (Ok tt, (s, zlen total)) /\
    concat pieces = total /\ streamed (wr_sched w) pieces calls e /\
    wr_calls (s_writer s) = wr_calls w ++ calls /\
    wr_out (s_writer s) = wr_out w ++ sink (wr_sched w) calls e /\
    fst (streaming_result s) = e /\ fst (streaming_result (snd (streaming_result s))) = None.
Proof.
  intros Hw Hl. pose proof (zlen_nonneg total).
  destruct (run_wops_append streaming_wbuf _ _ (stream_appends w) ops (streaming_new w) [] 0 total)
    as (s & E & ps & -> & Hp); try assumption; try lia.
  - exists []. auto.
  - change (zlen (@nil Z)) with 0. lia.
  - destruct (send_all_spec ps w) as (calls & e & H1 & H2 & H3 & H4).
    exists (send_all (streaming_new w) ps), ps, calls, e. cbn in Hp. repeat split; auto.
Qed.
Lemma streamed_nofault l : forall sched calls e, streamed sched l calls e -> Forall (fun o => o = None) sched -> e = None /\ calls = l.
Proof.
  intros sched calls e H. induction H; intros Hf; auto.
  - destruct IHstreamed; [constructor|]. subst; auto.
  - apply Forall_inv_tail in Hf. destruct IHstreamed; auto. subst; auto.
  - apply Forall_inv in Hf. discriminate.
Qed.
Lemma stream_run_nofault ops total w : wanted_all 0 ops total -> zlen total < 2 ^ 64 ->
  Forall (fun o => o = None) (wr_sched w) ->
  exists s, run_wops streaming_wbuf (counting_new (streaming_new w)) ops = (Ok tt, (s, zlen total)) /\
    wr_out (s_writer s) = wr_out w ++ total /\ fst (streaming_result s) = None.
Proof.
  intros Hw Hl Hf. destruct (stream_run ops total w Hw Hl) as (s & ps & calls & e & E & Hp & Hs & H3 & H4 & H5 & _).
  destruct (streamed_nofault _ _ _ _ Hs Hf) as [-> ->]. exists s. cbn in H4. rewrite Hp in H4. auto.
Qed.
Lemma stream_silent_after_error s op c : forall e, s_result s = Some e -> forall b, 
  wanted c op b -> 0 <= c -> c + zlen b < 2 ^ 64 ->
  run_wop streaming_wbuf (s, c) op = (Ok tt, (s, c + zlen b)).
Proof.
  intros e He b Hw Hc Hc2.
  assert (HA : appends streaming_wbuf (fun s' _ => s' = s) (2 ^ 64)).
  { split.
    - intros s' l b' -> _. cbn. unfold streaming_write. rewrite He. eauto.
    - intros s' l n -> Hn _. cbn. destruct (default_zeros_send (Z.to_nat n) s n) as (cs & E & _); [lia|].
      rewrite E, (send_all_err s cs e He). eauto. }
  destruct (run_wop_append streaming_wbuf _ _ s [] c op b HA eq_refl Hw) as (s' & E & ->); try assumption.
  change (zlen (@nil Z)) with 0. lia.
Qed.
