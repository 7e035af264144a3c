(** Proofs about the layout of sections in segments (src/build/elf.rs). *)
From Verif Require Import Core_proofs Str_proofs Tab_proofs Build_proofs BuildD_proofs.
From Verif Require Import Build_spec.

Lemma pow2_pos al : pow2 al -> 0 < al.
Proof. intros (k & H & ->). apply Z.pow_pos_nonneg; lia. Qed.
Lemma pow2_dvd a b : pow2 a -> pow2 b -> a <= b -> (a | b).
Proof.
  intros (k & Hk & ->) (m & Hm & ->) H. apply Z.pow_le_mono_r_iff in H; [|lia|lia].
  exists (2 ^ (m - k)). rewrite <- Z.pow_add_r by lia. f_equal. lia.
Qed.
Lemma end_aligned_ok x n al : pow2 al -> 0 <= x -> 0 <= n -> x + n + al <= 2 ^ 64 -> end_aligned x n al = Ok (align_up (x + n) al).
Proof.
  intros (k & Hk & ->) Hx Hn H. assert (0 < 2 ^ k) by (apply Z.pow_pos_nonneg; lia).
  change (end_aligned x n (2 ^ k)) with (e <- padd 64 x n ;; align 64 e (2 ^ k)). unfold padd at 1.
  destruct (Z.ltb_spec (x + n) (2 ^ 64)); [|lia]. cbn [bind]. apply align_Ok; lia.
Qed.
Lemma end_aligned_inv x n al r : pow2 al -> 0 <= x -> 0 <= n -> end_aligned x n al = Ok r ->
  r = align_up (x + n) al /\ (al | r) /\ x + n <= r < x + n + al /\ r < 2 ^ 64.
Proof.
  intros (k & Hk & ->) Hx Hn H.
  change (end_aligned x n (2 ^ k)) with (e <- padd 64 x n ;; align 64 e (2 ^ k)) in H.
  unfold padd at 1 in H. destruct (Z.ltb_spec (x + n) (2 ^ 64)); [|discriminate H]. cbn [bind] in H.
  apply (align_exact 64 k (x + n)) in H; [|lia|lia]. destruct H as (A & B & C).
  assert (0 < 2 ^ k) by (apply Z.pow_pos_nonneg; lia).
  split; [apply align_up_unique; assumption|]. tauto.
Qed.
Lemma align_up_shift x d s : 0 < s -> (s | d) -> align_up (x + d) s = align_up x s + d.
Proof.
  intros Hs Hd. symmetry. destruct (align_up_spec x s Hs) as [A B]. apply align_up_unique; [exact Hs| |lia].
  apply Z.divide_add_r; assumption.
Qed.

(** * A new segment *)
Lemma seg_ends_ok : forall l mo ma o a, seg_ends mo ma l = Ok (o, a) ->
  mo <= o /\ ma <= a /\ Forall (fun g => g_offset g + g_filesz g <= o /\ g_vaddr g + g_memsz g <= a) l /\
  (o = mo \/ exists g, In g l /\ o = g_offset g + g_filesz g).
Proof.
  induction l as [|g l IH]; intros mo ma o a; cbn.
  - intros [= <- <-]. split; [lia|]. split; [lia|]. split; [constructor|]. tauto.
  - unfold padd. intros H. destruct (Z.ltb_spec (g_offset g + g_filesz g) (2 ^ 64)); [|discriminate H]. cbn [bind] in H.
    destruct (Z.ltb_spec (g_vaddr g + g_memsz g) (2 ^ 64)); [|discriminate H]. cbn [bind] in H.
    destruct (IH _ _ _ _ H) as (A & B & C & D).
    destruct (Z.ltb_spec mo (g_offset g + g_filesz g)), (Z.ltb_spec ma (g_vaddr g + g_memsz g));
      (split; [lia|]; split; [lia|]; split; [constructor; [lia|exact C]|]);
      (destruct D as [->|(g0 & P & Q)]; [|right; exists g0; tauto]); try tauto; right; exists g; tauto.
Qed.
Lemma seg_ends_ex : forall l mo ma M, mo <= M -> ma <= M -> M < 2 ^ 64 ->
  Forall (fun g => g_offset g + g_filesz g <= M /\ g_vaddr g + g_memsz g <= M) l ->
  exists o a, seg_ends mo ma l = Ok (o, a) /\ o <= M /\ a <= M.
Proof.
  induction l as [|g l IH]; intros mo ma M Ho Ha HM H; cbn; [eauto|]. inversion H as [|? ? [P Q] R]; subst.
  unfold padd. destruct (Z.ltb_spec (g_offset g + g_filesz g) (2 ^ 64)); [|lia]. cbn [bind].
  destruct (Z.ltb_spec (g_vaddr g + g_memsz g) (2 ^ 64)); [|lia]. cbn [bind].
  apply IH; [| |exact HM|exact R].
  - destruct (Z.ltb_spec mo (g_offset g + g_filesz g)); lia.
  - destruct (Z.ltb_spec ma (g_vaddr g + g_memsz g)); lia.
Qed.
Lemma land_low al x : pow2 al -> Z.land x (al - 1) = x mod al.
Proof. intros (k & Hk & ->). replace (2 ^ k - 1) with (Z.ones k) by (rewrite Z.ones_equiv; lia). apply Z.land_ones. lia. Qed.
Lemma live_segs segs g : In g (tab_iter g_del segs) <-> In g segs /\ g_del g = false.
Proof. rewrite iter_filter, filter_In. destruct (g_del g); cbn; intuition discriminate. Qed.
Lemma add_load_ok segs flags al g : pow2 al -> add_load_segment segs flags al = Ok g ->
  fresh_load g flags al /\ 0 <= g_offset g /\ 0 <= g_vaddr g < 2 ^ 64 /\ g_vaddr g mod al = g_offset g mod al /\ (al | g_vaddr g - g_offset g) /\
  (forall h, In h segs -> g_del h = false -> g_offset h + g_filesz h <= g_offset g /\ g_vaddr h + g_memsz h <= g_vaddr g) /\
  (g_offset g = 0 \/ exists h, In h segs /\ g_del h = false /\ g_offset g = g_offset h + g_filesz h).
Proof.
  intros Hal H. pose proof (pow2_pos _ Hal) as Hp. unfold add_load_segment in H. inv_bind H p E. destruct p as [o a].
  destruct (seg_ends_ok _ _ _ _ _ E) as (A & B & C & D). inv_bind H r E1. apply end_aligned_inv in E1; [|exact Hal|lia|lia].
  destruct E1 as (_ & E1 & E2 & E3). unfold psub in H. destruct (Z.leb_spec 1 al); [|lia]. cbn [bind] in H.
  rewrite land_low in H by exact Hal. unfold padd in H. destruct (Z.ltb_spec (r + o mod al) (2 ^ 64)) as [E4|]; [|discriminate H]. cbn [bind] in H.
  pose proof (Z.mod_pos_bound o al Hp). injection H as <-. unfold fresh_load. cbn.
  split; [tauto|]. split; [lia|]. split; [lia|].
  assert ((r + o mod al) mod al = o mod al) as Em.
  { destruct E1 as (q & ->). rewrite Z.add_comm, Z_mod_plus_full. apply Z.mod_mod. lia. }
  split; [exact Em|]. split.
  { apply Z.mod_divide; [lia|]. rewrite Zminus_mod, Em, Z.sub_diag. reflexivity. }
  split.
  - intros h Hh Hd. rewrite Forall_forall in C. specialize (C h). rewrite live_segs in C. specialize (C (conj Hh Hd)). lia.
  - destruct D as [->|(h & P & Q)]; [tauto|]. apply live_segs in P. right. exists h. tauto.
Qed.
Lemma add_load_ex segs flags al M : pow2 al -> 0 <= M -> M + 2 * al <= 2 ^ 64 ->
  (forall h, In h segs -> g_del h = false -> g_offset h + g_filesz h <= M /\ g_vaddr h + g_memsz h <= M) ->
  exists g, add_load_segment segs flags al = Ok g /\ g_offset g <= M /\ g_vaddr g < M + 2 * al.
Proof.
  intros Hal HM HS H. pose proof (pow2_pos _ Hal) as Hp. unfold add_load_segment.
  destruct (seg_ends_ex (tab_iter g_del segs) 0 0 M HM HM) as (o & a & E & Ho & Ha); [lia| |].
  { apply Forall_forall. intros g Hg. apply live_segs in Hg. apply H; tauto. }
  rewrite E. cbn [bind]. destruct (seg_ends_ok _ _ _ _ _ E) as (A & B & _ & _).
  rewrite end_aligned_ok by (try exact Hal; lia). cbn [bind]. unfold psub. destruct (Z.leb_spec 1 al); [|lia]. cbn [bind].
  rewrite land_low by exact Hal. pose proof (Z.mod_pos_bound o al Hp). destruct (align_up_spec (a + 0) al Hp) as [_ W].
  unfold padd. destruct (Z.ltb_spec (align_up (a + 0) al + o mod al) (2 ^ 64)); [|lia]. cbn [bind].
  eexists. split; [reflexivity|]. cbn [g_offset g_vaddr]. lia.
Qed.

(** * Appending sections *)
Definition loadable (al d : Z) (g : bseg) :=
  g_type g = PT_LOAD /\ g_filesz g = g_memsz g /\ g_paddr g = g_vaddr g /\ g_vaddr g = g_offset g + d /\
  0 <= g_offset g /\ 0 <= g_vaddr g /\ 0 <= g_filesz g.
Definition seg_end (g : bseg) := g_offset g + g_filesz g.
Definition step_ok (al d : Z) (g : bseg) (id : Z) (s : bsec) (g' : bseg) (s' : bsec) :=
  loadable al d g' /\ s' = sec_placed s (s_offset s') (s_offset s' + d) /\ placed_at d s' /\
  seg_end g <= s_offset s' < seg_end g + s_align s /\ seg_end g' = s_offset s' + s_size s /\
  g_offset g <= g_offset g' <= s_offset s' /\ (g_filesz g <> 0 -> g_offset g' = g_offset g) /\
  g_secs g' = g_secs g ++ [id] /\ g_del g' = g_del g /\ g_flags g' = g_flags g /\ g_align g' = g_align g.
Lemma append_section_ok al d g id s g' s' : pow2 al -> (al | d) -> loadable al d g -> appendable al s ->
  append_section g id s = Ok (g', s') -> step_ok al d g id s g' s'.
Proof.
  intros Hal Hd (G1 & G2 & G3 & G4 & G5 & G6 & G7) (S1 & S2 & S3 & S4) H. pose proof (pow2_pos _ S3) as Hp.
  assert (s_align s | d) as Hsd by exact (Z.divide_trans _ _ _ (pow2_dvd _ _ S3 Hal S4) Hd).
  unfold append_section in H. destruct (Z.eqb_spec (g_filesz g) (g_memsz g)); [|lia]. cbn [negb] in H.
  unfold is_load in H. rewrite G1 in H. change (PT_LOAD =? PT_LOAD) with true in H. cbv iota in H.
  inv_bind H s0 E. inv_bind E o Eo. inv_bind E a Ea. injection E as <-.
  apply end_aligned_inv in Eo; [|assumption|lia|lia]. apply end_aligned_inv in Ea; [|assumption|lia|lia].
  destruct Eo as (Eo & O1 & O2 & O3), Ea as (Ea & A1 & A2 & A3).
  assert (a = o + d) as ->.
  { rewrite Ea, Eo. rewrite <- align_up_shift by assumption. f_equal. lia. }
  inv_bind H g1 E. injection H as <- <-. cbn [s_offset sec_placed]. unfold append_section_range in E.
  cbn [s_type s_size s_offset s_addr sec_placed] in E. destruct (Z.eqb_spec (s_type s) SHT_NOBITS); [contradiction|].
  assert (placed_at d (sec_placed s o (o + d))) as Hpl by (unfold placed_at; cbn; tauto).
  destruct (Z.eqb_spec (g_memsz g) 0) as [M0|M0].
  - injection E as <-. unfold step_ok, loadable, seg_end, seg_with, seg_ranged. cbn. 
    split; [split; [exact G1|]; split; [lia|]; split; [lia|]; split; [lia|]; split; [lia|]; split; lia|]. split; [reflexivity|]. split; [exact Hpl|]. split; [lia|]. split; [lia|]. split; [lia|]. split; [lia|]. tauto.
  - destruct (Z.ltb_spec o (g_offset g)); [lia|]. destruct (Z.ltb_spec (o + d) (g_vaddr g)); [lia|].
    unfold padd, psub in E. destruct (Z.ltb_spec (o + s_size s) (2 ^ 64)); [|discriminate E]. cbn [bind] in E.
    destruct (Z.leb_spec (g_offset g) (o + s_size s)); [|discriminate E]. cbn [bind] in E.
    destruct (Z.ltb_spec (o + d + s_size s) (2 ^ 64)); [|discriminate E]. cbn [bind] in E.
    destruct (Z.leb_spec (g_vaddr g) (o + d + s_size s)); [|discriminate E]. cbn [bind] in E.
    assert ((if g_filesz g <? o + s_size s - g_offset g then o + s_size s - g_offset g else g_filesz g) = o + s_size s - g_offset g) as Ef
      by (destruct (Z.ltb_spec (g_filesz g) (o + s_size s - g_offset g)); lia).
    assert ((if g_memsz g <? o + d + s_size s - g_vaddr g then o + d + s_size s - g_vaddr g else g_memsz g) = o + s_size s - g_offset g) as Em
      by (destruct (Z.ltb_spec (g_memsz g) (o + d + s_size s - g_vaddr g)); lia).
    rewrite Ef, Em in E. injection E as <-. unfold step_ok, loadable, seg_end, seg_with, seg_ranged. cbn.
    split; [split; [exact G1|]; split; [lia|]; split; [lia|]; split; [lia|]; split; [lia|]; split; lia|]. split; [reflexivity|]. split; [exact Hpl|]. split; [lia|]. split; [lia|]. split; [lia|]. split; [lia|]. tauto.
Qed.
Lemma append_section_ex al d g id s : pow2 al -> (al | d) -> loadable al d g -> appendable al s ->
  seg_end g + s_align s + s_size s <= 2 ^ 64 -> seg_end g + d + s_align s + s_size s <= 2 ^ 64 ->
  exists g' s', append_section g id s = Ok (g', s').
Proof.
  intros Hal Hd (G1 & G2 & G3 & G4 & G5 & G6 & G7) (S1 & S2 & S3 & S4) B1 B2. pose proof (pow2_pos _ S3) as Hp. unfold seg_end in *.
  assert (s_align s | d) as Hsd by exact (Z.divide_trans _ _ _ (pow2_dvd _ _ S3 Hal S4) Hd).
  unfold append_section. destruct (Z.eqb_spec (g_filesz g) (g_memsz g)); [|lia]. cbn [negb].
  unfold is_load. rewrite G1. change (PT_LOAD =? PT_LOAD) with true. cbv iota.
  rewrite !end_aligned_ok by (try assumption; lia). cbn [bind].
  destruct (align_up_spec (g_offset g + g_filesz g) (s_align s) Hp) as [_ W].
  assert (align_up (g_paddr g + g_memsz g) (s_align s) = align_up (g_offset g + g_filesz g) (s_align s) + d) as ->
    by (rewrite <- align_up_shift by assumption; f_equal; lia).
  set (o := align_up _ _) in *. clearbody o. unfold append_section_range. cbn [s_type s_size s_offset s_addr sec_placed].
  destruct (Z.eqb_spec (s_type s) SHT_NOBITS); [contradiction|].
  destruct (Z.eqb_spec (g_memsz g) 0) as [M0|M0]; [cbn; eauto|].
  destruct (Z.ltb_spec o (g_offset g)); [lia|]. destruct (Z.ltb_spec (o + d) (g_vaddr g)); [lia|].
  unfold padd, psub. destruct (Z.ltb_spec (o + s_size s) (2 ^ 64)); [|lia]. cbn [bind].
  destruct (Z.leb_spec (g_offset g) (o + s_size s)); [|lia]. cbn [bind].
  destruct (Z.ltb_spec (o + d + s_size s) (2 ^ 64)); [|lia]. cbn [bind].
  destruct (Z.leb_spec (g_vaddr g) (o + d + s_size s)); [|lia]. cbn [bind]. eauto.
Qed.
Lemma step_moved al d g id s g' s' : step_ok al d g id s g' s' -> moved s s'.
Proof. intros (_ & E & _). exists (s_offset s'), (s_offset s' + d). exact E. Qed.
Lemma append_sections_ok al d : pow2 al -> (al | d) -> forall ids g secs g' secs', loadable al d g -> NoDup ids ->
  (forall id s, In id ids -> zget secs id = Some s -> appendable al s) ->
  append_sections g secs ids = Ok (g', secs') ->
  loadable al d g' /\ laid_out g secs ids g' secs' /\ g_offset g <= g_offset g' /\ seg_end g <= seg_end g' /\
  (g_filesz g <> 0 -> g_offset g' = g_offset g).
Proof.
  intros Hal Hd. induction ids as [|id ids IH]; intros g secs g' secs' L ND HA H; cbn [append_sections] in H.
  - injection H as <- <-. split; [exact L|]. split; [|lia]. destruct L as (G1 & G2 & G3 & G4 & G5 & G6 & G7).
    unfold laid_out. rewrite app_nil_r. split; [reflexivity|]. split; [reflexivity|]. split; [|repeat split; lia].
    exists []. repeat split; constructor.
  - inv_bind H s E. inv_bind H p E1. destruct p as [g1 s1]. cbn [fst snd] in H. apply tab_get_ok in E.
    pose proof (zget_Some_lt _ _ _ E) as Hr.
    inversion ND as [|? ? Ni ND']; subst.
    pose proof (append_section_ok al d g id s g1 s1 Hal Hd L (HA id s (or_introl eq_refl) E) E1) as St.
    pose proof (step_moved _ _ _ _ _ _ _ St) as Mv.
    destruct St as (L1 & P1 & P2 & P3 & P4 & P5 & P6 & P7 & P8 & P9 & P10).
    destruct (IH g1 (zset secs id s1) g' secs' L1 ND') as (L' & La & O1 & O2 & O3); [|exact H|].
    { intros i x Hi Hx. rewrite zget_zset in Hx by exact Hr. destruct (Z.eqb_spec i id) as [->|N]; [contradiction|].
      apply (HA i x (or_intror Hi) Hx). }
    destruct La as (La1 & La2 & (ps & Q1 & Q2 & Q3 & Q4) & La4 & La5 & La6 & La7 & La8 & La9 & La10 & La11).
    split; [exact L'|]. split; [|split; [lia|split; [|]]].
    + destruct L as (G1 & G2 & G3 & G4 & G5 & G6 & G7). destruct L1 as (K1 & K2 & K3 & K4 & K5 & K6 & K7). unfold seg_end in *.
      assert (s_size s1 = s_size s) as Hsz by (destruct Mv as (? & ? & ->); reflexivity).
      destruct (HA id s (or_introl eq_refl) E) as (_ & S2 & _ & _).
      unfold laid_out. split; [rewrite La1; apply zlen_zset; exact Hr|]. split.
      { intros i Hi. cbn [In] in Hi. rewrite La2 by tauto. rewrite zget_zset by exact Hr. destruct (Z.eqb_spec i id); [subst; tauto|reflexivity]. }
      split; [|repeat split; try congruence; [rewrite La4, P7, <- app_assoc; reflexivity|lia]].
      exists (s1 :: ps). split; [|split; [|split]].
      * constructor; [|exact Q1]. rewrite La2 by assumption. rewrite zget_zset by exact Hr. rewrite Z.eqb_refl. reflexivity.
      * constructor; [intros s0 Hs0; congruence|]. 
        assert (forall l1 l2, Forall2 (fun id0 p => forall s2, zget (zset secs id s1) id0 = Some s2 -> moved s2 p) l1 l2 -> ~ In id l1 ->
          Forall2 (fun id0 p => forall s2, zget secs id0 = Some s2 -> moved s2 p) l1 l2) as W.
        { intros l1 l2 F. induction F as [|x y l1 l2 W F IHF]; intros Hn; constructor.
          - intros s2 Hs2. apply W. rewrite zget_zset by exact Hr. destruct (Z.eqb_spec x id) as [->|N]; [cbn in Hn; tauto|exact Hs2].
          - apply IHF. cbn in Hn. tauto. }
        apply W; assumption.
      * constructor; [exact Q3|]. eapply Forall_impl; [|exact Q4]. cbn beta. intros p (V1 & V2 & V3 & V4). unfold before, sec_end, addr_end.
        rewrite Hsz. destruct V1 as (_ & _ & V1). destruct P2 as (_ & _ & P2). split; lia.
      * constructor.
        -- split; [replace (g_vaddr g - g_offset g) with d by lia; exact P2|]. split; [lia|]. unfold sec_end. rewrite Hsz. split; [lia|].
           intros Hpos. rewrite O3; lia.
        -- eapply Forall_impl; [|exact Q4]. cbn beta. intros p (V1 & V2 & V3 & V4). split; [replace (g_vaddr g - g_offset g) with (g_vaddr g1 - g_offset g1) by lia; exact V1|].
           split; [lia|]. tauto.
    + destruct (HA id s (or_introl eq_refl) E) as (_ & S2 & _ & _). unfold seg_end in *. lia.
    + intros Hf. rewrite O3; [apply P6, Hf|]. destruct L1 as (K1 & K2 & K3 & K4 & K5 & K6 & K7). 
      destruct (HA id s (or_introl eq_refl) E) as (_ & S2 & _ & _). unfold seg_end in *. specialize (P6 Hf). destruct L as (_ & _ & _ & _ & _ & _ & G7). lia.
Qed.
Lemma room_zset secs id s : forall ids, ~ In id ids -> 0 <= id < zlen secs -> room (zset secs id s) ids = room secs ids.
Proof.
  induction ids as [|i ids IH]; intros Hn Hr; [reflexivity|]. cbn in *. rewrite IH by tauto. rewrite zget_zset by exact Hr.
  destruct (Z.eqb_spec i id); [subst; tauto|reflexivity].
Qed.
Lemma room_nonneg al secs : forall ids, (forall id s, In id ids -> zget secs id = Some s -> appendable al s) -> 0 <= room secs ids.
Proof.
  induction ids as [|i ids IH]; intros H; [cbn; lia|]. cbn. specialize (IH (fun id s Hi => H id s (or_intror Hi))).
  destruct (zget secs i) as [s|] eqn:E; [|lia]. destruct (H i s (or_introl eq_refl) E) as (_ & A & B & _). apply pow2_pos in B. lia.
Qed.
Lemma append_sections_ex al d : pow2 al -> (al | d) -> forall ids g secs, loadable al d g -> NoDup ids ->
  (forall id, In id ids -> exists s, zget secs id = Some s /\ appendable al s) ->
  seg_end g + room secs ids <= 2 ^ 64 -> seg_end g + d + room secs ids <= 2 ^ 64 ->
  exists g' secs', append_sections g secs ids = Ok (g', secs').
Proof.
  intros Hal Hd. induction ids as [|id ids IH]; intros g secs L ND HA B1 B2; cbn [append_sections]; [eauto|].
  destruct (HA id (or_introl eq_refl)) as (s & E & Ha). inversion ND as [|? ? Ni ND']; subst. pose proof (zget_Some_lt _ _ _ E) as Hr.
  cbn [room] in B1, B2. rewrite E in B1, B2.
  assert (0 <= room secs ids) by (apply (room_nonneg al); intros i x Hi Hx; destruct (HA i (or_intror Hi)) as (y & Y1 & Y2); congruence).
  destruct (append_section_ex al d g id s Hal Hd L Ha) as (g1 & s1 & E1); [lia|lia|].
  pose proof (append_section_ok al d g id s g1 s1 Hal Hd L Ha E1) as (L1 & P1 & P2 & P3 & P4 & P5 & P6 & P7).
  unfold tab_get. rewrite E. cbn [unwrap bind]. rewrite E1. cbn [bind fst snd]. apply IH; [exact L1|exact ND'| | |].
  - intros i Hi. destruct (HA i (or_intror Hi)) as (y & Y1 & Y2). exists y. split; [|exact Y2]. rewrite zget_zset by exact Hr.
    destruct (Z.eqb_spec i id); [subst; contradiction|exact Y1].
  - rewrite room_zset by assumption. lia.
  - rewrite room_zset by assumption. lia.
Qed.
