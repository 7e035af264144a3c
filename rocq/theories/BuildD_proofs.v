(** Proofs about [delete_orphans] and [delete_unused_versions] (src/build/elf.rs). *)
From Verif Require Import Core_proofs Str_proofs Tab_proofs Build_proofs.
From Verif Require MachP_proofs.
From Verif Require Import Build_spec.

Ltac inv_bind H x E := match type of H with bind ?m _ = Ok _ => destruct m as [x| |] eqn:E; [cbn [bind] in H|discriminate H|discriminate H] end.
Lemma orphans_inv b b' : delete_orphans b = Ok b' <-> exists segs syms dynsyms secs secs',
  delete_orphan_segments s_del (b_secs b) (b_segs b) = Ok segs /\
  delete_orphan_symbols s_del (b_secs b) (b_syms b) = Ok syms /\
  delete_orphan_symbols s_del (b_secs b) (b_dynsyms b) = Ok dynsyms /\
  delete_orphan_relocations (with_syms (with_segs b segs) syms dynsyms) = Ok secs /\
  delete_orphan_dynamics secs = Ok secs' /\
  b' = Build_builder segs secs' syms dynsyms (b_files b) (b_vers b).
Proof.
  unfold delete_orphans. split.
  - intros H. inv_bind H segs E1. cbn [b_secs b_syms b_dynsyms with_segs] in H. inv_bind H syms E2. inv_bind H dyns E3.
    inv_bind H secs E4. cbn [b_secs with_secs] in H. inv_bind H secs' E5. exists segs, syms, dyns, secs, secs'. 
    do 5 (split; [first [reflexivity|assumption]|]). injection H as <-. reflexivity.
  - intros (segs & syms & dyns & secs & secs' & A & B & C & D & E & ->). rewrite A. cbn [bind b_secs b_syms b_dynsyms with_segs].
    rewrite B. cbn [bind]. rewrite C. cbn [bind]. rewrite D. cbn [bind b_secs with_secs]. rewrite E. reflexivity.
Qed.
Lemma in_table_len {T T'} (t : list T) (t' : list T') id : zlen t' = zlen t -> in_table t' id <-> in_table t id.
Proof. intros H. rewrite !in_table_iff. lia. Qed.
Lemma orphans_ex b : (exists b', delete_orphans b = Ok b') <-> ids_ok b.
Proof.
  unfold ids_ok. split.
  - intros (b' & H). apply orphans_inv in H as (segs & syms & dyns & secs & secs' & A & B & C & D & E & ->).
    pose proof (proj1 (segs_ex _ _ _) (ex_intro _ _ A)) as H1. pose proof (proj1 (syms_ex _ _ _) (ex_intro _ _ B)) as H2.
    pose proof (proj1 (syms_ex _ _ _) (ex_intro _ _ C)) as H3. pose proof (proj1 (rels_ex _) (ex_intro _ _ D)) as [H4 H5].
    cbn [b_secs b_syms b_dynsyms with_syms with_segs] in H4, H5.
    pose proof (F2_len _ _ _ (syms_ok _ _ _ _ B)) as L1. pose proof (F2_len _ _ _ (syms_ok _ _ _ _ C)) as L2.
    split; [exact H1|]. split; [intros m id [Hm|Hm]; [apply H2|apply H3]; exact Hm|].
    split; intros s l r id P1 P2 P3 P4 P5.
    + apply (in_table_len (b_syms b) syms id L1). eauto.
    + apply (in_table_len (b_dynsyms b) dyns id L2). eauto.
  - intros (H1 & H2 & H4 & H5).
    destruct (proj2 (segs_ex s_del _ _) H1) as (segs & A). 
    destruct (proj2 (syms_ex s_del (b_secs b) (b_syms b))) as (syms & B); [intros m id Hm; apply H2; tauto|].
    destruct (proj2 (syms_ex s_del (b_secs b) (b_dynsyms b))) as (dyns & C); [intros m id Hm; apply H2; tauto|].
    pose proof (F2_len _ _ _ (syms_ok _ _ _ _ B)) as L1. pose proof (F2_len _ _ _ (syms_ok _ _ _ _ C)) as L2.
    destruct (proj2 (rels_ex (with_syms (with_segs b segs) syms dyns))) as (secs & D).
    { cbn [b_secs b_syms b_dynsyms with_syms with_segs]. split; intros s l r id P1 P2 P3 P4 P5.
      - apply (in_table_len (b_syms b) syms id L1). eauto.
      - apply (in_table_len (b_dynsyms b) dyns id L2). eauto. }
    destruct (dyns_ex secs) as (secs' & E). eexists. apply orphans_inv. exists segs, syms, dyns, secs, secs'. tauto.
Qed.
(** the sections after the relocation pass describe the same tables *)
Lemma rels_dyn_ok b secs : delete_orphan_relocations b = Ok secs -> forall d, dyn_ok secs d <-> dyn_ok (b_secs b) d.
Proof.
  intros H d. apply rels_ok in H. unfold dyn_ok.
  split; intros W tag k E T; destruct (W tag k E T) as (id & s & A & B & C).
  - destruct (F2_get_r _ _ _ H id s A) as (s0 & A0 & E0 & D1 & D2). exists id, s0. split; [exact A0|].
    assert (s_del s0 = false) as D0 by (rewrite E0 in B; exact B). split; [exact D0|]. specialize (D2 D0).
    destruct (s_data s0) eqn:K0; try (assert (s = s0) by exact D2; congruence);
      destruct D2 as (l' & D2 & _); rewrite D2 in C; subst k; clear - T; inversion T.
  - destruct (F2_get _ _ _ H id s A) as (s' & A0 & E0 & D1 & D2). exists id, s'. split; [exact A0|].
    split; [rewrite E0; exact B|]. specialize (D2 B). rewrite C in D2.
    destruct T; rewrite D2; exact C.
Qed.
Lemma orphans_ok b b' : delete_orphans b = Ok b' -> orphaned b b'.
Proof.
  intros H. apply orphans_inv in H as (segs & syms & dyns & secs & secs' & A & B & C & D & E & ->).
  unfold orphaned. cbn [b_segs b_secs b_syms b_dynsyms b_files b_vers].
  split; [apply segs_ok, A|]. split; [apply syms_ok, B|]. split; [apply syms_ok, C|]. split; [|split; reflexivity].
  pose proof (rels_dyn_ok _ _ D) as Hd. apply rels_ok in D. apply dyns_ok in E. cbn [b_secs with_syms with_segs b_syms b_dynsyms] in D, Hd.
  unfold sec_orphaned, data_orphaned. cbn [b_syms b_dynsyms].
  set (P := dyn_ok secs) in *. set (Q := dyn_ok (b_secs b)) in *. clearbody P Q. rename Hd into HP. clear A B C.
  generalize dependent (b_secs b). intros secs0 D. revert secs' E.
  induction D as [|s s1 l l1 W D IH]; intros l2 E; inversion E as [|? s2 ? l2' V E']; subst; constructor; [|apply IH; exact E'].
  clear IH E E' D. destruct W as (W1 & W2 & W3), V as (V1 & V2 & V3).
  split; [rewrite V1, W1; reflexivity|]. split.
  - intros Hs. rewrite V2; [auto|]. rewrite W2; assumption.
  - intros Hs. specialize (W3 Hs). assert (s_del s1 = false) as Hs1 by (rewrite W1; exact Hs). specialize (V3 Hs1).
    destruct (s_data s) as [d|n|l0|l0|d|l0|d| | | | | | | | | | | ] eqn:K; 
      try (subst s1; rewrite K in V3; subst s2; exact K).
    + destruct W3 as (l' & W3 & W4). rewrite W3 in V3. subst s2. exists l'. tauto.
    + destruct W3 as (l' & W3 & W4). rewrite W3 in V3. subst s2. exists l'. tauto.
    + assert (s1 = s) as -> by exact W3. rewrite K in V3. destruct V3 as (l' & V3 & V4). exists l'. split; [exact V3|].
      eapply kept_imp; [|exact V4]. intros d _. apply HP.
Qed.
Lemma orphaned_dead b b' id : orphaned b b' -> dead s_del (b_secs b') id <-> dead s_del (b_secs b) id.
Proof.
  intros (_ & _ & _ & H & _). unfold dead. split; intros (x & A & B).
  - destruct (F2_get_r _ _ _ H id x A) as (y & A1 & E & _). exists y. split; [exact A1|]. rewrite E in B. exact B.
  - destruct (F2_get _ _ _ H id x A) as (y & A1 & E & _). exists y. split; [exact A1|]. rewrite E. exact B.
Qed.
Lemma orphaned_dyn b b' d : orphaned b b' -> dyn_ok (b_secs b') d <-> dyn_ok (b_secs b) d.
Proof.
  intros (_ & _ & _ & H & _). unfold dyn_ok.
  split; intros W tag k E T; destruct (W tag k E T) as (id & s & A & B & C).
  - destruct (F2_get_r _ _ _ H id s A) as (s0 & A0 & E0 & D1 & D2). exists id, s0. split; [exact A0|].
    assert (s_del s0 = false) as D0 by (rewrite E0 in B; exact B). split; [exact D0|]. specialize (D2 D0).
    unfold data_orphaned in D2. destruct (s_data s0) eqn:K0; try congruence;
      destruct D2 as (l' & D2 & _); rewrite D2 in C; subst k; clear - T; inversion T.
  - destruct (F2_get _ _ _ H id s A) as (s' & A0 & E0 & D1 & D2). exists id, s'. split; [exact A0|].
    split; [rewrite E0; exact B|]. specialize (D2 B). rewrite C in D2. unfold data_orphaned in D2.
    destruct T; exact D2.
Qed.
Lemma kept_sub {A} (P : A -> Prop) l l' x : kept P l l' -> In x l' -> In x l.
Proof. intros K H. apply (kept_in _ _ _ K) in H. tauto. Qed.
Lemma orphaned_clean b b' : ids_ok b -> orphaned b b' -> no_dangling b'.
Proof.
  intros (I1 & I2 & I3 & I4) O. pose proof (orphaned_dead b b') as OD. pose proof (orphaned_dyn b b') as ODy.
  destruct O as (Hg & Hm & Hd & Hs & Hf & Hv).
  assert (forall id, in_table (b_secs b) id -> ~ dead s_del (b_secs b) id -> alive s_del (b_secs b') id) as AL.
  { intros id Hi Hn. apply alive_dead; [apply (in_table_len (b_secs b)); [apply (F2_len _ _ _ Hs)|exact Hi]|].
    intros W. apply Hn, OD; [unfold orphaned; tauto|exact W]. }
  assert (forall syms syms', (forall m id, In m syms -> m_del m = false -> m_section m = Some id -> in_table (b_secs b) id) ->
    Forall2 (sym_orphaned s_del (b_secs b)) syms syms' ->
    forall m id, In m syms' -> m_del m = false -> m_section m = Some id -> alive s_del (b_secs b') id) as SY.
  { intros l l' Hi F m' id Hin Hdel Hsec. destruct (F2_in _ _ _ _ F Hin) as (m & Hin0 & E & D).
    assert (m_section m = Some id) as Hsec0 by (rewrite E in Hsec; exact Hsec).
    assert (m_del m = false) as Hd0. { destruct (m_del m) eqn:K; [|reflexivity]. rewrite (proj2 D) in Hdel by tauto. discriminate. }
    apply AL; [eauto|]. intros W. rewrite (proj2 D) in Hdel by eauto. discriminate. }
  split; [|split; [|split; [|split]]].
  - intros g' id Hin Hdel Hid. destruct (F2_in _ _ _ _ Hg Hin) as (g & Hin0 & E & D1 & D2).
    assert (g_del g = false) as Hd0. { destruct (g_del g) eqn:K; [|reflexivity]. rewrite D1 in Hdel by reflexivity. congruence. }
    destruct (D2 Hd0) as [K _]. destruct (proj1 (kept_in _ _ _ K id) Hid) as [Hid0 Hn]. specialize (I1 g Hin0 Hd0). rewrite Forall_forall in I1.
    apply AL; auto.
  - intros m id [Hin|Hin]; [apply (SY _ _ (fun m id H => I2 m id (or_introl H)) Hm m id Hin)|apply (SY _ _ (fun m id H => I2 m id (or_intror H)) Hd m id Hin)].
  - intros s' l' r id Hin Hdel K Hr E. destruct (F2_in _ _ _ _ Hs Hin) as (s & Hin0 & E0 & _ & D2).
    assert (s_del s = false) as Hd0 by (rewrite E0 in Hdel; exact Hdel). specialize (D2 Hd0). unfold data_orphaned in D2.
    destruct (s_data s) eqn:KS; try (destruct D2 as (x & D2 & D3)); try congruence.
    assert (x = l') by congruence. subst x. destruct (proj1 (kept_in _ _ _ D3 r) Hr) as [Hr0 Hok].
    apply alive_dead; [|exact (Hok id E)]. apply (in_table_len (b_syms b)); [apply (F2_len _ _ _ Hm)|]. eauto.
  - intros s' l' r id Hin Hdel K Hr E. destruct (F2_in _ _ _ _ Hs Hin) as (s & Hin0 & E0 & _ & D2).
    assert (s_del s = false) as Hd0 by (rewrite E0 in Hdel; exact Hdel). specialize (D2 Hd0). unfold data_orphaned in D2.
    destruct (s_data s) eqn:KS; try (destruct D2 as (x & D2 & D3)); try congruence.
    assert (x = l') by congruence. subst x. destruct (proj1 (kept_in _ _ _ D3 r) Hr) as [Hr0 Hok].
    apply alive_dead; [|exact (Hok id E)]. apply (in_table_len (b_dynsyms b)); [apply (F2_len _ _ _ Hd)|]. eauto.
  - intros s' l' tag k Hin Hdel K Ht T. destruct (F2_in _ _ _ _ Hs Hin) as (s & Hin0 & E0 & _ & D2).
    assert (s_del s = false) as Hd0 by (rewrite E0 in Hdel; exact Hdel). specialize (D2 Hd0). unfold data_orphaned in D2.
    destruct (s_data s) eqn:KS; try (destruct D2 as (x & D2 & D3)); try congruence.
    assert (x = l') by congruence. subst x. destruct (proj1 (kept_in _ _ _ D3 _) Ht) as [Ht0 Hok].
    apply ODy in Hok; [|unfold orphaned; tauto]. destruct (Hok tag k eq_refl T) as (id & s1 & A1 & B1 & C1).
    exists s1. split; [apply (zget_In _ _ _ A1)|tauto].
Qed.
Lemma retain_id {A} (keep : A -> out bool) l : (forall x, In x l -> keep x = Ok true) -> retain keep l = Ok l.
Proof. intros H. apply retain_ok. split; [apply kept_all; apply Forall_forall; exact H|apply Forall_forall; intros x Hx; exists true; auto]. Qed.
(** a builder without dangling references is not changed *)
Lemma clean_fixed b : no_dangling b -> delete_orphans b = Ok b.
Proof.
  intros (H1 & H2 & H3 & H4 & H5).
  assert (forall {T} (del : T -> bool) t id, alive del t id -> (s <- tab_get t id ;; Ok (negb (del s))) = Ok true) as AL.
  { intros T del t id (x & A & B). unfold tab_get. rewrite A. cbn. rewrite B. reflexivity. }
  assert (forall syms, (forall m id, In m syms -> m_del m = false -> m_section m = Some id -> alive s_del (b_secs b) id) ->
    delete_orphan_symbols s_del (b_secs b) syms = Ok syms) as SY.
  { intros l Hl. apply each_ok, F2_refl_on. intros m Hm. destruct (m_del m) eqn:D; [reflexivity|].
    destruct (m_section m) as [id|] eqn:E; [|reflexivity]. destruct (Hl m id Hm D E) as (s & A & B).
    unfold tab_get. rewrite A. cbn. rewrite B. reflexivity. }
  apply orphans_inv. exists (b_segs b), (b_syms b), (b_dynsyms b), (b_secs b), (b_secs b).
  assert (with_syms (with_segs b (b_segs b)) (b_syms b) (b_dynsyms b) = b) as -> by (destruct b; reflexivity).
  split; [|split; [|split; [|split; [|split]]]].
  - apply each_ok, F2_refl_on. intros g Hg. destruct (g_del g) eqn:D; [reflexivity|]. destruct (g_secs g) as [|a l] eqn:E; [reflexivity|].
    rewrite retain_id; [|intros id Hid; apply AL, (H1 g id Hg D); rewrite E; exact Hid]. cbn [bind]. f_equal.
    rewrite <- E. destruct g; cbn in *. subst. reflexivity.
  - apply SY. intros m id Hm. apply H2. tauto.
  - apply SY. intros m id Hm. apply H2. tauto.
  - apply each_ok, F2_refl_on. intros s Hs. destruct (s_del s) eqn:D; [reflexivity|].
    destruct (s_data s) as [d|n|l|l|d|l|d| | | | | | | | | | | ] eqn:E; try reflexivity.
    + rewrite retain_id; [cbn [bind]; rewrite <- E; destruct s; reflexivity|]. intros r Hr. unfold keep_rel.
      destruct (r_symbol r) as [id|] eqn:R; [|reflexivity]. apply AL. eauto.
    + rewrite retain_id; [cbn [bind]; rewrite <- E; destruct s; reflexivity|]. intros r Hr. unfold keep_rel.
      destruct (r_symbol r) as [id|] eqn:R; [|reflexivity]. apply AL. eauto.
  - apply each_ok, F2_refl_on. intros s Hs. destruct (s_del s) eqn:D; [reflexivity|].
    destruct (s_data s) as [d|n|l|l|d|l|d| | | | | | | | | | | ] eqn:E; try reflexivity.
    rewrite retain_id; [cbn [bind]; rewrite <- E; destruct s; reflexivity|]. intros dy Hdy. f_equal. apply keep_dyn_iff.
    intros tag k -> T. destruct (H5 s l tag k Hs D E Hdy T) as (s' & A & B & C). apply In_zget in A as (id & A). eauto.
  - destruct b; reflexivity.
Qed.
