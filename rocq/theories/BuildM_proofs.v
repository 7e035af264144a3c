(** Proofs about [delete_orphans] of src/build/macho.rs. *)
From Verif Require Import Core_proofs Tab_proofs Build_proofs BuildD_proofs.
From Verif Require MachP_proofs.
From Verif Require Import Build_spec.

Definition m_keep (b : mbuilder) (r : mrel) : out bool :=
  match mr_target r with
  | MSymbol id => m <- tab_get (mb_syms b) id ;; Ok (negb (m_del m))
  | MSection id => d <- unwrap (zget (map ms_del (tab_iter ms_del (mb_secs b))) id) ;; Ok (negb (d : bool))
  end.
Lemma flags_false (l : list msec) i d : zget (map ms_del (tab_iter ms_del l)) i = Some d -> d = false.
Proof.
  intros H. apply zget_In in H. rewrite iter_filter in H. apply in_map_iff in H as (s & <- & H). apply filter_In in H as [_ H].
  destruct (ms_del s); [discriminate|reflexivity].
Qed.
Lemma m_keep_iff b r k : m_keep b r = Ok k -> (k = true <-> m_rel_ok b r).
Proof.
  unfold m_keep, m_rel_ok. destruct (mr_target r) as [id|id].
  - intros H. assert (in_table (mb_syms b) id) as I by (apply (keep_alive m_del); eauto).
    pose proof (proj2 (keep_alive m_del (mb_syms b) id) I) as W. rewrite H in W. split.
    + intros -> i [= <-]. apply W. reflexivity.
    + intros A. assert (Ok k = Ok true) as E by (apply W, A; reflexivity). congruence.
  - destruct (zget _ id) as [d|] eqn:E; [|discriminate]. apply flags_false in E. subst d. cbn. intros [= <-]. split; [discriminate|reflexivity].
Qed.
Lemma m_keep_ex b r : (exists k, m_keep b r = Ok k) <->
  (forall id, mr_target r = MSymbol id -> in_table (mb_syms b) id) /\
  (forall id, mr_target r = MSection id -> 0 <= id < zlen (tab_iter ms_del (mb_secs b))).
Proof.
  unfold m_keep. destruct (mr_target r) as [id|id].
  - rewrite (proj1 (keep_alive m_del (mb_syms b) id)). split; [intros H; split; [intros i [= <-]; exact H|discriminate]|intros [H _]; auto].
  - split.
    + intros (k & H). split; [discriminate|]. intros i [= <-]. destruct (zget _ id) eqn:E; [|discriminate]. apply zget_Some_lt in E.
      unfold zlen in *. rewrite map_length in E. exact E.
    + intros [_ H]. specialize (H id eq_refl). destruct (zget_lt_Some (map ms_del (tab_iter ms_del (mb_secs b))) id) as (d & ->); [|cbn; eauto].
      unfold zlen in *. rewrite map_length. exact H.
Qed.
Lemma m_rels_ok b secs : m_delete_orphan_relocations b = Ok secs -> Forall2 (m_sec_orphaned b) (mb_secs b) secs.
Proof.
  unfold m_delete_orphan_relocations. fold (m_keep b). intros H. apply each_ok in H. eapply MachP_proofs.Forall2_imp; [|exact H]. cbn beta. intros s s' E.
  unfold m_sec_orphaned. destruct (ms_del s) eqn:D.
  - subst s'. rewrite D. split; [reflexivity|]. split; [reflexivity|]. split; [reflexivity|discriminate].
  - destruct (retain _ (ms_relocs s)) as [l'| |] eqn:R; [|discriminate E|discriminate E]. cbn [bind] in E.
    assert (s' = Build_msec false (ms_data s) l') as -> by congruence. cbn [ms_del ms_data ms_relocs].
    split; [reflexivity|]. split; [reflexivity|]. split; [discriminate|]. intros _.
    apply retain_ok in R as [K F]. eapply kept_imp; [|exact K]. intros r Hr. cbn beta. rewrite Forall_forall in F. destruct (F r Hr) as (k & Hk).
    fold (m_keep b r) in Hk |- *. rewrite Hk. rewrite <- (m_keep_iff b r k Hk). split; congruence.
Qed.
Lemma m_rels_ex b : (exists secs, m_delete_orphan_relocations b = Ok secs) <->
  forall s r, In s (mb_secs b) -> ms_del s = false -> In r (ms_relocs s) -> exists k, m_keep b r = Ok k.
Proof.
  unfold m_delete_orphan_relocations. rewrite each_ex. split.
  - intros H s r Hs Hd Hr. destruct (H s Hs Hd) as (x & E). destruct (retain _ (ms_relocs s)) as [l'| |] eqn:R; [|discriminate E|discriminate E].
    apply retain_ok in R as [_ F]. rewrite Forall_forall in F. exact (F r Hr).
  - intros H s Hs Hd. assert (exists l', retain (m_keep b) (ms_relocs s) = Ok l') as (l' & R).
    { apply retain_ex, Forall_forall. intros r Hr. exact (H s r Hs Hd Hr). }
    unfold m_keep in R. rewrite R. cbn. eauto.
Qed.
Definition c_keep (b : mbuilder) (c : mcmd) : out bool :=
  match c with
  | MSegment id => g <- tab_get (mb_segs b) id ;; Ok (negb (g_del g))
  | MDylib id => d <- tab_get (mb_dylibs b) id ;; Ok (negb (md_del d))
  | _ => Ok true
  end.
Lemma m_cmds_ok b l : m_delete_orphan_commands b = Ok l -> kept (cmd_ok b) (mb_cmds b) l.
Proof.
  unfold m_delete_orphan_commands. fold (c_keep b). intros H. apply retain_ok in H as [K F]. eapply kept_imp; [|exact K].
  intros c Hc. rewrite Forall_forall in F. specialize (F c Hc). destruct c as [id|id|cm d]; cbn [cmd_ok] in *.
  - apply (keep_alive g_del). apply (keep_alive g_del) in F. exact F.
  - apply (keep_alive md_del). apply (keep_alive md_del) in F. exact F.
  - tauto.
Qed.
Lemma m_orphans_inv b b' : m_delete_orphans b = Ok b' <-> exists segs syms secs cmds,
  delete_orphan_segments ms_del (mb_secs b) (mb_segs b) = Ok segs /\
  delete_orphan_symbols ms_del (mb_secs b) (mb_syms b) = Ok syms /\
  m_delete_orphan_relocations (Build_mbuilder segs (mb_secs b) syms (mb_dylibs b) (mb_cmds b)) = Ok secs /\
  m_delete_orphan_commands (Build_mbuilder segs secs syms (mb_dylibs b) (mb_cmds b)) = Ok cmds /\
  b' = Build_mbuilder segs secs syms (mb_dylibs b) cmds.
Proof.
  unfold m_delete_orphans. split.
  - intros H. inv_bind H segs E1. cbn [mb_secs mb_syms mb_dylibs mb_cmds mb_segs] in H. inv_bind H syms E2. inv_bind H secs E3. inv_bind H cmds E4.
    exists segs, syms, secs, cmds. do 4 (split; [first [reflexivity|assumption]|]). injection H as <-. reflexivity.
  - intros (segs & syms & secs & cmds & A & B & C & D & ->). rewrite A. cbn [bind mb_secs mb_syms mb_dylibs mb_cmds mb_segs].
    rewrite B. cbn [bind]. rewrite C. cbn [bind]. rewrite D. reflexivity.
Qed.
Lemma m_orphans_ok b b' : m_delete_orphans b = Ok b' -> m_orphaned b b'.
Proof.
  intros H. apply m_orphans_inv in H as (segs & syms & secs & cmds & A & B & C & D & ->). unfold m_orphaned.
  cbn [mb_secs mb_syms mb_dylibs mb_cmds mb_segs]. split; [apply segs_ok, A|]. split; [apply syms_ok, B|].
  split; [exact (m_rels_ok _ _ C)|]. split; [exact (m_cmds_ok _ _ D)|reflexivity].
Qed.
Lemma m_orphans_ex b : m_ids_ok b -> (forall s, In s (mb_secs b) -> ms_del s = false) -> exists b', m_delete_orphans b = Ok b'.
Proof.
  intros (H1 & H2 & H3 & H4 & H5 & H6) Hl.
  destruct (proj2 (segs_ex ms_del _ _) H1) as (segs & A). destruct (proj2 (syms_ex ms_del _ _) H2) as (syms & B).
  pose proof (F2_len _ _ _ (syms_ok _ _ _ _ B)) as L1. pose proof (F2_len _ _ _ (segs_ok _ _ _ _ A)) as L2.
  assert (tab_iter ms_del (mb_secs b) = mb_secs b) as TI.
  { rewrite iter_filter. revert Hl. generalize (mb_secs b). induction l as [|x l IH]; intros Hl; [reflexivity|]. cbn.
    rewrite (Hl x (or_introl eq_refl)). cbn. f_equal. apply IH. intros s Hs. apply Hl. right. exact Hs. }
  destruct (proj2 (m_rels_ex (Build_mbuilder segs (mb_secs b) syms (mb_dylibs b) (mb_cmds b)))) as (secs & C).
  { cbn [mb_secs]. intros s r Hs Hd Hr. apply m_keep_ex. cbn [mb_secs mb_syms]. rewrite TI. split.
    - intros id E. apply (in_table_len (mb_syms b) syms id L1). eauto.
    - intros id E. apply in_table_iff. eauto. }
  assert (exists cmds, m_delete_orphan_commands (Build_mbuilder segs secs syms (mb_dylibs b) (mb_cmds b)) = Ok cmds) as (cmds & D).
  { apply retain_ex, Forall_forall. cbn [mb_cmds mb_segs mb_dylibs]. intros c Hc. destruct c as [id|id|cm d]; [| |eauto].
    - apply (keep_alive g_del). apply (in_table_len (mb_segs b) segs id L2). auto.
    - apply (keep_alive md_del). auto. }
  eexists. apply m_orphans_inv. exists segs, syms, secs, cmds. tauto.
Qed.
