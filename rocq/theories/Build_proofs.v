(** Proofs about deletion (src/build/elf.rs, src/build/macho.rs). *)
From Verif Require Import Core_proofs Tab_proofs Iter_proofs.
From Verif Require MachP_proofs.
From Verif Require Import Build_spec.

Lemma each_ok {T} (del : T -> bool) f : forall t t', each_live del f t = Ok t' <->
  Forall2 (fun x x' => if del x then x' = x else f x = Ok x') t t'.
Proof.
  induction t as [|x t IH]; intros t'; cbn.
  - split; [intros [= <-]; constructor|]. intros H. inversion H. reflexivity.
  - split.
    + destruct (if del x then Ok x else f x) as [y| |] eqn:E; cbn; [|discriminate|discriminate].
      destruct (each_live del f t) as [l| |] eqn:F; cbn; [|discriminate|discriminate]. intros [= <-].
      constructor; [|apply IH; reflexivity]. destruct (del x); [congruence|exact E].
    + intros H. inversion H as [|? y ? l A B]; subst. apply IH in B. rewrite B.
      destruct (del x); [subst y; reflexivity|]. rewrite A. reflexivity.
Qed.
Lemma each_ex {T} (del : T -> bool) f t : (exists t', each_live del f t = Ok t') <->
  forall x, In x t -> del x = false -> exists x', f x = Ok x'.
Proof.
  split.
  - intros (t' & H). apply each_ok in H. intros x Hx Hd. induction H as [|y y' l l' A B IH]; [easy|].
    destruct Hx as [->|Hx]; [rewrite Hd in A; eauto|auto].
  - induction t as [|x t IH]; intros H; [exists []; reflexivity|].
    destruct IH as (t' & E); [intros y Hy; apply H; right; exact Hy|]. cbn.
    destruct (del x) eqn:D; cbn; [rewrite E; cbn; eauto|].
    destruct (H x (or_introl eq_refl) D) as (x' & ->). cbn. rewrite E. cbn. eauto.
Qed.
Lemma retain_ok {A} (keep : A -> out bool) : forall l l', retain keep l = Ok l' <->
  kept (fun x => keep x = Ok true) l l' /\ Forall (fun x => exists k, keep x = Ok k) l.
Proof.
  induction l as [|x l IH]; intros l'; cbn.
  - split; [intros [= <-]; split; constructor|]. intros [H _]. inversion H. reflexivity.
  - split.
    + destruct (keep x) as [k| |] eqn:E; cbn; [|discriminate|discriminate].
      destruct (retain keep l) as [m| |] eqn:F; cbn; [|discriminate|discriminate]. intros [= <-].
      destruct (proj1 (IH m) eq_refl) as [G W]. split; [|constructor; [eauto|exact W]].
      destruct k; constructor; congruence.
    + intros [H F]. inversion F as [|? ? (k & Hk) F']; subst.
      inversion H as [|? ? m A1 B|? ? m A1 B]; subst; destruct (proj2 (IH _) (conj B F')); rewrite Hk; cbn.
      * rewrite Hk in A1. injection A1 as ->. rewrite (proj2 (IH m) (conj B F')). reflexivity.
      * destruct k; [contradiction|]. rewrite (proj2 (IH l') (conj B F')). reflexivity.
Qed.
Lemma retain_ex {A} (keep : A -> out bool) l : (exists l', retain keep l = Ok l') <->
  Forall (fun x => exists k, keep x = Ok k) l.
Proof.
  split; [intros (l' & H); apply retain_ok in H; apply H|].
  induction l as [|x l IH]; intros H; [exists []; reflexivity|]. inversion H as [|? ? (k & Hk) F]; subst.
  destruct (IH F) as (l' & E). cbn. rewrite Hk. cbn. rewrite E. cbn. eauto.
Qed.
Lemma kept_imp {A} (P Q : A -> Prop) l l' : (forall x, In x l -> (P x <-> Q x)) -> kept P l l' -> kept Q l l'.
Proof.
  intros H K. induction K as [|x l l' A1 K IH|x l l' A1 K IH]; constructor.
  1,3: specialize (H x (or_introl eq_refl)); tauto. all: apply IH; intros y Hy; apply H; right; exact Hy.
Qed.
Lemma kept_in {A} (P : A -> Prop) l l' : kept P l l' -> forall x, In x l' <-> In x l /\ P x.
Proof.
  intros K x. induction K as [|y l l' A1 K IH|y l l' A1 K IH]; cbn; [tauto| |].
  - split; [intros [->|H]; tauto|tauto].
  - split; [tauto|]. intros [[->|H] W]; [contradiction|tauto].
Qed.
Lemma kept_all {A} (P : A -> Prop) l : Forall P l -> kept P l l.
Proof. induction 1; constructor; assumption. Qed.
Lemma kept_fun {A} (P : A -> Prop) l a b : kept P l a -> kept P l b -> a = b.
Proof.
  intros H. revert b. induction H as [|x l l' A1 K IH|x l l' A1 K IH]; intros b B; inversion B; subst; try contradiction; auto.
  f_equal. auto.
Qed.
Lemma tab_get_ok {T} (t : list T) id x : tab_get t id = Ok x <-> zget t id = Some x.
Proof. unfold tab_get, unwrap. destruct (zget t id); split; congruence. Qed.
Lemma tab_get_ex {T} (t : list T) id : (exists x, tab_get t id = Ok x) <-> in_table t id.
Proof. unfold in_table. split; intros (x & H); exists x; apply tab_get_ok; exact H. Qed.
Lemma alive_dead {T} (del : T -> bool) t id : in_table t id -> (alive del t id <-> ~ dead del t id).
Proof.
  intros (x & Hx). unfold alive, dead. split.
  - intros (y & A & B) (z & C & D). congruence.
  - intros H. exists x. split; [exact Hx|]. destruct (del x) eqn:E; [|reflexivity]. exfalso. eauto.
Qed.
Lemma keep_alive {T} (del : T -> bool) (t : list T) id :
  ((exists k, (s <- tab_get t id ;; Ok (negb (del s))) = Ok k) <-> in_table t id) /\
  (in_table t id -> (s <- tab_get t id ;; Ok (negb (del s))) = Ok true <-> ~ dead del t id).
Proof.
  rewrite <- tab_get_ex. split.
  - destruct (tab_get t id) as [s| |]; cbn; split; eauto; intros (x & H); discriminate.
  - intros (s & E). rewrite E. cbn. apply tab_get_ok in E. unfold dead. split.
    + intros [= H] (x & A & B). rewrite E in A. injection A as <-. rewrite B in H. discriminate.
    + intros H. destruct (del s) eqn:D; [exfalso; eauto|reflexivity].
Qed.

Section Segs.
  Context {S : Type} (del : S -> bool) (secs : list S).
  Definition segs_in (segs : list bseg) := forall g, In g segs -> g_del g = false -> Forall (in_table secs) (g_secs g).
  Lemma keep_ids l : (exists l', retain (fun id => s <- tab_get secs id ;; Ok (negb (del s))) l = Ok l') <-> Forall (in_table secs) l.
  Proof.
    rewrite retain_ex. split; intros H; (eapply Forall_impl; [|exact H]); intros id; apply (keep_alive del secs id).
  Qed.
  Lemma segs_ex segs : (exists t, delete_orphan_segments del secs segs = Ok t) <-> segs_in segs.
  Proof.
    unfold delete_orphan_segments. rewrite each_ex. unfold segs_in.
    split; intros H g Hg Hd; specialize (H g Hg Hd); destruct (g_secs g) as [|a l] eqn:E.
    - constructor.
    - destruct H as (x & H). apply keep_ids. destruct (retain _ (a :: l)) as [l'| |]; [eauto|discriminate H|discriminate H].
    - eauto.
    - apply keep_ids in H as (l' & ->). cbn. eauto.
  Qed.
  Lemma segs_ok segs t : delete_orphan_segments del secs segs = Ok t -> Forall2 (seg_orphaned del secs) segs t.
  Proof.
    intros H. apply each_ok in H. eapply MachP_proofs.Forall2_imp; [|exact H]. cbn beta. intros g g' E.
    unfold seg_orphaned. destruct (g_del g) eqn:D.
    - subst g'. split; [destruct g; reflexivity|]. split; [reflexivity|discriminate].
    - destruct (g_secs g) as [|a l] eqn:L.
      + injection E as <-. split; [destruct g; reflexivity|]. split; [reflexivity|]. intros _. rewrite L, D.
        split; [constructor|]. split; [discriminate|]. intros [[] _]; reflexivity.
      + set (al := a :: l) in *. assert (al <> []) as Ne by discriminate. clearbody al.
        destruct (retain _ al) as [l'| |] eqn:R; [|discriminate E|discriminate E]. cbn [bind] in E.
        assert (g' = seg_with g (match l' with [] => true | _ => false end) l') as -> by congruence. clear E.
        split; [reflexivity|]. split; [discriminate|]. intros _. cbn [g_secs g_del seg_with].
        apply retain_ok in R as [K F].
        assert (kept (fun id => ~ dead del secs id) al l') as K'.
        { eapply kept_imp; [|exact K]. intros id Hid. rewrite Forall_forall in F. specialize (F id Hid).
          apply (keep_alive del secs id) in F. apply (keep_alive del secs id). exact F. }
        split; [exact K'|]. pose proof (kept_in _ _ _ K') as Kin. split.
        * intros Hl. destruct l'; [|discriminate]. split; [exact Ne|]. intros id Hid.
          rewrite Forall_forall in F. specialize (F id Hid). apply (keep_alive del secs id) in F. destruct F as (x & Hx).
          unfold dead. destruct (del x) eqn:Dx; [eauto|]. exfalso. apply (proj2 (Kin id)). split; [exact Hid|].
          intros (y & A & B). congruence.
        * intros [_ H2]. destruct l' as [|id l']; [reflexivity|]. exfalso.
          destruct (proj1 (Kin id) (or_introl eq_refl)) as [A B]. apply B, H2, A.
  Qed.
  Definition syms_in (syms : list bsym) := forall m id, In m syms -> m_del m = false -> m_section m = Some id -> in_table secs id.
  Lemma syms_ex syms : (exists t, delete_orphan_symbols del secs syms = Ok t) <-> syms_in syms.
  Proof.
    unfold delete_orphan_symbols. rewrite each_ex. unfold syms_in. split.
    - intros H m id Hm Hd E. specialize (H m Hm Hd). rewrite E in H. destruct H as (x & H). apply tab_get_ex.
      destruct (tab_get secs id); [eauto|discriminate H|discriminate H].
    - intros H m Hm Hd. destruct (m_section m) as [id|] eqn:E; [|eauto]. specialize (H m id Hm Hd E).
      apply tab_get_ex in H as (x & ->). cbn. eauto.
  Qed.
  Lemma syms_ok syms t : delete_orphan_symbols del secs syms = Ok t ->
    Forall2 (sym_orphaned del secs) syms t.
  Proof.
    intros H. apply each_ok in H. eapply MachP_proofs.Forall2_imp; [|exact H]. cbn beta. intros m m' E.
    unfold sym_orphaned. destruct (m_del m) eqn:D.
    - subst m'. split; [destruct m; reflexivity|]. rewrite D. tauto.
    - destruct (m_section m) as [id|] eqn:L.
      + destruct (tab_get secs id) as [s| |] eqn:G0; [|discriminate E|discriminate E]. cbn [bind] in E.
        apply tab_get_ok in G0. destruct (del s) eqn:Ds.
        * assert (m' = sym_deleted m) as -> by congruence. split; [unfold sym_deleted; cbn; rewrite L; reflexivity|]. cbn. split; [|reflexivity].
          intros _. right. exists id. split; [reflexivity|]. exists s. tauto.
        * assert (m' = m) as -> by congruence. split; [destruct m; cbn in *; subst; reflexivity|]. rewrite D. split; [discriminate|].
          intros [A|(i & [= <-] & x & A & B)]; [discriminate|congruence].
      + assert (m' = m) as -> by congruence. split; [destruct m; cbn in *; subst; reflexivity|]. rewrite D. split; [discriminate|].
        intros [A|(i & A & _)]; discriminate.
  Qed.
End Segs.

Lemma F2_in {A B} (R : A -> B -> Prop) l l' y : Forall2 R l l' -> In y l' -> exists x, In x l /\ R x y.
Proof. intros H. induction H as [|a b l l' W H IH]; intros Hy; [easy|]. destruct Hy as [<-|Hy]; [exists a; cbn; tauto|]. destruct (IH Hy) as (x & A1 & B1). exists x. cbn. tauto. Qed.
Lemma F2_in_l {A B} (R : A -> B -> Prop) l l' x : Forall2 R l l' -> In x l -> exists y, In y l' /\ R x y.
Proof. intros H. induction H as [|a b l l' W H IH]; intros Hy; [easy|]. destruct Hy as [<-|Hy]; [exists b; cbn; tauto|]. destruct (IH Hy) as (y & A1 & B1). exists y. cbn. tauto. Qed.
Lemma F2_len {A B} (R : A -> B -> Prop) l l' : Forall2 R l l' -> zlen l' = zlen l.
Proof. induction 1 as [|a b l l' W H IH]; [reflexivity|]. rewrite !zlen_cons. lia. Qed.
Lemma F2_get {A B} (R : A -> B -> Prop) l l' : Forall2 R l l' -> forall i x, zget l i = Some x -> exists y, zget l' i = Some y /\ R x y.
Proof.
  intros H. induction H as [|a b l l' W H IH]; intros i x Hx; pose proof (zget_Some_lt _ _ _ Hx) as P1; [change (zlen (@nil A)) with 0 in P1; lia|]. destruct (Z.eq_dec i 0) as [->|N].
  - rewrite zget_0 in Hx. injection Hx as <-. exists b. rewrite zget_0. tauto.
  - rewrite zget_S in Hx by lia. rewrite zget_S by lia. exact (IH _ _ Hx).
Qed.
Lemma F2_get_r {A B} (R : A -> B -> Prop) l l' : Forall2 R l l' -> forall i y, zget l' i = Some y -> exists x, zget l i = Some x /\ R x y.
Proof.
  intros H i y Hy. pose proof (zget_Some_lt _ _ _ Hy) as P. rewrite (F2_len _ _ _ H) in P.
  destruct (zget_lt_Some l i ltac:(lia)) as (x & Hx). destruct (F2_get _ _ _ H i x Hx) as (y' & A1 & B1). exists x. split; [exact Hx|congruence].
Qed.
Lemma in_table_iff {T} (t : list T) i : in_table t i <-> 0 <= i < zlen t.
Proof. unfold in_table. split; [intros (x & H); apply (zget_Some_lt _ _ _ H)|apply zget_lt_Some]. Qed.
Lemma F2_refl_on {A} (R : A -> A -> Prop) l : (forall x, In x l -> R x x) -> Forall2 R l l.
Proof. induction l as [|x l IH]; intros H; constructor; [apply H; left; reflexivity|apply IH; intros y Hy; apply H; right; exact Hy]. Qed.

(** * Relocations and dynamic entries *)
Lemma keep_rel_ok syms r : (exists k, keep_rel syms r = Ok k) <-> (forall id, r_symbol r = Some id -> in_table syms id).
Proof.
  unfold keep_rel. destruct (r_symbol r) as [id|]; [|split; [discriminate|eauto]]. rewrite (proj1 (keep_alive m_del syms id)).
  split; [intros H i [= <-]; exact H|auto].
Qed.
Lemma keep_rel_iff syms r : (forall id, r_symbol r = Some id -> in_table syms id) -> keep_rel syms r = Ok true <-> rel_ok syms r.
Proof.
  unfold keep_rel, rel_ok. destruct (r_symbol r) as [id|]; [|split; [discriminate|reflexivity]]. intros H.
  rewrite (proj2 (keep_alive m_del syms id) (H id eq_refl)). split; [intros A i [= <-]; exact A|auto].
Qed.
Lemma retain_rels syms l l' : retain (keep_rel syms) l = Ok l' -> kept (rel_ok syms) l l'.
Proof.
  intros H. apply retain_ok in H as [K F]. eapply kept_imp; [|exact K]. intros r Hr. apply keep_rel_iff.
  apply keep_rel_ok. rewrite Forall_forall in F. auto.
Qed.
Lemma retain_rels_ex syms l : (exists l', retain (keep_rel syms) l = Ok l') <-> (forall r id, In r l -> r_symbol r = Some id -> in_table syms id).
Proof.
  rewrite retain_ex, Forall_forall. split.
  - intros H r id Hr. apply keep_rel_ok, H, Hr.
  - intros H r Hr. apply keep_rel_ok. intros id. apply H, Hr.
Qed.
Lemma have_iff secs is : have secs is = true <-> exists id s, zget secs id = Some s /\ s_del s = false /\ is (s_data s) = true.
Proof.
  unfold have. rewrite iter_filter, existsb_exists. split.
  - intros (s & A & B). apply filter_In in A as [A C]. apply In_zget in A as (id & A). exists id, s. split; [exact A|].
    split; [destruct (s_del s); [discriminate C|reflexivity]|exact B].
  - intros (id & s & A & B & C). exists s. split; [|exact C]. apply filter_In. rewrite B. split; [apply (zget_In _ _ _ A)|reflexivity].
Qed.
Lemma keep_dyn_iff secs d : keep_dyn secs d = true <-> dyn_ok secs d.
Proof.
  unfold dyn_ok. destruct d as [tag|tag val|tag val]; cbn [keep_dyn]; [|split; [discriminate|reflexivity]..].
  assert (forall k is, table_of tag k -> (forall k', table_of tag k' -> k' = k) -> (forall d, is d = true <-> d = k) ->
    (have secs is = true <-> (forall tag0 k0, DAuto tag = DAuto tag0 -> table_of tag0 k0 ->
       exists id s, zget secs id = Some s /\ s_del s = false /\ s_data s = k0))) as G.
  { intros k is Tk Un Is. rewrite have_iff. split.
    - intros (id & s & A & B & C) tag0 k0 [= <-] T0. exists id, s. rewrite (Un k0 T0). apply Is in C. tauto.
    - intros H. destruct (H tag k eq_refl Tk) as (id & s & A & B & C). exists id, s. rewrite Is. tauto. }
  assert (forall (t : Z), {tag = t} + {tag <> t}) as Dec by (intro; apply Z.eq_dec).
  destruct (Z.eqb_spec tag DT_SYMTAB) as [E|N1]; [subst; apply (G SDynamicSymbol); [constructor|intros k' K; inversion K; reflexivity|intros []; split; congruence]|].
  destruct (Z.eqb_spec tag DT_STRTAB) as [E|N2]; [subst; apply (G SDynamicString); [constructor|intros k' K; inversion K; reflexivity|intros []; split; congruence]|].
  destruct (Z.eqb_spec tag DT_STRSZ) as [E|N3]; [subst; apply (G SDynamicString); [constructor|intros k' K; inversion K; reflexivity|intros []; split; congruence]|].
  cbn [orb].
  destruct (Z.eqb_spec tag DT_HASH) as [E|N4]; [subst; apply (G SHash); [constructor|intros k' K; inversion K; reflexivity|intros []; split; congruence]|].
  destruct (Z.eqb_spec tag DT_GNU_HASH) as [E|N5]; [subst; apply (G SGnuHash); [constructor|intros k' K; inversion K; reflexivity|intros []; split; congruence]|].
  destruct (Z.eqb_spec tag DT_VERSYM) as [E|N6]; [subst; apply (G SGnuVersym); [constructor|intros k' K; inversion K; reflexivity|intros []; split; congruence]|].
  destruct (Z.eqb_spec tag DT_VERNEED) as [E|N7]; [subst; apply (G SGnuVerneed); [constructor|intros k' K; inversion K; reflexivity|intros []; split; congruence]|].
  destruct (Z.eqb_spec tag DT_VERNEEDNUM) as [E|N8]; [subst; apply (G SGnuVerneed); [constructor|intros k' K; inversion K; reflexivity|intros []; split; congruence]|].
  cbn [orb].
  destruct (Z.eqb_spec tag DT_VERDEF) as [E|N9]; [subst; apply (G SGnuVerdef); [constructor|intros k' K; inversion K; reflexivity|intros []; split; congruence]|].
  destruct (Z.eqb_spec tag DT_VERDEFNUM) as [E|N10]; [subst; apply (G SGnuVerdef); [constructor|intros k' K; inversion K; reflexivity|intros []; split; congruence]|].
  cbn [orb]. split; [|reflexivity]. intros _ t k [= <-] K. inversion K; congruence.
Qed.
Lemma retain_dyns secs l l' : retain (fun d => Ok (keep_dyn secs d)) l = Ok l' -> kept (dyn_ok secs) l l'.
Proof.
  intros H. apply retain_ok in H as [K F]. eapply kept_imp; [|exact K]. intros d Hd. rewrite <- keep_dyn_iff. split; congruence.
Qed.
Lemma retain_dyns_ex secs l : exists l', retain (fun d => Ok (keep_dyn secs d)) l = Ok l'.
Proof. apply retain_ex. apply Forall_forall. eauto. Qed.

(** what the two passes over the sections do together *)
Definition not_dynamic (d : sdata) := match d with SDynamic _ => False | _ => True end.
Lemma rels_ok b secs : delete_orphan_relocations b = Ok secs ->
  Forall2 (fun s s' => s' = sec_with_data s (s_data s') /\
    (s_del s = true -> s' = s) /\
    (s_del s = false -> match s_data s with
       | SRel l => exists l', s_data s' = SRel l' /\ kept (rel_ok (b_syms b)) l l'
       | SDynRel l => exists l', s_data s' = SDynRel l' /\ kept (rel_ok (b_dynsyms b)) l l'
       | _ => s' = s end)) (b_secs b) secs.
Proof.
  intros H. apply each_ok in H. eapply MachP_proofs.Forall2_imp; [|exact H]. cbn beta. intros s s' E.
  destruct (s_del s) eqn:D.
  - subst s'. split; [destruct s; reflexivity|]. split; [reflexivity|discriminate].
  - destruct (s_data s) as [d|n|l|l|d|l|d| | | | | | | | | | | ] eqn:K;
      try (assert (s' = s) as -> by congruence; split; [destruct s; reflexivity|]; split; [reflexivity|intros _; reflexivity]).
    + destruct (retain (keep_rel (b_syms b)) l) as [l'| |] eqn:R; [|discriminate E|discriminate E]. cbn [bind] in E.
      assert (s' = sec_with_data s (SRel l')) as -> by congruence. split; [reflexivity|]. split; [discriminate|]. intros _.
      exists l'. split; [reflexivity|]. apply retain_rels, R.
    + destruct (retain (keep_rel (b_dynsyms b)) l) as [l'| |] eqn:R; [|discriminate E|discriminate E]. cbn [bind] in E.
      assert (s' = sec_with_data s (SDynRel l')) as -> by congruence. split; [reflexivity|]. split; [discriminate|]. intros _.
      exists l'. split; [reflexivity|]. apply retain_rels, R.
Qed.
Definition rels_in (b : builder) :=
  (forall s l r id, In s (b_secs b) -> s_del s = false -> s_data s = SRel l -> In r l -> r_symbol r = Some id -> in_table (b_syms b) id) /\
  (forall s l r id, In s (b_secs b) -> s_del s = false -> s_data s = SDynRel l -> In r l -> r_symbol r = Some id -> in_table (b_dynsyms b) id).
Lemma rels_ex b : (exists t, delete_orphan_relocations b = Ok t) <-> rels_in b.
Proof.
  unfold delete_orphan_relocations. rewrite each_ex. split.
  - intros H. split.
    + intros s l r id Hs Hd E Hr. specialize (H s Hs Hd). rewrite E in H. destruct H as (x & H).
      revert Hr. apply retain_rels_ex. destruct (retain _ l); [eauto|discriminate H|discriminate H].
    + intros s l r id Hs Hd E Hr. specialize (H s Hs Hd). rewrite E in H. destruct H as (x & H).
      revert Hr. apply retain_rels_ex. destruct (retain _ l); [eauto|discriminate H|discriminate H].
  - intros [H1 H2] s Hs Hd. specialize (H1 s). specialize (H2 s). destruct (s_data s) as [d|n|l|l|d|l|d| | | | | | | | | | | ] eqn:K; eauto.
    + destruct (proj2 (retain_rels_ex (b_syms b) l)) as (l' & ->); [intros r id; apply H1; auto|]. cbn. eauto.
    + destruct (proj2 (retain_rels_ex (b_dynsyms b) l)) as (l' & ->); [intros r id; apply H2; auto|]. cbn. eauto.
Qed.
Lemma dyns_ok secs0 secs : delete_orphan_dynamics secs0 = Ok secs ->
  Forall2 (fun s s' => s' = sec_with_data s (s_data s') /\
    (s_del s = true -> s' = s) /\
    (s_del s = false -> match s_data s with
       | SDynamic l => exists l', s_data s' = SDynamic l' /\ kept (dyn_ok secs0) l l'
       | _ => s' = s end)) secs0 secs.
Proof.
  intros H. apply each_ok in H. eapply MachP_proofs.Forall2_imp; [|exact H]. cbn beta. intros s s' E.
  destruct (s_del s) eqn:D.
  - subst s'. split; [destruct s; reflexivity|]. split; [reflexivity|discriminate].
  - destruct (s_data s) as [d|n|l|l|d|l|d| | | | | | | | | | | ] eqn:K;
      try (assert (s' = s) as -> by congruence; split; [destruct s; reflexivity|]; split; [reflexivity|intros _; reflexivity]).
    destruct (retain _ l) as [l'| |] eqn:R; [|discriminate E|discriminate E]. cbn [bind] in E.
    assert (s' = sec_with_data s (SDynamic l')) as -> by congruence. split; [reflexivity|]. split; [discriminate|]. intros _.
    exists l'. split; [reflexivity|]. apply retain_dyns, R.
Qed.
Lemma dyns_ex secs0 : exists secs, delete_orphan_dynamics secs0 = Ok secs.
Proof.
  apply each_ex. intros s Hs Hd. destruct (s_data s) as [d|n|l|l|d|l|d| | | | | | | | | | | ]; eauto.
  destruct (retain_dyns_ex secs0 l) as (l' & ->). cbn. eauto.
Qed.
