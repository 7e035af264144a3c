From Verif Require Import Core_proofs Str_proofs Map_spec.

(** * Sorting *)
Section Sort.
  Context {T : Type} (leb : T -> T -> bool).
  Definition le_t x y := leb x y = true.
  Lemma insert_by_perm x l : Permutation (x :: l) (insert_by leb x l).
  Proof.
    induction l as [|y l IH]; cbn; [reflexivity|]. destruct (leb x y); [reflexivity|].
    rewrite perm_swap. constructor. exact IH.
  Qed.
  Lemma sort_by_perm l : Permutation l (sort_by leb l).
  Proof.
    induction l as [|x l IH]; cbn; [reflexivity|]. rewrite <- insert_by_perm. constructor. exact IH.
  Qed.
  Hypothesis total : forall x y, leb x y = true \/ leb y x = true.
  Hypothesis trans : forall x y z, leb x y = true -> leb y z = true -> leb x z = true.
  Lemma insert_by_sorted x l : StronglySorted le_t l -> StronglySorted le_t (insert_by leb x l).
  Proof.
    induction 1 as [|y l Hs IH Hf]; cbn; [repeat constructor|]. destruct (leb x y) eqn:E.
    - constructor; [constructor; assumption|]. constructor; [exact E|].
      eapply Forall_impl; [|exact Hf]. intros z Hz. eapply trans; [exact E|exact Hz].
    - constructor; [exact IH|]. apply Forall_forall. intros z Hz.
      eapply Permutation_in in Hz; [|symmetry; apply insert_by_perm]. destruct Hz as [->|Hz].
      + destruct (total z y) as [H|H]; [congruence|exact H].
      + rewrite Forall_forall in Hf; auto.
  Qed.
  Lemma sort_by_sorted l : StronglySorted le_t (sort_by leb l).
  Proof. induction l; cbn; [constructor|]. apply insert_by_sorted; assumption. Qed.
  Lemma sort_by_id l : StronglySorted le_t l -> sort_by leb l = l.
  Proof.
    induction 1 as [|x l Hs IH Hf]; cbn; [reflexivity|]. rewrite IH. destruct l as [|y l]; [reflexivity|].
    cbn. apply Forall_inv in Hf. unfold le_t in Hf. rewrite Hf. reflexivity.
  Qed.
End Sort.

Lemma insert_by_filter {T} (key : T -> Z) a x l :
  StronglySorted (fun x y => key x <= key y) l ->
  filter (fun y => key y =? a) (insert_by (fun x y => key x <=? key y) x l) =
  filter (fun y => key y =? a) (x :: l).
Proof.
  induction 1 as [|y l Hs IH Hf]; [reflexivity|]. cbn [insert_by].
  destruct (Z.leb_spec (key x) (key y)); [reflexivity|].
  cbn [filter] in *. rewrite IH. destruct (Z.eqb_spec (key x) a), (Z.eqb_spec (key y) a); try reflexivity.
  lia.
Qed.

Lemma sm_new_sorted {T} (address : T -> Z) l :
  StronglySorted (fun x y => address x <= address y) (sm_new address l).
Proof.
  unfold sm_new. pose proof (sort_by_sorted (fun x y => address x <=? address y)) as H.
  assert (H2 : StronglySorted (le_t (fun x y => address x <=? address y))
           (sort_by (fun x y => address x <=? address y) l)).
  { apply H; intros; lia. }
  clear H. induction H2; constructor; auto. eapply Forall_impl; [|exact H]. intros b Hb. unfold le_t in Hb. lia.
Qed.
Lemma sm_new_perm {T} (address : T -> Z) l : Permutation l (sm_new address l).
Proof. apply sort_by_perm. Qed.
Lemma sm_new_stable {T} (address : T -> Z) a l :
  filter (fun y => address y =? a) (sm_new address l) = filter (fun y => address y =? a) l.
Proof.
  induction l as [|x l IH]; [reflexivity|]. unfold sm_new in *. cbn [sort_by].
  rewrite insert_by_filter by apply (sm_new_sorted address l). cbn [filter]. rewrite IH. reflexivity.
Qed.
Lemma sorted_map {T} (key : T -> Z) l : StronglySorted (fun x y => key x <= key y) l ->
  StronglySorted Z.le (map key l).
Proof. induction 1; cbn; constructor; auto. apply Forall_map. assumption. Qed.

Lemma zget_map {A B} (f : A -> B) l i : zget (map f l) i = option_map f (zget l i).
Proof.
  unfold zget. rewrite zlen_map. destruct (_ && _); [|reflexivity]. apply nth_error_map.
Qed.
Lemma ztake_map {A B} (f : A -> B) n l : ztake n (map f l) = map f (ztake n l).
Proof. apply firstn_map. Qed.
Lemma zdrop_map {A B} (f : A -> B) n l : zdrop n (map f l) = map f (zdrop n l).
Proof. unfold zdrop. apply skipn_map. Qed.

Lemma sm_before_sorted {T} bs (address : T -> Z) m a : bs_contract bs ->
  StronglySorted (fun x y => address x <= address y) m ->
  match sm_before bs address m a with
  | Some s => In s m /\ address s <= a /\ (forall t, In t m -> address t <= a -> address t <= address s)
  | None => forall t, In t m -> a < address t
  end.
Proof.
  intros Hbs Hs. unfold sm_before. pose proof (Hbs (map address m) a (sorted_map _ _ Hs)) as H.
  destruct (bs (map address m) a) as [i|i].
  - rewrite zget_map in H. destruct (zget m i) as [s|] eqn:E; [|discriminate]. cbn in H.
    assert (address s = a) by congruence. repeat split; [eapply zget_In; eauto|lia|intros; lia].
  - destruct H as (Hi & Hlt & Hgt). rewrite ztake_map in Hlt. rewrite zdrop_map in Hgt.
    rewrite zlen_map in Hi. rewrite Forall_map in Hlt. rewrite Forall_map in Hgt.
    unfold csub. destruct (Z.leb_spec 1 i).
    + destruct (zget_lt_Some m (i - 1)) as [s Es]; [lia|]. rewrite Es.
      assert (In s (ztake i m)) as Hin.
      { apply zget_In with (i - 1). rewrite zget_ztake by lia. exact Es. }
      rewrite Forall_forall in Hlt, Hgt. specialize (Hlt s Hin) as Hsa. cbn in Hsa.
      repeat split; [eapply zget_In; eauto|lia|].
      intros t Ht Hta. rewrite <- (ztake_zdrop i m) in Ht. apply in_app_or in Ht as [Ht|Ht].
      2:{ specialize (Hgt t Ht). cbn in Hgt. lia. }
      (* t is in the prefix, s is its last element *)
      assert (ztake i m = ztake (i - 1) m ++ [s]) as Ep.
      { apply zget_ext.
        - rewrite zlen_app, !zlen_ztake, zlen_cons by lia. change (zlen (@nil T)) with 0. lia.
        - intros j Hj. rewrite zlen_ztake in Hj by lia. rewrite zget_ztake by lia.
          destruct (Z.eq_dec j (i - 1)) as [Ej|].
          + rewrite zget_app2 by (rewrite zlen_ztake; lia). rewrite zlen_ztake by lia.
            replace (j - (i - 1)) with 0 by lia. rewrite zget_0. congruence.
          + rewrite zget_app1 by (rewrite zlen_ztake; lia). rewrite zget_ztake by lia. reflexivity. }
      rewrite <- (ztake_zdrop i m) in Hs. rewrite Ep, <- app_assoc in Hs.
      rewrite Ep in Ht. apply in_app_or in Ht as [Ht|[->|[]]]; [|lia].
      apply (StronglySorted_app_inv _ _ _ Hs t s); [exact Ht|]. left; reflexivity.
    + assert (i = 0) by lia. subst i. rewrite zdrop_0 in Hgt. intros t Ht. rewrite Forall_forall in Hgt.
      apply (Hgt t Ht).
Qed.

Lemma sm_lookup {T} bs (address : T -> Z) l a : bs_contract bs ->
  match sm_before bs address (sm_new address l) a with
  | Some s => In s l /\ address s <= a /\ (forall t, In t l -> address t <= a -> address t <= address s)
  | None => forall t, In t l -> a < address t
  end.
Proof.
  intro Hbs. pose proof (sm_before_sorted bs address _ a Hbs (sm_new_sorted address l)) as H.
  pose proof (sm_new_perm address l) as P.
  destruct (sm_before bs address (sm_new address l) a).
  - destruct H as (H1 & H2 & H3). split; [|split; [exact H2|]].
    + eapply Permutation_in; [symmetry; exact P|exact H1].
    + intros t0 Ht. apply H3. eapply Permutation_in; [exact P|exact Ht].
  - intros t Ht. apply H. eapply Permutation_in; [exact P|exact Ht].
Qed.

Lemma sm_contains {T} bs (address size : T -> Z) l a : bs_contract bs -> u64_ok a ->
  Forall (fun t => 0 <= address t) l ->
  sm_containing bs address size (sm_new address l) a =
  match sm_before bs address (sm_new address l) a with
  | Some s => if (size s =? 0) || ((address s <=? a) && (a <? address s + size s)) then Some s else None
  | None => None
  end.
Proof.
  intros Hbs Ha Hl. unfold sm_containing. pose proof (sm_lookup bs address l a Hbs) as H.
  destruct (sm_before bs address (sm_new address l) a) as [s|]; [|reflexivity].
  destruct H as (H1 & H2 & _). rewrite Forall_forall in Hl. specialize (Hl s H1). cbn in Hl. unfold u64_ok in Ha.
  unfold wrap_u. rewrite Z.mod_small by lia.
  replace (a - address s <? size s) with ((address s <=? a) && (a <? address s + size s)) by lia. reflexivity.
Qed.

(** * Lexicographic orders *)
Lemma lex_leb_true x y r : lex_leb x y r = true <-> x < y \/ (x = y /\ r = true).
Proof. unfold lex_leb. destruct (Z.ltb_spec x y), (Z.ltb_spec y x); split; intro H1; try lia; try (left; lia); intuition (auto; try lia). Qed.
Lemma bytes_leb_cons x y a b : bytes_leb (x :: a) (y :: b) = lex_leb x y (bytes_leb a b).
Proof. reflexivity. Qed.
Lemma lex_leb_trans x y z r1 r2 r3 : (r1 = true -> r2 = true -> r3 = true) ->
  lex_leb x y r1 = true -> lex_leb y z r2 = true -> lex_leb x z r3 = true.
Proof. rewrite !lex_leb_true. intuition lia. Qed.
Lemma lex_leb_total x y r1 r2 : (r1 = true \/ r2 = true) -> lex_leb x y r1 = true \/ lex_leb y x r2 = true.
Proof. rewrite !lex_leb_true. intuition lia. Qed.
Lemma lex_leb_antisym x y r1 r2 : lex_leb x y r1 = true -> lex_leb y x r2 = true -> x = y /\ r1 = true /\ r2 = true.
Proof. rewrite !lex_leb_true. intuition lia. Qed.
Lemma bytes_leb_trans a : forall b c, bytes_leb a b = true -> bytes_leb b c = true -> bytes_leb a c = true.
Proof.
  induction a as [|x a IH]; intros [|y b] [|z c]; try reflexivity; try discriminate; auto.
  rewrite !bytes_leb_cons. apply lex_leb_trans. apply IH.
Qed.
Lemma bytes_leb_total a : forall b, bytes_leb a b = true \/ bytes_leb b a = true.
Proof.
  induction a as [|x a IH]; intros [|y b]; try (left; reflexivity); try (right; reflexivity).
  rewrite !bytes_leb_cons. apply lex_leb_total. apply IH.
Qed.
Lemma bytes_leb_antisym a : forall b, bytes_leb a b = true -> bytes_leb b a = true -> a = b.
Proof.
  induction a as [|x a IH]; intros [|y b]; try reflexivity; try discriminate.
  rewrite !bytes_leb_cons. intros H1 H2. destruct (lex_leb_antisym _ _ _ _ H1 H2) as (-> & H3 & H4).
  f_equal; auto.
Qed.
Lemma mt_leb_trans a b c : mt_leb a b = true -> mt_leb b c = true -> mt_leb a c = true.
Proof. unfold mt_leb. repeat apply lex_leb_trans. apply bytes_leb_trans. Qed.
Lemma mt_leb_total a b : mt_leb a b = true \/ mt_leb b a = true.
Proof. unfold mt_leb. repeat apply lex_leb_total. apply bytes_leb_total. Qed.
Lemma mt_leb_antisym a b : mt_leb a b = true -> mt_leb b a = true -> a = b.
Proof.
  unfold mt_leb. intros H1 H2. destruct a as [a1 a2 a3 a4 a5], b as [b1 b2 b3 b4 b5]; cbn [mt_address mt_priority mt_index mt_size mt_name] in *.
  destruct (lex_leb_antisym _ _ _ _ H1 H2) as (-> & H1' & H2'). clear H1 H2.
  destruct (lex_leb_antisym _ _ _ _ H1' H2') as (-> & H1 & H2). clear H1' H2'.
  destruct (lex_leb_antisym _ _ _ _ H1 H2) as (-> & H1' & H2'). clear H1 H2.
  destruct (lex_leb_antisym _ _ _ _ H1' H2') as (-> & H1 & H2).
  rewrite (bytes_leb_antisym _ _ H1 H2). reflexivity.
Qed.
Lemma mt_leb_address a b : mt_leb a b = true -> mt_address a <= mt_address b.
Proof. unfold mt_leb. rewrite lex_leb_true. lia. Qed.

(** * Deduplication *)
Definition to_name (t : mtuple) : mname := {| mn_address := mt_address t; mn_size := mt_size t; mn_name := mt_name t |}.
Definition first_at (L : list mtuple) (t : mtuple) : Prop :=
  In t L /\ forall t', In t' L -> mt_address t' = mt_address t -> mt_leb t t' = true.
Lemma dedup_spec L : StronglySorted (le_t mt_leb) L -> forall prev,
  Forall (fun t => prev <= mt_address t) L ->
  forall e, In e (mb_dedup L prev) <-> exists t, first_at L t /\ mt_address t <> prev /\ e = to_name t.
Proof.
  induction 1 as [|t L Hs IH Hf]; intros prev Hp e; cbn [mb_dedup].
  - split; [intros []|intros (t & [[] _] & _)].
  - pose proof (Forall_inv Hp) as Hpt. apply Forall_inv_tail in Hp. cbn in Hpt.
    rewrite Forall_forall in Hf. unfold le_t in Hf.
    destruct (Z.eqb_spec (mt_address t) prev) as [E|E]; cbn [negb].
    + rewrite IH by assumption. split; intros (t' & [Hi Hm] & Hn & ->).
      * exists t'. split; [|auto]. split; [right; exact Hi|]. intros u [<-|Hu] Hau; [lia|auto].
      * exists t'. split; [|auto]. destruct Hi as [<-|Hi]; [lia|]. split; [exact Hi|].
        intros u Hu; apply Hm; right; exact Hu.
    + assert (Hall : Forall (fun u => mt_address t <= mt_address u) L).
      { apply Forall_forall. intros u Hu. apply mt_leb_address; auto. }
      cbn [In]. rewrite IH by exact Hall. rewrite Forall_forall in Hall. split.
      * intros [<-|(t' & [Hi Hm] & Hn & ->)].
        { exists t. split; [|auto]. split; [left; reflexivity|]. intros u [<-|Hu] _; [|auto].
          destruct (mt_leb_total t t) as [H|H]; exact H. }
        { exists t'. specialize (Hall t' Hi). split; [|split; [lia|reflexivity]]. split; [right; exact Hi|].
          intros u [<-|Hu] Hau; [lia|auto]. }
      * intros (t' & [Hi Hm] & Hn & ->).
        destruct Hi as [<-|Hi]; [left; reflexivity|].
        destruct (Z.eq_dec (mt_address t') (mt_address t)) as [Ea|Ea].
        { left. rewrite (mt_leb_antisym t t'); [reflexivity|auto|]. apply Hm; [left; reflexivity|auto]. }
        { right. exists t'. split; [|auto]. split; [exact Hi|]. intros u Hu; apply Hm; right; exact Hu. }
Qed.
Lemma dedup_sorted L : StronglySorted (le_t mt_leb) L -> forall prev,
  Forall (fun t => prev <= mt_address t) L ->
  StronglySorted (fun x y => mn_address x < mn_address y) (mb_dedup L prev) /\
  Forall (fun e => prev < mn_address e) (mb_dedup L prev).
Proof.
  induction 1 as [|t L Hs IH Hf]; intros prev Hp; cbn [mb_dedup]; [split; constructor|].
  pose proof (Forall_inv Hp) as Hpt. apply Forall_inv_tail in Hp. cbn in Hpt.
  destruct (Z.eqb_spec (mt_address t) prev) as [E|E]; cbn [negb]; [auto|].
  destruct (IH (mt_address t)) as [H1 H2].
  { eapply Forall_impl; [|exact Hf]. intros u Hu. apply mt_leb_address, Hu. }
  split; constructor; auto; cbn; [lia|]. eapply Forall_impl; [|exact H2]. intros u Hu. cbn in *. lia.
Qed.

(** Starting from the all-ones sentinel. *)
Lemma dedup_init L : StronglySorted (le_t mt_leb) L -> Forall (fun t => 0 <= mt_address t <= umax 64) L ->
  (forall t, In t L -> mt_address t = umax 64) /\ mb_dedup L (umax 64) = [] \/
  (exists t, In t L /\ mt_address t <> umax 64) /\ mb_dedup L (umax 64) = mb_dedup L (-1).
Proof.
  intros Hs Hb. destruct L as [|t L]; [left; split; [intros ? []|reflexivity]|].
  inversion Hs as [|? ? Hs' Hf]; subst. rewrite Forall_forall in Hf.
  destruct (Z.eq_dec (mt_address t) (umax 64)) as [E|E].
  - left. assert (Hall : forall u, In u (t :: L) -> mt_address u = umax 64).
    { intros u [<-|Hu]; [exact E|]. specialize (Hf u Hu). apply mt_leb_address in Hf.
      rewrite Forall_forall in Hb. specialize (Hb u (or_intror Hu)). cbv beta in Hb. lia. }
    split; [exact Hall|]. clear -Hall. revert Hall. generalize (t :: L). intro l.
    induction l as [|u l IH]; intro Hall; [reflexivity|]. cbn [mb_dedup].
    rewrite (Hall u) by (left; reflexivity). rewrite Z.eqb_refl. cbn. apply IH. intros; apply Hall; right; assumption.
  - right. split; [exists t; split; [left; reflexivity|exact E]|]. cbn [mb_dedup].
    destruct (Z.eqb_spec (mt_address t) (umax 64)); [contradiction|].
    destruct (Z.eqb_spec (mt_address t) (-1)) as [E2|]; [|reflexivity].
    apply Forall_inv in Hb. cbv beta in Hb. lia.
Qed.

(** * Size guessing *)
Definition with_next (x : mname) (p : Z) : mname :=
  {| mn_address := mn_address x; mn_name := mn_name x;
     mn_size := if mn_size x =? 0 then ssub p (mn_address x) else mn_size x |}.
Lemma guess_snoc a : forall x p, mb_guess (a ++ [x]) p = mb_guess a p ++ [with_next x (last (map mn_address a) p)].
Proof.
  induction a as [|y a IH]; intros x p; cbn [app mb_guess map]; [reflexivity|]. rewrite IH.
  f_equal. f_equal. f_equal. f_equal. clear. revert y p. induction a as [|z a IH]; intros y p; [reflexivity|].
  cbn [map]. change (last (mn_address y :: mn_address z :: map mn_address a) p) with (last (mn_address z :: map mn_address a) p).
  rewrite <- (IH z p). rewrite <- (IH z (mn_address y)). reflexivity.
Qed.
Fixpoint fwd (l : list mname) (p : Z) : list mname :=
  match l with
  | [] => []
  | x :: l => with_next x (hd p (map mn_address l)) :: fwd l p
  end.
Lemma last_rev_hd {A} (l : list A) d : last (rev l) d = hd d l.
Proof. destruct l as [|x l]; [reflexivity|]. cbn [rev hd]. apply last_last. Qed.
Lemma rev_guess l : forall p, rev (mb_guess (rev l) p) = fwd l p.
Proof.
  induction l as [|x l IH]; intro p; [reflexivity|]. cbn [rev fwd]. rewrite guess_snoc, rev_app_distr, IH.
  cbn [rev app]. rewrite map_rev, last_rev_hd. reflexivity.
Qed.
Lemma mb_sizes_snoc l s : mb_sizes (l ++ [s]) = fwd l (mn_address s) ++ [s].
Proof. unfold mb_sizes. rewrite rev_app_distr. cbn [rev app]. rewrite rev_guess. reflexivity. Qed.
Lemma fwd_In e l p : In e (fwd l p) <-> exists a x b, l = a ++ x :: b /\ e = with_next x (hd p (map mn_address b)).
Proof.
  induction l as [|y l IH]; cbn [fwd In].
  - split; [intros []|intros ([|] & ? & ? & H & _); discriminate].
  - rewrite IH. split.
    + intros [<-|(a & x & b & -> & ->)]; [exists [], y, l; auto|exists (y :: a), x, b; auto].
    + intros ([|y' a] & x & b & H & ->); cbn in H; inversion H; subst; [left; reflexivity|right; eauto].
Qed.
(** In a strictly sorted list the next address is the least greater one. *)
Definition next_in (l : list mname) (a : Z) (x : Z) : Prop :=
  (exists e, In e l /\ mn_address e = x) /\ a < x /\ forall e, In e l -> a < mn_address e -> x <= mn_address e.
Lemma sizes_In l : StronglySorted (fun x y => mn_address x < mn_address y) l ->
  forall e, In e (mb_sizes l) <-> exists e0, In e0 l /\ mn_address e = mn_address e0 /\ mn_name e = mn_name e0 /\
    ((mn_size e0 <> 0 /\ mn_size e = mn_size e0) \/
     (mn_size e0 = 0 /\ exists x, next_in l (mn_address e0) x /\ mn_size e = x - mn_address e0) \/
     (mn_size e0 = 0 /\ (forall y, In y l -> mn_address y <= mn_address e0) /\ mn_size e = 0)).
Proof.
  intros Hs e. destruct l as [|z l0] eqn:El; [cbn; split; [intros []|intros (? & [] & _)]|].
  rewrite <- El in *. destruct (exists_last (l := l)) as (l' & s & ->); [subst; discriminate|]. clear z l0 El.
  rewrite mb_sizes_snoc.
  assert (Hmax : forall y, In y (l' ++ [s]) -> mn_address y <= mn_address s).
  { intros y Hy. apply in_app_or in Hy as [Hy|[<-|[]]]; [|lia].
    pose proof (StronglySorted_app_inv _ _ _ Hs y s Hy (or_introl eq_refl)). cbn in *. lia. }
  assert (Hnext : forall a x b, l' = a ++ x :: b -> next_in (l' ++ [s]) (mn_address x) (hd (mn_address s) (map mn_address b))).
  { intros a x b ->. rewrite <- app_assoc in *. cbn [app] in *.
    pose proof (StronglySorted_app_r _ _ _ Hs) as Hr. inversion Hr as [|? ? Hr' Hf]; subst.
    assert (Hfst : forall u, In u a -> mn_address u < mn_address x).
    { intros u Hu. apply (StronglySorted_app_inv _ _ _ Hs u x Hu). left; reflexivity. }
    rewrite Forall_forall in Hf.
    assert (Hmin : forall u, In u (b ++ [s]) -> hd (mn_address s) (map mn_address b) <= mn_address u).
    { clear -Hr'. destruct b as [|y b]; cbn [app map hd] in *.
      - intros u [<-|[]]; lia.
      - inversion Hr' as [|? ? _ Hf]; subst. rewrite Forall_forall in Hf.
        intros u [<-|Hu]; [lia|]. specialize (Hf u Hu). cbn in Hf. lia. }
    assert (Hex : exists u, In u (b ++ [s]) /\ mn_address u = hd (mn_address s) (map mn_address b)).
    { destruct b as [|y b]; cbn; [exists s|exists y]; auto. }
    destruct Hex as (u & Hu & Eu). split; [|split].
    - exists u. split; [apply in_or_app; right; right; exact Hu|exact Eu].
    - rewrite <- Eu. apply Hf; exact Hu.
    - intros v Hv Hlt. apply in_app_or in Hv as [Hv|[<-|Hv]]; [specialize (Hfst v Hv); lia|lia|auto]. }
  split.
  - intro H. apply in_app_or in H as [H|[<-|[]]].
    + apply fwd_In in H as (a & x & b & El & ->). exists x. split; [subst l'; rewrite in_app_iff; left; apply in_elt|].
      split; [reflexivity|]. split; [reflexivity|]. specialize (Hnext a x b El).
      unfold with_next. cbn [mn_size]. destruct (Z.eqb_spec (mn_size x) 0) as [E0|E0]; [|auto].
      right; left. split; [exact E0|]. eexists; split; [exact Hnext|]. unfold ssub.
      destruct Hnext as (_ & Hlt & _). destruct (Z.leb_spec (mn_address x) (hd (mn_address s) (map mn_address b))); lia.
    + exists s. split; [apply in_or_app; right; left; reflexivity|]. split; [reflexivity|]. split; [reflexivity|].
      destruct (Z.eq_dec (mn_size s) 0); [right; right; auto|left; auto].
  - intros (x & Hx & Ha & Hn & Hc). apply in_app_or in Hx as [Hx|[<-|[]]].
    + apply in_split in Hx as (a & b & El). apply in_or_app; left. apply fwd_In. exists a, x, b. split; [exact El|].
      specialize (Hnext a x b El). unfold with_next. destruct e as [ea es en]; cbn [mn_address mn_size mn_name] in *; subst ea en.
      f_equal. destruct Hc as [[H1 H2]|[[H1 (y & Hy & H2)]|[H1 [H2 H3]]]].
      * destruct (Z.eqb_spec (mn_size x) 0); [contradiction|exact H2].
      * destruct (Z.eqb_spec (mn_size x) 0); [|contradiction].
        assert (y = hd (mn_address s) (map mn_address b)).
        { destruct Hy as ((u & Hu & Eu) & Hlt & Hm), Hnext as ((v & Hv & Ev) & Hlt2 & Hm2).
          specialize (Hm v Hv). specialize (Hm2 u Hu). lia. }
        subst y. unfold ssub. destruct Hy as (_ & Hlt & _).
        destruct (Z.leb_spec (mn_address x) (hd (mn_address s) (map mn_address b))); lia.
      * destruct Hnext as ((v & Hv & Ev) & Hlt2 & _). specialize (H2 v Hv). lia.
    + apply in_or_app; right; left. destruct e as [ea es en], s as [sa ss sn]; cbn [mn_address mn_size mn_name] in *; subst.
      f_equal. destruct Hc as [[H1 H2]|[[H1 (y & ((u & Hu & Eu) & Hlt & _) & H2)]|[H1 [H2 H3]]]]; [auto| |congruence].
      specialize (Hmax u Hu). cbn in Hmax. lia.
Qed.
Lemma fwd_addresses l p : map mn_address (fwd l p) = map mn_address l.
Proof. induction l as [|x l IH]; cbn; [reflexivity|]. rewrite IH. reflexivity. Qed.
Lemma sizes_addresses l : map mn_address (mb_sizes l) = map mn_address l.
Proof.
  destruct l as [|z l0] eqn:El; [reflexivity|]. rewrite <- El. 
  destruct (exists_last (l := l)) as (l' & s & ->); [subst; discriminate|].
  rewrite mb_sizes_snoc, !map_app, fwd_addresses. reflexivity.
Qed.
Lemma sorted_of_map {T} (key : T -> Z) l : StronglySorted Z.lt (map key l) <-> StronglySorted (fun x y => key x < key y) l.
Proof.
  split.
  - induction l as [|x l IH]; cbn; intro H; [constructor|]. inversion H as [|? ? Hs Hf]; subst.
    constructor; [auto|]. rewrite Forall_map in Hf. exact Hf.
  - induction 1; cbn; constructor; auto. rewrite Forall_map. assumption.
Qed.
Lemma sorted_filter {T} (R : T -> T -> Prop) f l : StronglySorted R l -> StronglySorted R (filter f l).
Proof.
  induction 1 as [|x l Hs IH Hf]; cbn; [constructor|]. destruct (f x); [|exact IH]. constructor; [exact IH|].
  rewrite Forall_forall in *. intros y Hy. apply filter_In in Hy. apply Hf; tauto.
Qed.

(** * The builder *)
Definition raw (o : mobj) (t : list msym) : list mtuple :=
  flat_map ms_tuples t ++ map (fun s => mt_end (sadd 64 (fst s) (snd s))) (mo_sections o).
Lemma build_strict o : StronglySorted (fun x y => mn_address x < mn_address y)
  (match mo_table o with None => [] | Some t =>
     filter (fun x => match mn_name x with [] => false | _ => true end)
       (mb_sizes (mb_dedup (sort_by mt_leb (raw o t)) (umax 64))) end) ->
  mb_build o = match mo_table o with None => [] | Some t =>
     filter (fun x => match mn_name x with [] => false | _ => true end)
       (mb_sizes (mb_dedup (sort_by mt_leb (raw o t)) (umax 64))) end.
Proof.
  intro H. unfold mb_build. change (fun s : Z * Z => mt_end (sadd 64 (fst s) (snd s))) with
    (fun s : Z * Z => mt_end (sadd 64 (fst s) (snd s))). unfold sm_new. 
  destruct (mo_table o); [|reflexivity]. fold (raw o l). apply sort_by_id.
  clear -H. induction H as [|x m Hs IH Hf]; constructor; auto. eapply Forall_impl; [|exact Hf].
  intros y Hy. unfold le_t. cbn in Hy. lia.
Qed.
Lemma dedup_sorted_any L : StronglySorted (le_t mt_leb) L -> forall prev,
  StronglySorted (fun x y => mn_address x < mn_address y) (mb_dedup L prev).
Proof.
  induction 1 as [|t L Hs IH Hf]; intro prev; cbn [mb_dedup]; [constructor|].
  destruct (negb _); [|apply IH].
  destruct (dedup_sorted L Hs (mt_address t)) as [H1 H2].
  { eapply Forall_impl; [|exact Hf]. intros u Hu. apply mt_leb_address, Hu. }
  constructor; [exact H1|exact H2].
Qed.
Lemma sorted_raw o t : StronglySorted (le_t mt_leb) (sort_by mt_leb (raw o t)).
Proof. apply sort_by_sorted; [apply mt_leb_total|apply mt_leb_trans]. Qed.
Lemma build_sorted o : StronglySorted (fun x y => mn_address x < mn_address y) (mb_build o).
Proof.
  assert (H : StronglySorted (fun x y => mn_address x < mn_address y)
  (match mo_table o with None => [] | Some t =>
     filter (fun x => match mn_name x with [] => false | _ => true end)
       (mb_sizes (mb_dedup (sort_by mt_leb (raw o t)) (umax 64))) end)).
  { destruct (mo_table o); [|constructor]. apply sorted_filter. apply sorted_of_map. rewrite sizes_addresses.
    apply sorted_of_map. apply dedup_sorted_any, sorted_raw. }
  rewrite build_strict; exact H.
Qed.
Lemma build_eq o : mb_build o = match mo_table o with None => [] | Some t =>
     filter (fun x => match mn_name x with [] => false | _ => true end)
       (mb_sizes (mb_dedup (sort_by mt_leb (raw o t)) (umax 64))) end.
Proof.
  apply build_strict. destruct (mo_table o); [|constructor]. apply sorted_filter. apply sorted_of_map. rewrite sizes_addresses.
    apply sorted_of_map. apply dedup_sorted_any, sorted_raw.
Qed.

Definition tuple_of (s : msym) (p : Z) (name : bytes) : mtuple :=
  {| mt_address := ms_address s; mt_priority := p; mt_index := umax 64 - ms_index s;
     mt_size := ms_size s; mt_name := name |}.
Definition cand_in (t : list msym) (s : msym) (name : bytes) : Prop :=
  In s t /\ ms_def s = true /\ ms_name s = Some name /\ name <> [] /\
  (ms_kind s = KText \/ ms_kind s = KData \/ ms_kind s = KUnknown).
Lemma priority_some s p : ms_priority s = Some p -> (ms_kind s = KText \/ ms_kind s = KData \/ ms_kind s = KUnknown).
Proof. unfold ms_priority. destruct (ms_kind s); try discriminate; auto. Qed.
Lemma priority_rank s : (ms_kind s = KText \/ ms_kind s = KData \/ ms_kind s = KUnknown) -> exists a b c d,
  ms_priority s = Some (16 * a + 8 * b + 4 * c + d) /\ rank s = [a; b; c; d; - ms_index s] /\
  0 <= a <= 1 /\ 0 <= b <= 1 /\ 0 <= c <= 1 /\ 0 <= d <= 3.
Proof.
  intro H. unfold ms_priority, rank.
  destruct (ms_kind s); try (exfalso; intuition discriminate);
  destruct (ms_xcoff_label s) as [[|]|]; destruct (ms_size s =? 0); destruct (ms_scope s);
  do 4 eexists; (split; [|split; [reflexivity|lia]]); f_equal.
Qed.
Lemma in_raw o t u : In u (raw o t) <->
  (exists s n p, cand_in t s n /\ ms_priority s = Some p /\ u = tuple_of s p n) \/
  (exists s n, cand_in t s n /\ ms_xcoff_label s <> None /\ ms_size s <> 0 /\ u = mt_end (sadd 64 (ms_address s) (ms_size s))) \/
  (exists a sz, In (a, sz) (mo_sections o) /\ u = mt_end (sadd 64 a sz)).
Proof.
  unfold raw. rewrite in_app_iff, in_flat_map, in_map_iff. split.
  - intros [(s & Hs & Hu)|((a & sz) & <- & Hin)]; [|right; right; exists a, sz; auto].
    unfold ms_tuples in Hu. destruct (ms_def s) eqn:Ed; cbn [negb] in Hu; [|destruct Hu].
    destruct (ms_name s) as [[|c n]|] eqn:En; try destruct Hu.
    destruct (ms_priority s) as [p|] eqn:Ep; [|destruct Hu].
    assert (Hc : cand_in t s (c :: n)).
    { split; [exact Hs|]. split; [exact Ed|]. split; [exact En|]. split; [discriminate|eapply priority_some; eauto]. }
    apply in_app_or in Hu as [Hu|[<-|[]]].
    + right; left. destruct (ms_xcoff_label s) eqn:Ex; [|destruct Hu].
      destruct (Z.eqb_spec (ms_size s) 0); [destruct Hu|]. destruct Hu as [<-|[]].
      exists s, (c :: n). rewrite Ex. repeat split; auto; try apply Hc; discriminate.
    + left. exists s, (c :: n), p. auto.
  - intros [(s & n & p & (H1 & H2 & H3 & H4 & H5) & Hp & ->)|[(s & n & (H1 & H2 & H3 & H4 & H5) & Hx & Hz & ->)|(a & sz & Hin & ->)]].
    + left. exists s. split; [exact H1|]. unfold ms_tuples. rewrite H2, H3, Hp. cbn [negb].
      destruct n; [contradiction|]. apply in_or_app; right; left; reflexivity.
    + left. exists s. split; [exact H1|]. unfold ms_tuples. rewrite H2, H3. cbn [negb].
      destruct n; [contradiction|]. destruct (priority_rank s H5) as (a & b & c & d & -> & _).
      apply in_or_app; left. destruct (ms_xcoff_label s); [|contradiction].
      destruct (Z.eqb_spec (ms_size s) 0); [contradiction|]. left; reflexivity.
    + right. exists (a, sz). auto.
Qed.
Lemma candidate_table o s n : candidate o s n <-> exists t, mo_table o = Some t /\ cand_in t s n.
Proof.
  unfold candidate, cand_in, mo_table. split.
  - intros ((t & Ht & Hin) & H). exists t. split; [|tauto]. destruct Ht as [->|[-> ->]]; reflexivity.
  - intros (t & Ht & Hin & H). split; [|exact H]. exists t. split; [|exact Hin].
    destruct (mo_symbols o); [left; congruence|right; auto].
Qed.
Lemma sadd_end_of a b : sadd 64 a b = end_of a b.
Proof. unfold sadd, end_of. destruct (Z.ltb_spec (a + b) (2 ^ 64)); lia. Qed.
Lemma bound_raw o t x : mo_table o = Some t -> bound o x <-> exists u, In u (raw o t) /\ mt_address u = x.
Proof.
  intro Ht. assert (Hc : forall s n, candidate o s n <-> cand_in t s n).
  { intros. rewrite candidate_table. split; [intros (t' & H & H2); congruence|eauto]. }
  split.
  - intros [(s & n & Hs & ->)|[(a & sz & Hin & ->)|(s & n & Hs & H1 & H2 & ->)]].
    + apply Hc in Hs. destruct (priority_rank s) as (a & b & c & d & Hp & _); [apply Hs|].
      eexists. split; [apply in_raw; left; exists s, n; eauto|reflexivity].
    + exists (mt_end (sadd 64 a sz)). split; [apply in_raw; right; right; eauto|]. apply sadd_end_of.
    + apply Hc in Hs. exists (mt_end (sadd 64 (ms_address s) (ms_size s))).
      split; [apply in_raw; right; left; exists s, n; auto|]. apply sadd_end_of.
  - intros (u & Hu & <-). apply in_raw in Hu as [(s & n & p & Hs & Hp & ->)|[(s & n & Hs & H1 & H2 & ->)|(a & sz & Hin & ->)]].
    + left. exists s, n. rewrite Hc. auto.
    + right; right. exists s, n. rewrite Hc. repeat split; auto; try apply Hs. apply sadd_end_of.
    + right; left. exists a, sz. split; [auto|]. apply sadd_end_of.
Qed.
Lemma table_ok o t : mobj_ok o -> mo_table o = Some t -> Forall msym_ok t /\ NoDup (map ms_index t).
Proof.
  intros [H _] Ht. apply H. unfold mo_table in Ht. destruct (mo_symbols o); auto.
Qed.
Lemma raw_range o t u : mobj_ok o -> mo_table o = Some t -> In u (raw o t) -> 0 <= mt_address u <= umax 64.
Proof.
  intros Hok Ht Hu. destruct (table_ok o t Hok Ht) as [Hs _]. destruct Hok as [_ Hsec].
  rewrite Forall_forall in Hs, Hsec. unfold msym_ok, u64_ok in *.
  apply in_raw in Hu as [(s & n & p & Hc & Hp & ->)|[(s & n & Hc & H1 & H2 & ->)|(a & sz & Hin & ->)]]; cbn [mt_address tuple_of mt_end].
  - destruct (Hs s) as (Ha & _); [apply Hc|]. unfold umax. lia.
  - destruct (Hs s) as (Ha & Hb & _); [apply Hc|]. rewrite sadd_end_of. unfold end_of, umax. lia.
  - specialize (Hsec _ Hin). cbn [fst snd] in Hsec. rewrite sadd_end_of. unfold end_of, umax. lia.
Qed.

Lemma tuple_leb_rank s t p q n m : ms_address s = ms_address t ->
  ms_priority s = Some p -> ms_priority t = Some q -> u64_ok (ms_index s) -> u64_ok (ms_index t) ->
  (lex_le (rank s) (rank t) <-> p < q \/ p = q /\ ms_index t <= ms_index s) /\
  (ms_index s <> ms_index t -> mt_leb (tuple_of s p n) (tuple_of t q m) = true <-> p < q \/ p = q /\ ms_index t <= ms_index s).
Proof.
  intros Ha Hp Hq His Hit.
  destruct (priority_rank s (priority_some _ _ Hp)) as (a & b & c & d & Ep & -> & ? & ? & ? & ?).
  destruct (priority_rank t (priority_some _ _ Hq)) as (a' & b' & c' & d' & Eq & -> & ? & ? & ? & ?).
  assert (p = 16 * a + 8 * b + 4 * c + d) by congruence. assert (q = 16 * a' + 8 * b' + 4 * c' + d') by congruence.
  clear Ep Eq Hp Hq. split.
  - cbn [lex_le]. subst p q. split; intro; lia.
  - intro Hne. unfold mt_leb, tuple_of. cbn [mt_address mt_priority mt_index mt_size mt_name].
    rewrite !lex_leb_true. split; intro Hx; [lia|]. right. split; [exact Ha|]. destruct Hx as [Hx|[Hx Hy]]; [left; lia|].
    right. split; [exact Hx|]. left. lia.
Qed.

(** The first tuple at its address that has a name is the best candidate. *)
Lemma first_best o t s n p : mobj_ok o -> mo_table o = Some t -> cand_in t s n -> ms_priority s = Some p ->
  first_at (sort_by mt_leb (raw o t)) (tuple_of s p n) <-> best o s.
Proof.
  intros Hok Ht Hc Hp. destruct (table_ok o t Hok Ht) as [Hs Hnd]. rewrite Forall_forall in Hs.
  assert (Hperm : forall u, In u (sort_by mt_leb (raw o t)) <-> In u (raw o t)).
  { intro u. split; apply Permutation_in; [symmetry|]; apply sort_by_perm. }
  assert (Hidx : forall u m, cand_in t u m -> u64_ok (ms_index u)).
  { intros u m Hu. apply (Hs u). apply Hu. }
  assert (Hinj : forall u m, cand_in t u m -> ms_index u = ms_index s -> u = s).
  { intros u m [Hu _] Heq. destruct Hc as [Hin _]. clear -Hnd Hu Hin Heq.
    induction t as [|x t IH]; [destruct Hin|]. cbn in Hnd. inversion Hnd as [|? ? Hni Hnd']; subst.
    destruct Hu as [->|Hu], Hin as [->|Hin]; auto.
    - exfalso. apply Hni. rewrite Heq. apply in_map; exact Hin.
    - exfalso. apply Hni. rewrite <- Heq. apply in_map; exact Hu. }
  split.
  - intros [_ Hm] u m Hu Ha. apply candidate_table in Hu as (t' & Ht' & Hu). assert (t' = t) by congruence. subst t'.
    destruct (priority_rank u) as (a & b & c & d & Hq & _); [apply Hu|].
    specialize (Hm (tuple_of u (16 * a + 8 * b + 4 * c + d) m)). rewrite Hperm in Hm.
    assert (Hle : mt_leb (tuple_of s p n) (tuple_of u (16 * a + 8 * b + 4 * c + d) m) = true).
    { apply Hm; [apply in_raw; left; eauto 6|exact Ha]. }
    destruct (Z.eq_dec (ms_index s) (ms_index u)) as [E|E].
    { rewrite (Hinj u m Hu) by auto. destruct (priority_rank s) as (a' & b' & c' & d' & _ & -> & _); [apply Hc|].
      cbn [lex_le]. lia. }
    destruct (tuple_leb_rank s u p _ n m (eq_sym Ha) Hp Hq (Hidx _ _ Hc) (Hidx _ _ Hu)) as [R1 R2].
    apply R1, R2; assumption.
  - intro Hb. split; [apply Hperm, in_raw; left; eauto 6|].
    intros u Hu Ha. rewrite Hperm in Hu. apply in_raw in Hu as [(u' & m & q & Hu & Hq & ->)|Hu].
    + cbn [mt_address tuple_of] in Ha.
      assert (Hcu : candidate o u' m) by (apply candidate_table; eauto).
      specialize (Hb u' m Hcu Ha).
      destruct (Z.eq_dec (ms_index s) (ms_index u')) as [E|E].
      { assert (u' = s) by (eapply Hinj; eauto). subst u'. assert (q = p) by congruence. subst q.
        assert (n = m) by (destruct Hc as (_ & _ & H1 & _), Hu as (_ & _ & H2 & _); congruence). subst m.
        destruct (mt_leb_total (tuple_of s p n) (tuple_of s p n)); assumption. }
      destruct (tuple_leb_rank s u' p q n m (eq_sym Ha) Hp Hq (Hidx _ _ Hc) (Hidx _ _ Hu)) as [R1 R2].
      apply R2; [exact E|]. apply R1; exact Hb.
    + assert (Hpr : mt_priority u = umax 32).
      { destruct Hu as [(? & ? & ? & ? & ? & ->)|(? & ? & ? & ->)]; reflexivity. }
      unfold mt_leb. apply lex_leb_true. right. split; [auto|]. apply lex_leb_true. left. rewrite Hpr.
      destruct (priority_rank s) as (a' & b' & c' & d' & Hp' & _ & ? & ? & ? & ?); [apply Hc|].
      cbn [tuple_of mt_priority]. assert (p = 16 * a' + 8 * b' + 4 * c' + d') by congruence. unfold umax. lia.
Qed.

Lemma filter_named e l : In e (filter (fun x => match mn_name x with [] => false | _ => true end) l) <->
  In e l /\ mn_name e <> [].
Proof. rewrite filter_In. destruct (mn_name e); split; intros [H1 H2]; split; auto; try discriminate; congruence. Qed.

Lemma exists_first L : StronglySorted (le_t mt_leb) L -> forall u, In u L -> exists v, first_at L v /\ mt_address v = mt_address u.
Proof.
  induction 1 as [|x L Hs IH Hf]; intros u Hu; [destruct Hu|].
  rewrite Forall_forall in Hf. unfold le_t in Hf.
  destruct (Z.eq_dec (mt_address x) (mt_address u)) as [E|E].
  - exists x. split; [|exact E]. split; [left; reflexivity|]. intros t' [<-|Ht'] _; [|auto].
    destruct (mt_leb_total x x); assumption.
  - destruct Hu as [->|Hu]; [contradiction|]. destruct (IH u Hu) as (v & [Hv Hm] & Ev). exists v. split; [|exact Ev].
    split; [right; exact Hv|]. intros t' [<-|Ht'] Ha; [|auto]. rewrite Ev in Ha. contradiction.
Qed.

Theorem build_entries o : mobj_ok o -> (exists x, bound o x /\ x <> umax 64) -> forall e,
  In e (mb_build o) <-> exists s n, candidate o s n /\ best o s /\ mn_address e = ms_address s /\
    mn_name e = n /\ guessed o s (mn_size e).
Proof.
  intros Hok Hex e. rewrite build_eq. destruct (mo_table o) as [t|] eqn:Ht.
  2:{ split; [intros []|]. intros (s & n & Hc & _). apply candidate_table in Hc as (t & H & _). congruence. }
  set (L := sort_by mt_leb (raw o t)).
  assert (Hperm : forall u, In u L <-> In u (raw o t)).
  { intro u. split; apply Permutation_in; [symmetry|]; apply sort_by_perm. }
  assert (HL : StronglySorted (le_t mt_leb) L) by apply sorted_raw.
  assert (HLr : Forall (fun t => 0 <= mt_address t <= umax 64) L).
  { apply Forall_forall. intros u Hu. eapply raw_range; eauto. apply Hperm; exact Hu. }
  destruct (dedup_init L HL HLr) as [[Hall _]|[_ Hd]].
  { destruct Hex as (x & Hx & Hne). apply (bound_raw o t x Ht) in Hx as (u & Hu & <-). exfalso. apply Hne, Hall, Hperm, Hu. }
  rewrite Hd. set (D := mb_dedup L (-1)).
  assert (HD : forall e, In e D <-> exists t, first_at L t /\ e = to_name t).
  { intro e0. unfold D. rewrite dedup_spec; [|exact HL|eapply Forall_impl; [|exact HLr]; intros; cbv beta in *; lia].
    split; intros (u & H1 & H2); exists u; [tauto|]. repeat split; try apply H1; auto.
    rewrite Forall_forall in HLr. specialize (HLr u (proj1 H1)). cbv beta in HLr. lia. }
  assert (HDs : StronglySorted (fun x y => mn_address x < mn_address y) D) by (apply dedup_sorted_any, HL).
  (* addresses of D are the bounds *)
  assert (HDb : forall x, (exists e, In e D /\ mn_address e = x) <-> bound o x).
  { intro x. rewrite (bound_raw o t x Ht). split.
    - intros (e0 & He & <-). apply HD in He as (u & [Hu _] & ->). exists u. split; [apply Hperm, Hu|reflexivity].
    - intros (u & Hu & <-). apply Hperm in Hu. destruct (exists_first L HL u Hu) as (v & Hv & Ev).
      exists (to_name v). split; [apply HD; eauto|exact Ev]. }
  rewrite filter_named, (sizes_In D HDs). split.
  - intros ((e0 & He0 & Ha & Hn & Hsz) & Hne). apply HD in He0 as (u & Hu & ->). cbn [to_name mn_address mn_name mn_size] in *.
    pose proof (proj1 (Hperm u) (proj1 Hu)) as Hr. apply in_raw in Hr as [(s & n & p & Hc & Hp & ->)|Hr].
    2:{ exfalso. apply Hne. rewrite Hn. destruct Hr as [(? & ? & ? & ? & ? & ->)|(? & ? & ? & ->)]; reflexivity. }
    cbn [tuple_of mt_address mt_name mt_size] in *. exists s, n.
    split; [apply candidate_table; eauto|]. split; [eapply first_best; eauto|]. split; [exact Ha|]. split; [exact Hn|].
    destruct Hsz as [H|[(H & x & (Hx1 & Hx2 & Hx3) & Hx4)|(H & Hx & Hx2)]]; [left; exact H|right; left|right; right].
    + split; [exact H|]. exists x. split; [apply HDb; exact Hx1|]. split; [exact Hx2|]. split; [|exact Hx4].
      intros y Hy Hlt. apply HDb in Hy as (v & Hv & <-). auto.
    + split; [exact H|]. split; [|exact Hx2]. intros y Hy. apply HDb in Hy as (v & Hv & <-). auto.
  - intros (s & n & Hc & Hb & Ha & Hn & Hsz). pose proof Hc as (_ & _ & _ & Hne & _). split; [|congruence].
    apply candidate_table in Hc as (t' & Ht' & Hc). assert (t' = t) by congruence. subst t'.
    destruct (priority_rank s) as (a & b & c & d & Hp & _); [apply Hc|].
    exists (to_name (tuple_of s (16 * a + 8 * b + 4 * c + d) n)). split.
    { apply HD. eexists; split; [|reflexivity]. eapply first_best; eauto. }
    cbn [to_name tuple_of mn_address mn_name mn_size mt_address mt_name mt_size]. split; [exact Ha|]. split; [exact Hn|].
    destruct Hsz as [H|[(H & x & Hx1 & Hx2 & Hx3 & Hx4)|(H & Hx & Hx2)]]; [left; exact H|right; left|right; right].
    + split; [exact H|]. exists x. split; [|exact Hx4]. split; [apply HDb; exact Hx1|]. split; [exact Hx2|].
      intros v Hv Hlt. apply Hx3; [|exact Hlt]. apply HDb. eauto.
    + split; [exact H|]. split; [|exact Hx2]. intros v Hv. apply Hx. apply HDb. eauto.
Qed.
Lemma build_all_top o : mobj_ok o -> (forall x, bound o x -> x = umax 64) -> mb_build o = [].
Proof.
  intros Hok Hall. rewrite build_eq. destruct (mo_table o) as [t|] eqn:Ht; [|reflexivity].
  assert (Hperm : forall u, In u (sort_by mt_leb (raw o t)) <-> In u (raw o t)).
  { intro u. split; apply Permutation_in; [symmetry|]; apply sort_by_perm. }
  destruct (dedup_init (sort_by mt_leb (raw o t)) (sorted_raw o t)) as [[_ ->]|[(u & Hu & Hne) _]].
  - apply Forall_forall. intros u Hu. eapply raw_range; eauto. apply Hperm; exact Hu.
  - reflexivity.
  - exfalso. apply Hne, Hall. apply (bound_raw o t _ Ht). exists u. split; [apply Hperm, Hu|reflexivity].
Qed.
