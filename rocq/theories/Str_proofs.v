From Coq Require Import Permutation Sorting.Sorted.
From Verif Require Import Core_proofs.
From Verif Require Export Str_spec.

(** * Basic list facts *)
Lemma zset_app {A} (a b : list A) x y i : i = zlen a -> zset (a ++ x :: b) i y = a ++ y :: b.
Proof.
  intros ->. unfold zset. rewrite ztake_app. f_equal. f_equal.
  change (x :: b) with ([x] ++ b). rewrite app_assoc. apply zdrop_app_eq.
  rewrite zlen_app. reflexivity.
Qed.
Lemma zget_mid {A} (a b : list A) x i : i = zlen a -> zget (a ++ x :: b) i = Some x.
Proof. intros ->. rewrite zget_app2 by lia. rewrite Z.sub_diag. apply zget_0. Qed.
Lemma swap_mid {A} (a b c : list A) x y i j : i = zlen a -> j = zlen a + 1 + zlen b ->
  swap (a ++ x :: b ++ y :: c) i j = Ok (a ++ y :: b ++ x :: c).
Proof.
  intros Hi Hj. unfold swap. rewrite zget_mid by assumption.
  replace (zget (a ++ x :: b ++ y :: c) j) with (Some y).
  2: { change (a ++ x :: b ++ y :: c) with (a ++ [x] ++ b ++ y :: c).
       rewrite app_assoc, app_assoc. symmetry. apply zget_mid. rewrite !zlen_app. change (zlen [x]) with 1. lia. }
  f_equal. rewrite zset_app by assumption.
  change (a ++ y :: b ++ y :: c) with (a ++ [y] ++ b ++ y :: c).
  rewrite app_assoc, app_assoc. rewrite zset_app.
  - rewrite <- !app_assoc. reflexivity.
  - rewrite !zlen_app. change (zlen [y]) with 1. lia.
Qed.
Lemma swap_same {A} (a c : list A) x i j : i = zlen a -> j = zlen a ->
  swap (a ++ x :: c) i j = Ok (a ++ x :: c).
Proof.
  intros -> ->. unfold swap. rewrite zget_mid by reflexivity. f_equal.
  rewrite zset_app by reflexivity. apply zset_app. reflexivity.
Qed.
Lemma swap_comm {A} (l : list A) i j : i <> j -> swap l i j = swap l j i.
Proof.
  intro Hne. unfold swap. destruct (zget l i) as [x|] eqn:Ei, (zget l j) as [y|] eqn:Ej; try reflexivity.
  f_equal. apply zget_Some_lt in Ei as Hi. apply zget_Some_lt in Ej as Hj.
  assert (Hz: forall (l : list A) i x k, 0 <= i < zlen l -> zget (zset l i x) k = if k =? i then Some x else zget l k).
  { clear. intros l i x k Hi. unfold zset. destruct (Z.eqb_spec k i) as [->|Hk].
    - apply zget_mid. rewrite zlen_ztake; lia.
    - destruct (Z.lt_ge_cases k i).
      + rewrite zget_app1 by (rewrite zlen_ztake; lia). apply zget_ztake; lia.
      + rewrite zget_app2 by (rewrite zlen_ztake; lia). rewrite zlen_ztake by lia.
        rewrite zget_S by lia. rewrite zget_zdrop by lia. f_equal. lia. }
  assert (Hl: forall (l : list A) i x, 0 <= i < zlen l -> zlen (zset l i x) = zlen l).
  { clear. intros. unfold zset. rewrite zlen_app, zlen_cons, zlen_ztake, zlen_zdrop by lia. lia. }
  apply zget_ext; [rewrite !Hl; rewrite ?Hl; lia|].
  intros k Hk. rewrite !Hz by (rewrite ?Hl; lia).
  destruct (Z.eqb_spec k i), (Z.eqb_spec k j); try lia; reflexivity.
Qed.

(** * The sort *)
Definition str (strings : list bytes) (id : Z) : bytes :=
  match zget strings id with Some s => s | None => [] end.
Definition valid (strings : list bytes) (id : Z) : Prop := 0 <= id < zlen strings.

(** the bytes of string [id] from the end, from position [pos] (1-based) on *)
Definition key (strings : list bytes) (pos id : Z) : bytes := zdrop (pos - 1) (rev (str strings id)).

Definition khead (l : bytes) : Z := match l with [] => 0 | b :: _ => b end.

Lemma st_byte_eq strings id pos : valid strings id -> 1 <= pos ->
  st_byte strings id pos = Ok (khead (key strings pos id)).
Proof.
  intros Hv Hp. unfold st_byte, key, str. destruct (zget_lt_Some strings id Hv) as [s Hs]. rewrite Hs.
  cbn [unwrap bind]. pose proof (zlen_nonneg s). destruct (Z.leb_spec pos (zlen s)) as [Hle|Hgt].
  - assert (Hg: zget (rev s) (pos - 1) = zget s (zlen s - pos)) by (rewrite zget_rev by lia; f_equal; lia).
    rewrite <- Hg. destruct (zget_lt_Some (rev s) (pos - 1)) as [x Hx]; [rewrite zlen_rev; lia|].
    rewrite Hx. cbn [unwrap]. f_equal.
    assert (zget (zdrop (pos - 1) (rev s)) 0 = Some x) as Hz by (rewrite zget_zdrop by lia; rewrite Z.add_0_r; assumption).
    destruct (zdrop (pos - 1) (rev s)) as [|y l]; [discriminate|]. rewrite zget_0 in Hz. cbn. congruence.
  - rewrite zdrop_all by (rewrite zlen_rev; lia). reflexivity.
Qed.

Lemma part_loop_spec strings pos pivot : 1 <= pos ->
  let kb id := khead (key strings pos id) in
  forall fuel G E U L e,
  Forall (valid strings) (G ++ (e :: E) ++ U ++ L) ->
  (length U <= fuel)%nat ->
  Forall (fun id => kb id > pivot) G -> Forall (fun id => kb id = pivot) (e :: E) -> Forall (fun id => kb id < pivot) L ->
  exists G' E' L',
    part_loop fuel strings pos pivot (G ++ (e :: E) ++ U ++ L) (zlen G) (zlen G + 1 + zlen E)
      (zlen G + 1 + zlen E + zlen U) = Ok (G' ++ E' ++ L', zlen G', zlen G' + zlen E') /\
    Permutation (G ++ (e :: E) ++ U ++ L) (G' ++ E' ++ L') /\ E' <> [] /\
    Forall (fun id => kb id > pivot) G' /\ Forall (fun id => kb id = pivot) E' /\ Forall (fun id => kb id < pivot) L'.
Proof.
  intros Hpos kb fuel. induction fuel as [|fuel IH]; intros G E U L e Hv Hf HG HE HL.
  - destruct U; [|cbn in Hf; lia]. cbn [part_loop app]. change (zlen (@nil Z)) with 0. rewrite Z.add_0_r, Z.ltb_irrefl.
    exists G, (e :: E), L. split; [do 2 f_equal; rewrite zlen_cons; lia|]. split; [reflexivity|]. split; [discriminate|]. auto.
  - cbn [part_loop]. destruct U as [|u U].
    { cbn [app]. change (zlen (@nil Z)) with 0. rewrite Z.add_0_r, Z.ltb_irrefl.
      exists G, (e :: E), L. split; [do 2 f_equal; rewrite zlen_cons; lia|]. split; [reflexivity|]. split; [discriminate|]. auto. }
    rewrite zlen_cons. pose proof (zlen_nonneg U) as HU0.
    destruct (Z.ltb_spec (zlen G + 1 + zlen E) (zlen G + 1 + zlen E + (1 + zlen U))); [|lia].
    assert (Hg: zget (G ++ (e :: E) ++ (u :: U) ++ L) (zlen G + 1 + zlen E) = Some u).
    { rewrite app_assoc. cbn [app]. apply zget_mid. rewrite zlen_app, zlen_cons. lia. }
    rewrite Hg. cbn [unwrap bind].
    assert (Hvu: valid strings u).
    { rewrite Forall_forall in Hv. apply Hv. apply in_or_app; right. apply in_or_app; right. left; reflexivity. }
    rewrite st_byte_eq by assumption. cbn [bind]. fold (kb u).
    cbn [length] in Hf.
    destruct (Z.ltb_spec pivot (kb u)) as [Hgt|Hle].
    + (* swap lower i *)
      assert (Hsw: swap (G ++ (e :: E) ++ (u :: U) ++ L) (zlen G) (zlen G + 1 + zlen E)
                   = Ok ((G ++ [u]) ++ (E ++ [e]) ++ U ++ L)).
      { cbn [app]. rewrite swap_mid by lia. rewrite <- !app_assoc. reflexivity. }
      rewrite Hsw. cbn [bind].
      assert (Hperm: Permutation (G ++ (e :: E) ++ (u :: U) ++ L) ((G ++ [u]) ++ (E ++ [e]) ++ U ++ L)).
      { rewrite <- !app_assoc. apply Permutation_app_head. cbn [app].
        transitivity (u :: e :: E ++ U ++ L).
        - change (u :: e :: E ++ U ++ L) with (u :: (e :: E) ++ (U ++ L)).
          change (e :: E ++ u :: U ++ L) with ((e :: E) ++ u :: (U ++ L)).
          symmetry. apply Permutation_middle.
        - apply perm_skip. apply Permutation_middle. }
      destruct E as [|e1 E].
      * destruct (IH (G ++ [u]) [] U L e) as (G' & E' & L' & Hr & Hp & Hrest).
        -- eapply Permutation_Forall; [|exact Hv]. exact Hperm.
        -- lia.
        -- apply Forall_app; split; [assumption|constructor; [lia|constructor]].
        -- assumption.
        -- assumption.
        -- exists G', E', L'. split; [|split; [etransitivity; [exact Hperm|exact Hp]|exact Hrest]].
           rewrite <- Hr. cbn [app]. rewrite zlen_app. change (zlen [u]) with 1. change (zlen (@nil Z)) with 0.
           f_equal; lia.
      * destruct (IH (G ++ [u]) (E ++ [e]) U L e1) as (G' & E' & L' & Hr & Hp & Hrest).
        -- eapply Permutation_Forall; [|exact Hv]. exact Hperm.
        -- lia.
        -- apply Forall_app; split; [assumption|constructor; [lia|constructor]].
        -- pose proof (Forall_inv HE) as Ha. pose proof (Forall_inv_tail HE) as Hb.
           constructor; [exact (Forall_inv Hb)|].
           apply Forall_app; split; [exact (Forall_inv_tail Hb)|constructor; [exact Ha|constructor]].
        -- assumption.
        -- exists G', E', L'. split; [|split; [etransitivity; [exact Hperm|exact Hp]|exact Hrest]].
           rewrite <- Hr. rewrite !zlen_app, zlen_cons. change (zlen [u]) with 1. change (zlen [e]) with 1.
           f_equal; lia.
    + destruct (Z.ltb_spec (kb u) pivot) as [Hlt|Hge].
      * (* swap (upper-1) i *)
        destruct (exists_last (l := u :: U)) as (U' & x & HU); [discriminate|].
        assert (Hsw: exists U2, swap (G ++ (e :: E) ++ (u :: U) ++ L)
                     (zlen G + 1 + zlen E + (1 + zlen U) - 1) (zlen G + 1 + zlen E)
                   = Ok (G ++ (e :: E) ++ U2 ++ (u :: L)) /\ Permutation (u :: U) (U2 ++ [u]) /\ length U2 = length U).
        { destruct U as [|u1 U1].
          - exists []. split; [|split; [reflexivity|reflexivity]].
            cbn [app]. change (e :: E ++ u :: L) with ((e :: E) ++ u :: L). rewrite app_assoc.
            apply swap_same; rewrite zlen_app, zlen_cons; try change (zlen (@nil Z)) with 0; lia.
          - destruct (exists_last (l := u1 :: U1)) as (V & y & HV); [discriminate|].
            exists (y :: V). rewrite HV. split; [|split].
            + rewrite swap_comm.
              * replace (G ++ (e :: E) ++ (u :: V ++ [y]) ++ L) with ((G ++ e :: E) ++ u :: V ++ y :: L)
                  by (rewrite <- !app_assoc; cbn [app]; rewrite <- !app_assoc; reflexivity).
                rewrite (swap_mid (G ++ e :: E) V L u y).
                -- rewrite <- app_assoc. cbn [app]. reflexivity.
                -- zl.
                -- zl.
              * rewrite zlen_app. pose proof (zlen_nonneg V). change (zlen [y]) with 1. lia.
            + cbn [app]. change (y :: V ++ [u]) with ((y :: V) ++ [u]).
              change (u :: V ++ [y]) with ([u] ++ V ++ [y]).
              transitivity ([u] ++ y :: V).
              { apply Permutation_app_head. symmetry. apply Permutation_cons_append. }
              apply Permutation_app_comm.
            + rewrite app_length; cbn; lia. }
        destruct Hsw as (U2 & Hsw & HpU & HlU). rewrite Hsw. cbn [bind].
        assert (Hperm: Permutation (G ++ (e :: E) ++ (u :: U) ++ L) (G ++ (e :: E) ++ U2 ++ u :: L)).
        { apply Permutation_app_head, Permutation_app_head.
          change (U2 ++ u :: L) with (U2 ++ [u] ++ L). rewrite app_assoc.
          apply Permutation_app_tail. assumption. }
        destruct (IH G E U2 (u :: L) e) as (G' & E' & L' & Hr & Hp & Hrest).
        -- eapply Permutation_Forall; [|exact Hv]. exact Hperm.
        -- lia.
        -- assumption.
        -- assumption.
        -- constructor; assumption.
        -- exists G', E', L'. split; [|split; [etransitivity; [exact Hperm|exact Hp]|exact Hrest]].
           rewrite <- Hr. f_equal. unfold zlen in *. rewrite HlU. lia.
      * (* equal *)
        assert (Hperm: G ++ (e :: E) ++ (u :: U) ++ L = G ++ (e :: E ++ [u]) ++ U ++ L).
        { cbn [app]. rewrite <- app_assoc. reflexivity. }
        rewrite Hperm in *.
        destruct (IH G (E ++ [u]) U L e) as (G' & E' & L' & Hr & Hp & Hrest).
        -- assumption.
        -- lia.
        -- assumption.
        -- constructor; [exact (Forall_inv HE)|]. apply Forall_app; split; [exact (Forall_inv_tail HE)|].
           constructor; [lia|constructor].
        -- assumption.
        -- exists G', E', L'. split; [|split; assumption].
           rewrite <- Hr. rewrite zlen_app. change (zlen [u]) with 1. f_equal; lia.
Qed.

(** reverse-lexicographic order, greatest first, end of string smallest *)
Fixpoint lexge (a b : bytes) : Prop :=
  match a, b with
  | _, [] => True
  | [], _ :: _ => False
  | x :: a, y :: b => x > y \/ (x = y /\ lexge a b)
  end.

Definition kmeasure (strings : list bytes) (pos : Z) (ids : list Z) : Z :=
  fold_right (fun id n => Z.max 0 (zlen (str strings id) + 1 - pos) + 1 + n) 0 ids.
Lemma kmeasure_app strings pos a b : kmeasure strings pos (a ++ b) = kmeasure strings pos a + kmeasure strings pos b.
Proof. unfold kmeasure. induction a as [|x a IH]; cbn [app fold_right]; [lia|]. rewrite IH. lia. Qed.
Lemma kmeasure_nonneg strings pos a : zlen a <= kmeasure strings pos a.
Proof. unfold kmeasure. induction a as [|x a IH]; cbn [fold_right]; [reflexivity|]. rewrite zlen_cons. lia. Qed.
Lemma kmeasure_perm strings pos a b : Permutation a b -> kmeasure strings pos a = kmeasure strings pos b.
Proof. unfold kmeasure. induction 1; cbn [fold_right]; lia. Qed.
Lemma kmeasure_step strings pos ids : 1 <= pos ->
  Forall (fun id => key strings pos id <> []) ids ->
  kmeasure strings (pos + 1) ids = kmeasure strings pos ids - zlen ids.
Proof.
  intros Hp H. unfold kmeasure. induction H as [|x l Hx Hl IH]; cbn [fold_right]; [reflexivity|].
  rewrite zlen_cons, IH.
  assert (pos <= zlen (str strings x)).
  { destruct (Z.le_gt_cases pos (zlen (str strings x))); [assumption|]. exfalso. apply Hx.
    unfold key. apply zdrop_all. rewrite zlen_rev. lia. }
  lia.
Qed.

Lemma StronglySorted_app {A} (R : A -> A -> Prop) a b :
  StronglySorted R a -> StronglySorted R b -> (forall x y, In x a -> In y b -> R x y) -> StronglySorted R (a ++ b).
Proof.
  intros Ha Hb H. induction Ha as [|x a Ha IH Hx]; cbn [app]; [assumption|].
  constructor.
  - apply IH. intros; apply H; [right|]; assumption.
  - apply Forall_app; split; [assumption|]. apply Forall_forall. intros y Hy. apply H; [left; reflexivity|assumption].
Qed.
Lemma StronglySorted_impl_In {A} (R R' : A -> A -> Prop) l :
  (forall x y, In x l -> In y l -> R x y -> R' x y) -> StronglySorted R l -> StronglySorted R' l.
Proof.
  intros H Hs. induction Hs as [|x l Hs IH Hx]; constructor.
  - apply IH. intros; apply H; try right; assumption.
  - rewrite Forall_forall in *. intros y Hy. apply H; [left; reflexivity|right; assumption|auto].
Qed.

Lemma key_step strings pos id : 1 <= pos -> key strings pos id <> [] ->
  key strings pos id = khead (key strings pos id) :: key strings (pos + 1) id.
Proof.
  intros Hp Hne. unfold key in *. set (r := rev (str strings id)) in *.
  replace (pos + 1 - 1) with (1 + (pos - 1)) by lia. rewrite <- zdrop_zdrop by lia.
  destruct (zdrop (pos - 1) r); [congruence|]. reflexivity.
Qed.
Lemma key_bytes strings pos id : Forall str_ok strings -> valid strings id -> 1 <= pos ->
  forall b, In b (key strings pos id) -> 1 <= b.
Proof.
  intros Hs Hv Hp b Hb. unfold key in Hb.
  assert (In b (str strings id)).
  { apply in_rev. rewrite <- (ztake_zdrop (pos - 1)). apply in_or_app; right; assumption. }
  unfold str in H. destruct (zget_lt_Some strings id Hv) as [s Es]. rewrite Es in H.
  apply zget_In in Es. rewrite Forall_forall in Hs. destruct (Hs s Es) as [Hok Hn].
  unfold bytes_ok in Hok. rewrite Forall_forall in Hok. specialize (Hok b H). red in Hok.
  assert (b <> 0) by (intros ->; auto). lia.
Qed.

Lemma st_sort_spec strings : Forall str_ok strings ->
  forall fuel ids pos, 1 <= pos -> Forall (valid strings) ids ->
  kmeasure strings pos ids < Z.of_nat fuel ->
  exists r, st_sort fuel strings ids pos = Ok r /\ Permutation ids r /\
    StronglySorted (fun a b => lexge (key strings pos a) (key strings pos b)) r.
Proof.
  intros Hstr fuel. induction fuel as [|fuel IH]; intros ids pos Hpos Hv Hm.
  { pose proof (kmeasure_nonneg strings pos ids). pose proof (zlen_nonneg ids). lia. }
  cbn [st_sort]. destruct (Z.leb_spec (zlen ids) 1) as [Hle|Hgt].
  { exists ids. split; [reflexivity|]. split; [reflexivity|].
    destruct ids as [|x [|y l]]; [constructor|repeat constructor|].
    rewrite !zlen_cons in Hle. pose proof (zlen_nonneg l). lia. }
  destruct ids as [|e U]; [unfold zlen in Hgt; cbn in Hgt; lia|].
  rewrite zget_0. cbn [unwrap bind].
  assert (Hve: valid strings e) by (inversion Hv; assumption).
  rewrite st_byte_eq by assumption. cbn [bind].
  set (pivot := khead (key strings pos e)).
  destruct (part_loop_spec strings pos pivot Hpos (length (e :: U)) [] [] U [] e) as (G & E & L & Hr & Hp & HE & HG1 & HE1 & HL1).
  { cbn [app]. rewrite app_nil_r. assumption. }
  { cbn [length]; lia. }
  { constructor. }
  { constructor; [reflexivity|constructor]. }
  { constructor. }
  cbn [app] in Hr, Hp. rewrite app_nil_r in Hr, Hp.
  change (zlen (@nil Z)) with 0 in Hr.
  replace (0 + 1 + 0 + zlen U) with (zlen (e :: U)) in Hr by (rewrite zlen_cons; lia).
  change (0 + 1 + 0) with 1 in Hr.
  rewrite Hr. cbn [bind].
  rewrite ztake_app, zslice_app_eq by (try reflexivity; lia).
  replace (zlen G + zlen E) with (zlen (G ++ E)) by (rewrite zlen_app; reflexivity).
  rewrite app_assoc, zdrop_app.
  pose proof (kmeasure_perm strings pos _ _ Hp) as Hk. rewrite !kmeasure_app in Hk.
  assert (HE0: 1 <= zlen E) by (destruct E; [congruence|rewrite zlen_cons; pose proof (zlen_nonneg E); lia]).
  pose proof (kmeasure_nonneg strings pos E). pose proof (kmeasure_nonneg strings pos G). pose proof (kmeasure_nonneg strings pos L).
  pose proof (zlen_nonneg G). pose proof (zlen_nonneg L).
  assert (Hv': Forall (valid strings) (G ++ E ++ L)) by (eapply Permutation_Forall; eassumption).
  apply Forall_app in Hv' as [HvG Hv']. apply Forall_app in Hv' as [HvE HvL].
  destruct (IH G pos Hpos HvG) as (g & Hg & Hpg & Hsg); [lia|].
  destruct (IH L pos Hpos HvL) as (l & Hl & Hpl & Hsl); [lia|].
  rewrite Hg, Hl. cbn [bind].
  rewrite Forall_forall in HG1, HE1, HL1.
  assert (Hlt: forall x y, khead (key strings pos x) > khead (key strings pos y) -> valid strings x -> valid strings y ->
     lexge (key strings pos x) (key strings pos y)).
  { intros x y Hxy Hvx Hvy. pose proof (key_bytes strings pos y Hstr Hvy Hpos) as Hby.
    destruct (key strings pos x) as [|bx kx], (key strings pos y) as [|by' ky]; cbn [lexge khead] in *; auto; try lia.
    specialize (Hby by' (or_introl eq_refl)). lia. }
  rewrite Forall_forall in HvG, HvE, HvL.
  assert (Hmid: forall m, Permutation E m ->
     StronglySorted (fun a b => lexge (key strings pos a) (key strings pos b)) m ->
     Permutation (e :: U) (g ++ m ++ l) /\
     StronglySorted (fun a b => lexge (key strings pos a) (key strings pos b)) (g ++ m ++ l)).
  { intros m Hpm Hsm. split.
    - rewrite Hp. rewrite Hpg, Hpm, Hpl. reflexivity.
    - assert (Ig: forall x, In x g -> In x G) by (intros x; apply Permutation_in; symmetry; assumption).
      assert (Im: forall x, In x m -> In x E) by (intros x; apply Permutation_in; symmetry; assumption).
      assert (Il: forall x, In x l -> In x L) by (intros x; apply Permutation_in; symmetry; assumption).
      apply StronglySorted_app; [assumption|apply StronglySorted_app; [assumption|assumption|]|].
      + intros x y Hx Hy. apply Im in Hx. apply Il in Hy. apply Hlt; auto.
        specialize (HE1 _ Hx). specialize (HL1 _ Hy). lia.
      + intros x y Hx Hy. apply Ig in Hx. specialize (HG1 _ Hx). apply in_app_or in Hy as [Hy|Hy].
        * apply Im in Hy. apply Hlt; auto. specialize (HE1 _ Hy). lia.
        * apply Il in Hy. apply Hlt; auto. specialize (HL1 _ Hy). lia. }
  destruct (Z.eqb_spec pivot 0) as [Hz|Hnz].
  - exists (g ++ E ++ l). split; [reflexivity|]. apply Hmid; [reflexivity|].
    assert (Hall: forall x, In x E -> key strings pos x = []).
    { intros x Hx. specialize (HE1 x Hx). pose proof (key_bytes strings pos x Hstr (HvE x Hx) Hpos) as Hb.
      destruct (key strings pos x) as [|b k]; [reflexivity|]. cbn [khead] in HE1. specialize (Hb b (or_introl eq_refl)). lia. }
    clear - Hall. induction E as [|x E IHE]; constructor.
    + apply IHE. intros; apply Hall; right; assumption.
    + apply Forall_forall. intros y Hy. rewrite (Hall y) by (right; assumption).
      destruct (key strings pos x); exact I.
  - assert (HneE: Forall (fun id => key strings pos id <> []) E).
    { apply Forall_forall. intros x Hx Hk0. specialize (HE1 x Hx). rewrite Hk0 in HE1. cbn in HE1. lia. }
    destruct (IH E (pos + 1)) as (m & Hm' & Hpm & Hsm); [lia|apply Forall_forall; assumption|rewrite kmeasure_step by assumption; lia|].
    rewrite Hm'. cbn [bind]. exists (g ++ m ++ l). split; [reflexivity|]. apply Hmid; [assumption|].
    eapply StronglySorted_impl_In; [|exact Hsm]. intros x y Hx Hy Hxy.
    rewrite Forall_forall in HneE.
    assert (Hx': In x E) by (eapply Permutation_in; [symmetry; eassumption|assumption]).
    assert (Hy': In y E) by (eapply Permutation_in; [symmetry; eassumption|assumption]).
    rewrite (key_step strings pos x Hpos (HneE x Hx')), (key_step strings pos y Hpos (HneE y Hy')).
    rewrite (HE1 x Hx'), (HE1 y Hy'). right. auto.
Qed.

(** * suffixes *)
Lemma ends_with_spec s t : ends_with s t = true <-> suffix_of t s.
Proof.
  unfold ends_with, suffix_of. rewrite andb_true_iff, bytes_eqb_eq. split.
  - intros [H1 H2]. exists (ztake (zlen s - zlen t) s). rewrite <- H2 at 2. symmetry. apply ztake_zdrop.
  - intros [p ->]. rewrite zlen_app. pose proof (zlen_nonneg p). pose proof (zlen_nonneg t). split; [lia|].
    apply zdrop_app_eq. lia.
Qed.
Lemma suffix_trans a b c : suffix_of a b -> suffix_of b c -> suffix_of a c.
Proof. intros [p ->] [q ->]. exists (q ++ p). apply app_assoc. Qed.
Definition prefix_of (a b : bytes) : Prop := exists c, b = a ++ c.
Lemma suffix_prefix a b : suffix_of a b <-> prefix_of (rev a) (rev b).
Proof.
  split.
  - intros [p ->]. exists (rev p). apply rev_app_distr.
  - intros [c H]. exists (rev c). rewrite <- (rev_involutive b), H, rev_app_distr, rev_involutive. reflexivity.
Qed.
Lemma lexge_prefix_strict a c : lexge a (a ++ c) -> c = [].
Proof.
  induction a as [|x a IH]; cbn [app lexge].
  - destruct c; [reflexivity|contradiction].
  - intros [H|[_ H]]; [lia|auto].
Qed.
Lemma lexge_between s q t : prefix_of s t -> lexge t q -> lexge q s -> prefix_of s q.
Proof.
  intros [c ->]. revert q; induction s as [|x s IH]; intros q H1 H2; [exists q; reflexivity|].
  destruct q as [|y q]; cbn [app lexge] in *; [contradiction|].
  assert (x = y) by lia. subst y. destruct H1 as [H1|[_ H1]]; [lia|]. destruct H2 as [H2|[_ H2]]; [lia|].
  destruct (IH q H1 H2) as [d ->]. exists d. reflexivity.
Qed.

(** the strings actually written *)
Fixpoint greedy (p : bytes) (l : list bytes) : list bytes :=
  match l with
  | [] => []
  | s :: l => if ends_with p s then greedy p l else s :: greedy s l
  end.
Definition revge (a b : bytes) : Prop := lexge (rev a) (rev b).

Lemma StronglySorted_app_inv {A} (R : A -> A -> Prop) a b : StronglySorted R (a ++ b) ->
  forall x y, In x a -> In y b -> R x y.
Proof.
  induction a as [|z a IH]; cbn [app]; intros H x y Hx Hy; [contradiction|].
  inversion H as [|? ? Hs Hf]; subst. destruct Hx as [->|Hx].
  - rewrite Forall_forall in Hf. apply Hf. apply in_or_app; auto.
  - apply IH; assumption.
Qed.
Lemma StronglySorted_app_r {A} (R : A -> A -> Prop) a b : StronglySorted R (a ++ b) -> StronglySorted R b.
Proof. induction a as [|z a IH]; cbn [app]; intro H; [assumption|]. inversion H; auto. Qed.
Lemma StronglySorted_app_l {A} (R : A -> A -> Prop) a b : StronglySorted R (a ++ b) -> StronglySorted R a.
Proof.
  induction a as [|z a IH]; cbn [app]; intro H; [constructor|]. inversion H as [|? ? Hs Hf]; subst.
  constructor; [auto|]. apply Forall_app in Hf; tauto.
Qed.

Lemma greedy_spec rest : forall p done,
  StronglySorted revge (done ++ rest) -> NoDup (done ++ rest) ->
  (done = [] /\ p = []) \/ (exists d q, done = d ++ [q] /\ In p done /\ suffix_of q p) ->
  forall s, In s (greedy p rest) <->
    (In s rest /\ s <> [] /\ forall t, In t (done ++ rest) -> suffix_of s t -> t = s).
Proof.
  induction rest as [|s0 l IH]; intros p done Hs Hnd Hinv s; [cbn; tauto|].
  assert (K: ends_with p s0 = true <-> s0 = [] \/ exists t, In t (done ++ s0 :: l) /\ t <> s0 /\ suffix_of s0 t).
  { rewrite ends_with_spec. split.
    - intro Hsuf. destruct Hinv as [[-> ->]|(d & q & Hd & Hp & Hq)].
      + left. destruct Hsuf as [x Hx]. destruct x, s0; try discriminate. reflexivity.
      + right. exists p. split; [apply in_or_app; left; assumption|]. split; [|assumption].
        intros ->. apply NoDup_remove_2 in Hnd. apply Hnd. apply in_or_app; left; assumption.
    - intros [->|(t & Ht & Hne & Hsuf)]; [exists p; symmetry; apply app_nil_r|].
      apply in_app_or in Ht as [Ht|[->|Ht]]; [|congruence|].
      + destruct Hinv as [[-> ->]|(d & q & Hd & Hp & Hq)]; [contradiction|].
        eapply suffix_trans; [|exact Hq]. apply suffix_prefix.
        assert (Hqs: revge q s0).
        { eapply StronglySorted_app_inv; [exact Hs| |left; reflexivity]. subst done. apply in_or_app; right; left; reflexivity. }
        rewrite Hd in Ht. apply in_app_or in Ht as [Ht|[->|[]]]; [|apply suffix_prefix; assumption].
        assert (Htq: revge t q).
        { apply StronglySorted_app_l in Hs. rewrite Hd in Hs. eapply StronglySorted_app_inv; [exact Hs|assumption|left; reflexivity]. }
        eapply lexge_between; [apply suffix_prefix; exact Hsuf|exact Htq|exact Hqs].
      + apply StronglySorted_app_r in Hs. inversion Hs as [|? ? _ Hf]; subst. rewrite Forall_forall in Hf.
        specialize (Hf t Ht). unfold revge in Hf. apply suffix_prefix in Hsuf as [c Hc]. rewrite Hc in Hf.
        apply lexge_prefix_strict in Hf. subst c. rewrite app_nil_r in Hc.
        apply (f_equal (@rev Z)) in Hc. rewrite !rev_involutive in Hc. congruence. }
  replace (done ++ s0 :: l) with ((done ++ [s0]) ++ l) in * by (rewrite <- app_assoc; reflexivity).
  cbn [greedy]. destruct (ends_with p s0) eqn:E.
  - destruct K as [K _]. specialize (K eq_refl).
    rewrite (IH p (done ++ [s0])); [|assumption|assumption|].
    2: { right. exists done, s0. split; [reflexivity|]. apply ends_with_spec in E.
         destruct Hinv as [[-> ->]|(d & q & Hd & Hp & Hq)].
         - destruct E as [x Hx]. destruct x, s0; try discriminate. split; [left; reflexivity|exists []; reflexivity].
         - split; [apply in_or_app; left; assumption|assumption]. }
    split.
    + intros (H1 & H2 & H3). split; [right; assumption|auto].
    + intros ([->|H1] & H2 & H3); [|auto]. exfalso.
      destruct K as [->|(t & Ht & Hne & Hsuf)]; [congruence|]. apply Hne. apply H3; assumption.
  - assert (Hno: ~ (s0 = [] \/ exists t, In t ((done ++ [s0]) ++ l) /\ t <> s0 /\ suffix_of s0 t)).
    { intro H. apply K in H. congruence. }
    cbn [In]. rewrite (IH s0 (done ++ [s0])); [|assumption|assumption|].
    2: { right. exists done, s0. split; [reflexivity|]. split; [apply in_or_app; right; left; reflexivity|exists []; reflexivity]. }
    split.
    + intros [->|(H1 & H2 & H3)]; [|auto].
      split; [left; reflexivity|]. split; [tauto|]. intros t Ht Hsuf.
      destruct (bytes_eq_dec t s); [assumption|]. exfalso. apply Hno. right. eauto.
    + intros ([->|H1] & H2 & H3); auto.
Qed.
Lemma greedy_NoDup p l : NoDup l -> NoDup (greedy p l).
Proof.
  intro H. revert p; induction H as [|s l Hn Hnd IH]; intro p; cbn [greedy]; [constructor|].
  assert (Hin: forall q x, In x (greedy q l) -> In x l).
  { clear. induction l as [|s l IH]; intros q x; cbn [greedy]; [auto|].
    destruct (ends_with q s); cbn [In]; [intro; right; eauto|intros [?|?]; [auto|right; eauto]]. }
  destruct (ends_with p s); [apply IH|]. constructor; [intro H; apply Hn; eapply Hin; eassumption|apply IH].
Qed.

(** * write *)
(** [s] followed by a null byte is stored at offset [o] of [data]. *)
Definition located (data : bytes) (o : Z) (s : bytes) : Prop := exists a b, data = a ++ s ++ 0 :: b /\ zlen a = o.
Lemma located_app data o s x : located data o s -> located (data ++ x) o s.
Proof. intros (a & b & -> & H). exists a, (b ++ x). rewrite <- !app_assoc. cbn [app]. auto. Qed.

Lemma zlen_zset {A} (l : list A) i x : 0 <= i < zlen l -> zlen (zset l i x) = zlen l.
Proof. intros. unfold zset. rewrite zlen_app, zlen_cons, zlen_ztake, zlen_zdrop by lia. lia. Qed.
Lemma zget_zset {A} (l : list A) i x k : 0 <= i < zlen l ->
  zget (zset l i x) k = if k =? i then Some x else zget l k.
Proof.
  intros Hi. unfold zset. destruct (Z.eqb_spec k i) as [->|Hk].
  - apply zget_mid. rewrite zlen_ztake; lia.
  - destruct (Z.lt_ge_cases k i).
    + rewrite zget_app1 by (rewrite zlen_ztake; lia). apply zget_ztake; lia.
    + rewrite zget_app2 by (rewrite zlen_ztake; lia). rewrite zlen_ztake by lia.
      rewrite zget_S by lia. rewrite zget_zdrop by lia. f_equal. lia.
Qed.

Lemma write_loop_spec strings ids : Forall (valid strings) ids -> NoDup ids ->
  forall offset previous offsets w pre,
  (exists d0, pre ++ w = d0 ++ previous ++ [0]) \/ (previous = [] /\ ~ In [] strings) ->
  offset = zlen (pre ++ w) -> zlen offsets = zlen strings ->
  exists offsets' w',
    write_loop strings ids offset previous offsets w = Ok (offsets', w ++ w', zlen (pre ++ w ++ w')) /\
    w' = cstrings (greedy previous (map (str strings) ids)) /\
    zlen offsets' = zlen offsets /\
    (forall id, In id ids -> exists o, zget offsets' id = Some (wrap_u 32 o) /\ located (pre ++ w ++ w') o (str strings id)) /\
    (forall id, ~ In id ids -> zget offsets' id = zget offsets id).
Proof.
  intros Hv. induction Hv as [|id ids Hid Hids IH]; intros Hnd offset previous offsets w pre Hinv Hoff Hlen.
  { exists offsets, []. cbn [write_loop]. rewrite app_nil_r. subst offset. repeat split; auto. contradiction. }
  inversion Hnd as [|? ? Hni Hnd']; subst.
  cbn [write_loop]. destruct (zget_lt_Some strings id Hid) as [s Es].
  assert (Hstr: str strings id = s) by (unfold str; rewrite Es; reflexivity).
  rewrite Es. cbn [unwrap bind map greedy]. rewrite Hstr.
  destruct (ends_with previous s) eqn:E.
  - apply ends_with_spec in E as [p Hp].
    assert (exists d0, pre ++ w = d0 ++ previous ++ [0]) as [d0 Hd0].
    { destruct Hinv as [H|[-> H]]; [assumption|]. exfalso. apply H.
      destruct p, s; try discriminate. eapply zget_In; eassumption. }
    assert (Hloc: located (pre ++ w) (zlen (d0 ++ p)) s).
    { exists (d0 ++ p), []. rewrite Hd0, Hp, <- !app_assoc. auto. }
    assert (Hz: zlen (pre ++ w) - (zlen s + 1) = zlen (d0 ++ p)).
    { rewrite Hd0, Hp. zl. }
    unfold psub. pose proof (zlen_nonneg (d0 ++ p)). destruct (Z.leb_spec (zlen s + 1) (zlen (pre ++ w))); [|lia].
    cbn [bind]. rewrite Hz.
    destruct (IH Hnd' (zlen (pre ++ w)) previous (zset offsets id (wrap_u 32 (zlen (d0 ++ p)))) w pre)
      as (offsets' & w' & H1 & H2 & H3 & H4 & H5).
    { left; eauto. } { reflexivity. } { rewrite zlen_zset; [assumption|red in Hid; lia]. }
    red in Hid. exists offsets', w'. rewrite zlen_zset in H3 by lia.
    split; [assumption|]. split; [assumption|]. split; [assumption|]. split.
    + intros id' [<-|Hin]; [|auto]. exists (zlen (d0 ++ p)). rewrite H5 by assumption.
      rewrite zget_zset, Z.eqb_refl by lia. split; [reflexivity|]. rewrite Hstr.
      rewrite app_assoc. apply located_app. assumption.
    + intros id' Hn. rewrite H5 by (intro; apply Hn; right; assumption). rewrite zget_zset by lia.
      destruct (Z.eqb_spec id' id); [|reflexivity]. exfalso; apply Hn; left; auto.
  - destruct (IH Hnd' (zlen (pre ++ w) + (zlen s + 1)) s (zset offsets id (wrap_u 32 (zlen (pre ++ w)))) (w ++ s ++ [0]) pre)
      as (offsets' & w' & H1 & H2 & H3 & H4 & H5).
    { left. exists (pre ++ w). rewrite <- !app_assoc. reflexivity. }
    { zl. } { rewrite zlen_zset; [assumption|red in Hid; lia]. }
    red in Hid. exists offsets', (s ++ [0] ++ w'). rewrite zlen_zset in H3 by lia.
    split; [rewrite H1; rewrite <- !app_assoc; reflexivity|].
    split; [rewrite H2; unfold cstrings; cbn [map concat]; rewrite <- app_assoc; reflexivity|].
    split; [assumption|]. rewrite <- !app_assoc in H4. split.
    + intros id' [<-|Hin]; [|auto]. exists (zlen (pre ++ w)). rewrite H5 by assumption.
      rewrite zget_zset, Z.eqb_refl by lia. split; [reflexivity|]. rewrite Hstr.
      exists (pre ++ w), w'. rewrite <- !app_assoc. auto.
    + intros id' Hn. rewrite H5 by (intro; apply Hn; right; assumption). rewrite zget_zset by lia.
      destruct (Z.eqb_spec id' id); [|reflexivity]. exfalso; apply Hn; left; auto.
Qed.

Lemma size_loop_spec strings ids : Forall (valid strings) ids -> forall size p,
  size_loop strings ids size p = Ok (size + zlen (cstrings (greedy p (map (str strings) ids)))).
Proof.
  induction 1 as [|id ids Hid Hids IH]; intros size p; cbn [size_loop map greedy].
  { unfold cstrings; cbn. rewrite Z.add_0_r. reflexivity. }
  destruct (zget_lt_Some strings id Hid) as [s Es].
  assert (Hstr: str strings id = s) by (unfold str; rewrite Es; reflexivity).
  rewrite Es. cbn [unwrap bind]. rewrite Hstr. destruct (ends_with p s); rewrite IH; [reflexivity|].
  f_equal. unfold cstrings. cbn [map concat]. zl.
Qed.

Lemma seqZ_spec n x : In x (seqZ n) <-> 0 <= x < Z.of_nat n.
Proof.
  unfold seqZ. rewrite in_map_iff. split.
  - intros (k & <- & Hk). apply in_seq in Hk. lia.
  - intro H. exists (Z.to_nat x). split; [lia|]. apply in_seq. lia.
Qed.
Lemma seqZ_NoDup n : NoDup (seqZ n).
Proof. unfold seqZ. apply FinFun.Injective_map_NoDup; [intros a b; lia|apply seq_NoDup]. Qed.
Lemma map_str_seqZ strings : map (str strings) (seqZ (length strings)) = strings.
Proof.
  unfold seqZ. rewrite map_map. apply nth_ext with (d := str strings 0) (d' := []).
  { rewrite map_length, seq_length. reflexivity. }
  intros n Hn. rewrite map_length, seq_length in Hn.
  rewrite (map_nth (fun x => str strings (Z.of_nat x)) _ 0%nat) by idtac.
  rewrite seq_nth by assumption. cbn [Nat.add]. unfold str, zget, zlen.
  destruct ((0 <=? Z.of_nat n) && (Z.of_nat n <? Z.of_nat (length strings))) eqn:E; [|lia].
  rewrite Nat2Z.id. rewrite (nth_error_nth' strings []) by assumption. reflexivity.
Qed.

Lemma sort_fuel_ok strings : kmeasure strings 1 (seqZ (length strings)) < Z.of_nat (sort_fuel strings).
Proof.
  assert (H: forall ids, kmeasure strings 1 ids =
     fold_right (fun s n => zlen s + 1 + n) 0 (map (str strings) ids)).
  { intro ids. unfold kmeasure. induction ids as [|x l IH]; cbn [fold_right map]; [reflexivity|].
    rewrite IH. pose proof (zlen_nonneg (str strings x)). lia. }
  rewrite H, map_str_seqZ. unfold sort_fuel.
  induction strings as [|s l IH]; cbn [fold_right]; [lia|]. specialize (IH). unfold zlen in *.
  assert (IH': fold_right (fun s n => Z.of_nat (length s) + 1 + n) 0 l < Z.of_nat (S (fold_right (fun s n => (length s + 2 + n)%nat) 0%nat l))).
  { apply IH. intro ids. unfold kmeasure. induction ids as [|x l0 IH2]; cbn [fold_right map]; [reflexivity|].
    rewrite IH2. unfold zlen. lia. }
  lia.
Qed.

Lemma sort_all strings : Forall str_ok strings ->
  exists ids, st_sort (sort_fuel strings) strings (seqZ (length strings)) 1 = Ok ids /\
    Forall (valid strings) ids /\ NoDup ids /\ zlen ids = zlen strings /\
    (forall id, valid strings id -> In id ids) /\
    Permutation strings (map (str strings) ids) /\
    StronglySorted revge (map (str strings) ids).
Proof.
  intro Hs.
  assert (Hv: Forall (valid strings) (seqZ (length strings))).
  { apply Forall_forall. intros x Hx. apply seqZ_spec in Hx. exact Hx. }
  destruct (st_sort_spec strings Hs (sort_fuel strings) _ 1 ltac:(lia) Hv (sort_fuel_ok strings))
    as (r & Hr & Hp & Hsort).
  exists r. split; [assumption|].
  assert (Hvr: Forall (valid strings) r) by (eapply Permutation_Forall; eassumption).
  split; [assumption|]. split; [eapply Permutation_NoDup; [exact Hp|apply seqZ_NoDup]|].
  split. { unfold zlen. rewrite <- (Permutation_length Hp). unfold seqZ. rewrite map_length, seq_length. reflexivity. }
  split. { intros id Hid. eapply Permutation_in; [exact Hp|]. apply seqZ_spec. exact Hid. }
  split. { rewrite <- (map_str_seqZ strings) at 1. apply Permutation_map. assumption. }
  clear - Hsort. induction Hsort as [|x l Hl IH Hx]; cbn [map]; constructor; [assumption|].
  apply Forall_forall. intros y Hy. apply in_map_iff in Hy as (z & <- & Hz).
  rewrite Forall_forall in Hx. specialize (Hx z Hz). unfold key in Hx. exact Hx.
Qed.

Lemma has_null_false s : has_null s = false <-> ~ In 0 s.
Proof.
  unfold has_null. split.
  - intros H Hin. assert (existsb (fun b => b =? 0) s = true); [|congruence].
    apply existsb_exists. exists 0. auto.
  - intros H. destruct (existsb (fun b => b =? 0) s) eqn:E; [|reflexivity]. exfalso.
    apply existsb_exists in E as (x & Hx & E). apply Z.eqb_eq in E. subst. auto.
Qed.
Lemma no_nulls l : Forall str_ok l -> existsb has_null l = false.
Proof.
  intro H. destruct (existsb has_null l) eqn:E; [|reflexivity]. exfalso.
  apply existsb_exists in E as (s & Hs & E). rewrite Forall_forall in H. destruct (H s Hs) as [_ Hn].
  apply has_null_false in Hn. congruence.
Qed.

(** * tables built by adds *)
Fixpoint offs (base : Z) (l : list bytes) : list Z :=
  match l with [] => [] | s :: l => wrap_u 32 base :: offs (base + (zlen s + 1)) l end.
Lemma offs_app base a b : offs base (a ++ b) = offs base a ++ offs (base + zlen (cstrings a)) b.
Proof.
  revert base; induction a as [|s a IH]; intro base; cbn [app offs].
  - unfold cstrings; cbn. rewrite Z.add_0_r. reflexivity.
  - rewrite IH. unfold cstrings. cbn [map concat]. do 3 f_equal. zl.
Qed.
Record tinv (t : strtab) : Prop := {
  ti_nodup : NoDup (st_strings t);
  ti_ok : Forall str_ok (st_strings t);
  ti_merge : st_in_order t = false -> st_offsets t = [];
  ti_order : st_in_order t = true ->
     st_offsets t = offs (st_base t) (st_strings t) /\
     st_size t = st_base t + zlen (cstrings (st_strings t))
}.
Lemma index_of_Some s l i : index_of s l = Some i -> zget l i = Some s.
Proof.
  revert i; induction l as [|x l IH]; intros i; cbn [index_of]; [discriminate|].
  destruct (bytes_eqb s x) eqn:E.
  - apply bytes_eqb_eq in E. intro H; inversion H; subst. apply zget_0.
  - destruct (index_of s l) as [j|]; [|discriminate]. intro H; inversion H; subst.
    specialize (IH j eq_refl). apply zget_Some_lt in IH as Hj. rewrite zget_S by lia.
    replace (j + 1 - 1) with j by lia. assumption.
Qed.
Lemma index_of_None s l : index_of s l = None <-> ~ In s l.
Proof.
  induction l as [|x l IH]; cbn [index_of In]; [tauto|].
  destruct (bytes_eqb s x) eqn:E.
  - apply bytes_eqb_eq in E. split; [discriminate|]. intro H; exfalso; apply H; left; congruence.
  - apply bytes_eqb_neq in E. destruct (index_of s l); split; intros H; try discriminate.
    + exfalso. apply H. right. destruct IH as [_ IH]. destruct (in_dec bytes_eq_dec s l); [assumption|].
      specialize (IH n). discriminate.
    + intros [->|Hin]; [congruence|]. apply IH in Hin; [assumption|reflexivity].
    + reflexivity.
Qed.
Lemma NoDup_zget {A} (l : list A) i j x : NoDup l -> zget l i = Some x -> zget l j = Some x -> i = j.
Proof.
  intros H Hi Hj. apply zget_Some_lt in Hi as Bi. apply zget_Some_lt in Hj as Bj.
  unfold zget in *. destruct (_ && _) in Hi; [|discriminate]. destruct (_ && _) in Hj; [|discriminate].
  rewrite NoDup_nth_error in H. apply Z2Nat.inj; try lia. apply H; [apply nth_error_Some; congruence|congruence].
Qed.
Lemma index_of_NoDup s l i : NoDup l -> zget l i = Some s -> index_of s l = Some i.
Proof.
  intros H Hi. destruct (index_of s l) as [j|] eqn:E.
  - apply index_of_Some in E. f_equal. eapply NoDup_zget; eassumption.
  - apply index_of_None in E. apply zget_In in Hi. contradiction.
Qed.

Lemma st_add_spec t s : tinv t -> str_ok s -> zlen (st_strings t) < 2 ^ 32 ->
  exists id t', st_add t s = (Ok id, t') /\ tinv t' /\
    (exists extra, st_strings t' = st_strings t ++ extra /\ (extra = [] /\ In s (st_strings t) \/ extra = [s])) /\
    zget (st_strings t') id = Some s /\ 0 <= id < 2 ^ 32 /\
    st_in_order t' = st_in_order t /\ st_base t' = st_base t.
Proof.
  intros [H1 H2 H3 H4] Hs Hlen. unfold st_add.
  assert (Hg: (st_in_order t || match st_offsets t with [] => true | _ => false end) = true).
  { destruct (st_in_order t); [reflexivity|]. rewrite H3 by reflexivity. reflexivity. }
  rewrite Hg. cbn [negb].
  destruct Hs as [Hb Hn]. rewrite (proj2 (has_null_false s) Hn). unfold insert_full.
  pose proof (zlen_nonneg (st_strings t)).
  destruct (index_of s (st_strings t)) as [i|] eqn:E.
  - apply index_of_Some in E. apply zget_Some_lt in E as Hi.
    cbn [andb]. eexists _, _. split; [reflexivity|]. cbn [st_strings st_in_order st_base].
    unfold wrap_u. rewrite Z.mod_small by lia.
    split; [split; assumption|]. split; [exists []; rewrite app_nil_r; split; [reflexivity|left; split; [reflexivity|eapply zget_In; eassumption]]|].
    repeat split; try assumption; lia.
  - apply index_of_None in E. cbn [andb].
    assert (Hnd: NoDup (st_strings t ++ [s])).
    { eapply Permutation_NoDup; [apply Permutation_cons_append|]. constructor; assumption. }
    assert (Hok: Forall str_ok (st_strings t ++ [s])).
    { apply Forall_app; split; [assumption|constructor; [split; assumption|constructor]]. }
    assert (Hw: wrap_u 32 (zlen (st_strings t)) = zlen (st_strings t)) by (unfold wrap_u; apply Z.mod_small; lia).
    destruct (st_in_order t) eqn:Eo; eexists _, _; (split; [reflexivity|]); cbn [st_strings st_in_order st_base st_size st_offsets];
      rewrite Hw.
    + split; [split; cbn [st_strings st_in_order st_base st_size st_offsets]; try assumption; try discriminate|].
      { intros _. destruct (H4 eq_refl) as [Ha Hc]. rewrite offs_app, Ha. cbn [offs]. rewrite Hc. unfold wrap_u. split; [reflexivity|].
        unfold cstrings. rewrite map_app, concat_app. cbn [map concat]. zl. }
      split; [exists [s]; split; [reflexivity|right; reflexivity]|].
      split; [apply zget_mid; reflexivity|]. repeat split; lia.
    + split; [split; cbn [st_strings st_in_order st_base st_size st_offsets]; try assumption; try congruence; auto|].
      split; [exists [s]; split; [reflexivity|right; reflexivity]|].
      split; [apply zget_mid; reflexivity|]. repeat split; lia.
Qed.

Lemma zget_app_pre {A} (a b : list A) i x : zget a i = Some x -> zget (a ++ b) i = Some x.
Proof. intro H. apply zget_Some_lt in H as Hi. rewrite zget_app1 by lia. assumption. Qed.

Lemma adds_spec l : forall t, tinv t -> Forall str_ok l -> zlen (st_strings t) + zlen l <= 2 ^ 32 ->
  exists ids t', adds t l = (Ok ids, t') /\ tinv t' /\
    (exists extra, st_strings t' = st_strings t ++ extra) /\
    (forall s, In s (st_strings t') <-> In s (st_strings t) \/ In s l) /\
    Forall2 (fun s id => zget (st_strings t') id = Some s /\ 0 <= id < 2 ^ 32) l ids /\
    st_in_order t' = st_in_order t /\ st_base t' = st_base t /\
    zlen (st_strings t') <= zlen (st_strings t) + zlen l.
Proof.
  induction l as [|s l IH]; intros t Ht Hl Hlen; cbn [adds].
  { exists [], t. split; [reflexivity|]. split; [assumption|]. split; [exists []; symmetry; apply app_nil_r|].
    split; [cbn; tauto|]. split; [constructor|]. repeat split. change (zlen (@nil (list Z))) with 0. lia. }
  inversion Hl as [|? ? Hs Hl']; subst. rewrite zlen_cons in Hlen. pose proof (zlen_nonneg l).
  destruct (st_add_spec t s Ht Hs) as (id & t1 & E & Ht1 & (ex1 & Hex1 & Hcase) & Hg & Hid & Ho & Hb); [lia|].
  rewrite E.
  assert (Hl1: zlen (st_strings t1) <= zlen (st_strings t) + 1).
  { rewrite Hex1, zlen_app. destruct Hcase as [[-> _]| ->]; unfold zlen; cbn [length]; lia. }
  destruct (IH t1 Ht1 Hl') as (ids & t2 & E2 & Ht2 & (ex2 & Hex2) & Hin & HF & Ho2 & Hb2 & Hl2); [lia|].
  rewrite E2. exists (id :: ids), t2. split; [reflexivity|]. split; [assumption|].
  split; [exists (ex1 ++ ex2); rewrite Hex2, Hex1, app_assoc; reflexivity|].
  split.
  { intro x. rewrite Hin, Hex1. rewrite in_app_iff. cbn [In]. destruct Hcase as [[-> Hs']| ->]; cbn [In].
    - split; [tauto|]. intros [?|[->|?]]; tauto.
    - tauto. }
  split; [constructor; [|assumption]; split; [rewrite Hex2; apply zget_app_pre; assumption|assumption]|].
  split; [congruence|]. split; [congruence|]. rewrite zlen_cons. lia.
Qed.
Lemma tinv_new : tinv st_new.
Proof. split; cbn; [constructor|constructor|reflexivity|discriminate]. Qed.
Lemma tinv_new_in_order b : tinv (st_new_in_order b).
Proof. split; cbn; [constructor|constructor|discriminate|]. intros _. split; [reflexivity|]. lia. Qed.

Lemma located_get hdr tab rest o s : located tab o s -> ~ In 0 s -> 0 <= o -> zlen hdr + o < 2 ^ 64 ->
  strtab_get (Some (hdr ++ tab ++ rest)) (zlen hdr) (zlen hdr + zlen tab) o = Ok s.
Proof.
  intros (a & b & -> & Ha) Hn Ho Hlt. unfold strtab_get, cadd.
  destruct (Z.ltb_spec (zlen hdr + o) (2 ^ 64)); [|lia]. cbn [of_opt bind].
  replace (hdr ++ (a ++ s ++ 0 :: b) ++ rest) with ((hdr ++ a) ++ s ++ 0 :: b ++ rest)
    by (rewrite <- !app_assoc; cbn [app]; reflexivity).
  pose proof (zlen_nonneg s). pose proof (zlen_nonneg b). pose proof (zlen_nonneg rest). pose proof (zlen_nonneg hdr).
  apply rr_until_Ok; [pose proof (zlen_nonneg hdr); lia|].
  zl_norm. repeat split; try lia; try assumption.
  - rewrite zslice_app_eq; [reflexivity|zl|reflexivity].
  - rewrite app_assoc. apply zget_mid. zl.
Qed.

Lemma located_bound tab o s : located tab o s -> 0 <= o /\ o + zlen s + 1 <= zlen tab.
Proof.
  intros (a & b & -> & <-). zl_norm. pose proof (zlen_nonneg a). pose proof (zlen_nonneg b). lia.
Qed.

(** the table after adding [l], for either kind *)
Lemma write_merge t pre : tinv t -> st_in_order t = false ->
  ((exists d, pre = d ++ [0]) \/ ~ In [] (st_strings t)) ->
  exists ws w t',
    st_write t (zlen pre) =
      (if zlen pre + zlen w <? 2 ^ 32 then Ok (zlen pre + zlen w) else Err, w, t') /\
    w = cstrings ws /\ NoDup ws /\ (forall s, In s ws <-> maximal (st_strings t) s) /\
    st_strings t' = st_strings t /\ st_table_size t (zlen pre) = Ok (zlen pre + zlen w) /\
    zlen (st_offsets t') = zlen (st_strings t) /\ st_in_order t' = false /\
    (zlen pre + zlen w < 2 ^ 32 ->
     forall id s, zget (st_strings t) id = Some s ->
       exists off, zget (st_offsets t') id = Some off /\ 0 <= off < 2 ^ 32 /\ located (pre ++ w) off s).
Proof.
  intros [H1 H2 H3 H4] Hio Hpre. unfold st_write, st_table_size. rewrite Hio, (H3 Hio), (no_nulls _ H2). cbn [negb andb].
  destruct (sort_all (st_strings t) H2) as (ids & Hs & Hv & Hnd & Hlen & Hall & Hperm & Hsorted).
  rewrite Hs. cbn [bind].
  destruct (write_loop_spec (st_strings t) ids Hv Hnd (zlen pre) [] (zeros (zlen ids)) [] pre)
    as (offsets' & w & E & Hw & Hlo & Hloc & _).
  { destruct Hpre as [(d & ->)|Hne]; [left; exists d; rewrite app_nil_r; reflexivity|right; auto]. }
  { rewrite app_nil_r. reflexivity. }
  { rewrite zlen_zeros; [assumption|apply zlen_nonneg]. }
  cbn [app] in E, Hloc. rewrite E.
  exists (greedy [] (map (str (st_strings t)) ids)), w. eexists. split; [|split; [|split; [|split; [|split; [|split; [|split; [|split]]]]]]].
  - rewrite zlen_app. reflexivity.
  - exact Hw.
  - apply greedy_NoDup. eapply Permutation_NoDup; eassumption.
  - intro s. rewrite (greedy_spec _ [] []); [|assumption|cbn [app]; eapply Permutation_NoDup; eassumption|left; auto].
    cbn [app]. unfold maximal.
    assert (Hi: forall x, In x (map (str (st_strings t)) ids) <-> In x (st_strings t)).
    { intro x; split; apply Permutation_in; [symmetry|]; assumption. }
    rewrite Hi. split; intros (A & B & C); (split; [assumption|split; [assumption|]]); intros x Hx; apply C; apply Hi; assumption.
  - reflexivity.
  - rewrite size_loop_spec by assumption. rewrite <- Hw. reflexivity.
  - cbn [st_offsets]. rewrite Hlo, zlen_zeros; [assumption|apply zlen_nonneg].
  - cbn [st_in_order]. reflexivity.
  - cbn [st_offsets]. intros Hsmall id s Hg. apply zget_Some_lt in Hg as Hid.
    destruct (Hloc id) as (o & Ho & Hl); [apply Hall; exact Hid|].
    assert (Hst: str (st_strings t) id = s) by (unfold str; rewrite Hg; reflexivity). rewrite Hst in Hl.
    apply located_bound in Hl as Hb. rewrite zlen_app in Hb. pose proof (zlen_nonneg s).
    exists o. unfold wrap_u in Ho. rewrite Z.mod_small in Ho by lia. split; [assumption|]. split; [lia|assumption].
Qed.

Lemma located_cstrings l : forall id s pre, zget l id = Some s ->
  exists o, zget (offs (zlen pre) l) id = Some (wrap_u 32 o) /\ located (pre ++ cstrings l) o s.
Proof.
  induction l as [|x l IH]; intros id s pre Hg; apply zget_Some_lt in Hg as Hi.
  { unfold zlen in Hi; cbn in Hi; lia. }
  cbn [offs]. unfold cstrings. cbn [map concat]. destruct (Z.eq_dec id 0) as [->|Hne].
  - rewrite zget_0 in *. inversion Hg; subst. exists (zlen pre). split; [reflexivity|].
    exists pre, (concat (map (fun s => s ++ [0]) l)). rewrite <- app_assoc. auto.
  - rewrite zget_S in Hg by lia. rewrite zget_S by lia. destruct (IH (id - 1) s (pre ++ x ++ [0]) Hg) as (o & Ho & Hl).
    exists o. split.
    + rewrite <- Ho. do 2 f_equal. zl.
    + rewrite <- !app_assoc in *. exact Hl.
Qed.

Lemma write_in_order t pre : tinv t -> st_in_order t = true -> st_base t = zlen pre ->
  let w := cstrings (st_strings t) in
  st_write t (zlen pre) = (if zlen pre + zlen w <? 2 ^ 32 then Ok (zlen pre + zlen w) else Err, w, t) /\
  st_table_size t (zlen pre) = Ok (zlen pre + zlen w) /\
  (zlen pre + zlen w < 2 ^ 32 ->
     forall id s, zget (st_strings t) id = Some s ->
       exists off, zget (st_offsets t) id = Some off /\ 0 <= off < 2 ^ 32 /\ located (pre ++ w) off s).
Proof.
  intros [H1 H2 H3 H4] Hio Hb w. destruct (H4 Hio) as [Ho Hsz].
  unfold st_write, st_table_size. rewrite Hio, (no_nulls _ H2). cbn [negb andb]. rewrite Hb, Z.eqb_refl.
  rewrite Hsz, Hb. split; [reflexivity|]. split; [reflexivity|].
  intros Hsmall id s Hg. rewrite Ho, Hb.
  destruct (located_cstrings (st_strings t) id s pre Hg) as (o & Hoo & Hl).
  apply located_bound in Hl as Hbd. fold w in Hl. rewrite zlen_app in Hbd. fold w in Hbd. pose proof (zlen_nonneg s).
  exists o. unfold wrap_u in Hoo. rewrite Z.mod_small in Hoo by lia. split; [assumption|]. split; [lia|assumption].
Qed.

(** user-level statements *)

Lemma Forall2_impl_In {A B} (P Q : A -> B -> Prop) l m :
  (forall x y, In x l -> P x y -> Q x y) -> Forall2 P l m -> Forall2 Q l m.
Proof.
  intros H HF. induction HF as [|x y l m Hxy HF IH]; constructor; [apply H; [left; reflexivity|assumption]|].
  apply IH. intros; apply H; [right|]; assumption.
Qed.

Lemma merge_resolves l pre : Forall str_ok l -> zlen l <= 2 ^ 32 ->
  (exists d, pre = d ++ [0]) \/ ~ In [] l ->
  exists ids t res w t',
    adds st_new l = (Ok ids, t) /\ st_write t (zlen pre) = (res, w, t') /\
    res = (if zlen pre + zlen w <? 2 ^ 32 then Ok (zlen pre + zlen w) else Err) /\
    (res <> Err -> Forall2 (resolves t' (pre ++ w)) l ids).
Proof.
  intros Hl Hlen Hpre.
  destruct (adds_spec l st_new tinv_new Hl) as (ids & t & E & Ht & _ & Hin & HF & Ho & Hb & _).
  { change (zlen (st_strings st_new)) with 0. lia. }
  destruct (write_merge t pre Ht) as (ws & w & t' & Ew & _ & _ & _ & Hst & _ & _ & _ & Hloc).
  { rewrite Ho; reflexivity. }
  { destruct Hpre as [?|Hne]; [auto|]. right. intro H. apply Hin in H as [[]|H]. auto. }
  exists ids, t. eexists _, w, t'. split; [assumption|]. split; [exact Ew|]. split; [reflexivity|].
  intro Hres. destruct (Z.ltb_spec (zlen pre + zlen w) (2 ^ 32)); [|congruence].
  eapply Forall2_impl_In; [|exact HF]. intros s id Hs [Hg Hid]. cbn beta.
  destruct (Hloc H id s Hg) as (off & Hoff & Hr & Hlo). exists off.
  unfold st_get_offset. rewrite Hoff. split; [reflexivity|]. intros hdr rest Hlt.
  apply located_get; [assumption| |lia|apply located_bound in Hlo; pose proof (zlen_nonneg s); lia].
  rewrite Forall_forall in Hl. apply Hl. assumption.
Qed.
Lemma in_order_resolves l pre : Forall str_ok l -> zlen l <= 2 ^ 32 ->
  exists ids t res w t',
    adds (st_new_in_order (zlen pre)) l = (Ok ids, t) /\ st_write t (zlen pre) = (res, w, t') /\
    res = (if zlen pre + zlen w <? 2 ^ 32 then Ok (zlen pre + zlen w) else Err) /\
    (forall id, st_get_offset t' id = st_get_offset t id) /\
    (res <> Err -> Forall2 (resolves t' (pre ++ w)) l ids).
Proof.
  intros Hl Hlen.
  destruct (adds_spec l (st_new_in_order (zlen pre)) (tinv_new_in_order _) Hl) as (ids & t & E & Ht & _ & Hin & HF & Ho & Hb & _).
  { change (zlen (st_strings (st_new_in_order (zlen pre)))) with 0. lia. }
  destruct (write_in_order t pre Ht) as (Ew & _ & Hloc).
  { rewrite Ho; reflexivity. } { rewrite Hb; reflexivity. }
  exists ids, t. eexists _, (cstrings (st_strings t)), t. split; [assumption|]. split; [exact Ew|]. split; [reflexivity|].
  split; [reflexivity|].
  intro Hres. destruct (Z.ltb_spec (zlen pre + zlen (cstrings (st_strings t))) (2 ^ 32)); [|congruence].
  eapply Forall2_impl_In; [|exact HF]. intros s id Hs [Hg Hid]. cbn beta.
  destruct (Hloc H id s Hg) as (off & Hoff & Hr & Hlo). exists off.
  unfold st_get_offset. rewrite Hoff. split; [reflexivity|]. intros hdr rest Hlt.
  apply located_get; [assumption| |lia|apply located_bound in Hlo; pose proof (zlen_nonneg s); lia].
  rewrite Forall_forall in Hl. apply Hl. assumption.
Qed.

Lemma maximal_ext l l' s : (forall x, In x l <-> In x l') -> maximal l s <-> maximal l' s.
Proof.
  intro H. unfold maximal. rewrite H. split; intros (A & B & C); (split; [assumption|split; [assumption|]]);
    intros x Hx; apply C; apply H; assumption.
Qed.
Lemma merge_minimal l pre : Forall str_ok l -> zlen l <= 2 ^ 32 -> (exists d, pre = d ++ [0]) \/ ~ In [] l ->
  exists ids t res ws t',
    adds st_new l = (Ok ids, t) /\ st_write t (zlen pre) = (res, cstrings ws, t') /\
    NoDup ws /\ (forall s, In s ws <-> maximal l s) /\
    st_table_size t (zlen pre) = Ok (zlen pre + zlen (cstrings ws)) /\
    (forall n, res = Ok n -> st_table_size t (zlen pre) = Ok n).
Proof.
  intros Hl Hlen Hpre.
  destruct (adds_spec l st_new tinv_new Hl) as (ids & t & E & Ht & _ & Hin & HF & Ho & Hb & _).
  { change (zlen (st_strings st_new)) with 0. lia. }
  destruct (write_merge t pre Ht) as (ws & w & t' & Ew & Hw & Hnd & Hmax & Hst & Hsz & _ & _ & Hloc).
  { rewrite Ho; reflexivity. }
  { destruct Hpre as [?|Hne]; [auto|]. right. intro H. apply Hin in H as [[]|H]. auto. }
  subst w. exists ids, t. eexists _, ws, t'. split; [assumption|]. split; [exact Ew|]. split; [assumption|].
  split.
  { intro s. rewrite Hmax. apply maximal_ext. intro x. rewrite Hin. cbn. tauto. }
  split; [assumption|]. intros n Hn. rewrite Hsz. destruct (_ <? _) in Hn; congruence.
Qed.
Lemma merge_write_once l pre : Forall str_ok l -> l <> [] -> zlen l <= 2 ^ 32 -> (exists d, pre = d ++ [0]) \/ ~ In [] l ->
  forall ids t res w t', adds st_new l = (Ok ids, t) -> st_write t (zlen pre) = (res, w, t') ->
  forall base, st_write t' base = (Err, [], t').
Proof.
  intros Hl Hne Hlen Hpre ids t res w t' E Ew base.
  destruct (adds_spec l st_new tinv_new Hl) as (ids2 & t2 & E2 & Ht & _ & Hin & HF & Ho & Hb & _).
  { change (zlen (st_strings st_new)) with 0. lia. }
  rewrite E in E2; inversion E2; subst ids2 t2.
  destruct (write_merge t pre Ht) as (ws & w2 & t2 & Ew2 & Hw & Hnd & Hmax & Hst & Hsz & Hof & Hio & Hloc).
  { rewrite Ho; reflexivity. }
  { destruct Hpre as [?|Hn]; [auto|]. right. intro H. apply Hin in H as [[]|H]. auto. }
  rewrite Ew in Ew2. inversion Ew2; subst t2 w2. unfold st_write. rewrite Hio. cbn [negb andb].
  destruct (st_offsets t') eqn:Eo; [|reflexivity]. exfalso.
  destruct l as [|s l]; [congruence|]. assert (In s (st_strings t)) by (apply Hin; right; left; reflexivity).
  destruct (st_strings t); [contradiction|]. rewrite zlen_cons in Hof. change (zlen (@nil Z)) with 0 in Hof.
  pose proof (zlen_nonneg l1). lia.
Qed.

Lemma ids_stable t0 l l' : (t0 = st_new \/ exists b, t0 = st_new_in_order b) ->
  Forall str_ok (l ++ l') -> zlen (l ++ l') <= 2 ^ 32 ->
  exists ids ids' t t',
    adds t0 l = (Ok ids, t) /\ adds t0 (l ++ l') = (Ok (ids ++ ids'), t') /\
    Forall2 (fun s id => st_get_string t' id = Ok s /\ st_get_id t' s = Ok id /\ 0 <= id < zlen (st_strings t')) (l ++ l') (ids ++ ids') /\
    NoDup (st_strings t') /\ (forall s, In s (st_strings t') <-> In s (l ++ l')).
Proof.
  intros Ht0 Hl Hlen.
  assert (Hti: tinv t0) by (destruct Ht0 as [->|[b ->]]; [apply tinv_new|apply tinv_new_in_order]).
  assert (Hz: st_strings t0 = []) by (destruct Ht0 as [->|[b ->]]; reflexivity).
  rewrite zlen_app in Hlen. pose proof (zlen_nonneg l'). apply Forall_app in Hl as [Hl1 Hl2].
  destruct (adds_spec l t0 Hti Hl1) as (ids & t & E & Ht & _ & Hin & HF & Ho & Hb & Hlt).
  { rewrite Hz. change (zlen (@nil (list Z))) with 0. lia. }
  destruct (adds_spec l' t Ht Hl2) as (ids' & t' & E' & Ht' & (ex & Hex) & Hin' & HF' & Ho' & Hb' & _).
  { rewrite Hz in Hlt. change (zlen (@nil (list Z))) with 0 in Hlt. lia. }
  exists ids, ids', t, t'. split; [assumption|]. split.
  { clear - E E'. revert t0 t ids E E'. induction l as [|s l IH]; intros t0 t ids E E'; cbn [app adds] in *.
    - inversion E; subst. rewrite E'. reflexivity.
    - destruct (st_add t0 s) as [[id| |] t1]; try discriminate.
      destruct (adds t1 l) as [[ids1| |] t2] eqn:E1; try discriminate. inversion E; subst.
      rewrite (IH _ _ _ E1 E'). reflexivity. }
  split.
  { apply Forall2_app; (eapply Forall2_impl_In; [|eassumption]); intros s id _ [Hg Hid]; cbn beta.
    - assert (Hg': zget (st_strings t') id = Some s) by (rewrite Hex; apply zget_app_pre; assumption).
      unfold st_get_string, st_get_id. rewrite Hg'. apply zget_Some_lt in Hg' as Hb1.
      apply index_of_NoDup in Hg'; [|apply Ht']. rewrite Hg'. unfold wrap_u. rewrite Z.mod_small by lia.
      repeat split; lia.
    - unfold st_get_string, st_get_id. rewrite Hg. apply zget_Some_lt in Hg as Hb1.
      apply index_of_NoDup in Hg; [|apply Ht']. rewrite Hg. unfold wrap_u. rewrite Z.mod_small by lia.
      repeat split; lia. }
  split; [apply Ht'|]. intro s. rewrite Hin', Hin, Hz, in_app_iff. cbn. tauto.
Qed.
Lemma ids_equal_iff t0 l i j s s' id id' t ids : (t0 = st_new \/ exists b, t0 = st_new_in_order b) ->
  Forall str_ok l -> zlen l <= 2 ^ 32 -> adds t0 l = (Ok ids, t) ->
  zget l i = Some s -> zget l j = Some s' -> zget ids i = Some id -> zget ids j = Some id' ->
  (id = id' <-> s = s').
Proof.
  intros Ht0 Hl Hlen E Hi Hj Hi' Hj'.
  destruct (ids_stable t0 l [] Ht0) as (ids2 & ids3 & t2 & t3 & E2 & E3 & HF & _).
  { rewrite app_nil_r; assumption. } { rewrite app_nil_r; assumption. }
  rewrite app_nil_r in *. rewrite E in E2, E3. inversion E2; subst ids2 t2. inversion E3 as [[E4 E5]]. subst t3.
  rewrite <- E4 in HF.
  assert (Hget: forall i s id, zget l i = Some s -> zget ids i = Some id -> st_get_string t id = Ok s /\ st_get_id t s = Ok id).
  { clear - HF. intros i s id. revert i. induction HF as [|x y l ids [Ha [Hb _]] HF IH]; intros i Hg Hg'.
    - apply zget_Some_lt in Hg. unfold zlen in Hg; cbn in Hg; lia.
    - destruct (Z.eq_dec i 0) as [->|]; [rewrite zget_0 in *; inversion Hg; inversion Hg'; subst; auto|].
      apply zget_Some_lt in Hg as Hi. rewrite zget_S in Hg by lia. rewrite zget_S in Hg' by lia. eauto. }
  destruct (Hget _ _ _ Hi Hi') as [A B]. destruct (Hget _ _ _ Hj Hj') as [C D].
  split; intros ->; congruence.
Qed.
