(** Proofs about the Mach-O reader: the object map, indirect symbols, UUID and entry point. *)
From Verif Require Import Base Core_proofs Util_proofs Pod_proofs File_proofs Hash_proofs Rel_proofs Ar_proofs Trie_proofs Coff_spec CoffR_proofs CoffI_proofs Elf_proofs.
From Verif Require Import Mach_spec Mach_proofs MachF_proofs MachP_proofs MachQ_proofs.
From Verif Require PeI_proofs.

(** * Object map *)
Lemma snoc_split {A} (pre : list A) n a x b : pre ++ [n] = a ++ x :: b -> (b = [] /\ x = n /\ a = pre) \/ exists b', b = b' ++ [n] /\ pre = a ++ x :: b'.
Proof.
  intros E. destruct b as [|y b _] using rev_ind.
  - left. apply app_inj_tail in E as (-> & ->). auto.
  - right. exists b. rewrite app_comm_cons, app_assoc in E. apply app_inj_tail in E as (-> & ->). auto.
Qed.
Lemma oso_iff name f : oso_split name = f <-> object_file name f.
Proof.
  assert (S : object_file name (oso_split name)).
  { unfold object_file, oso_split. destruct (rev name) as [|c rh] eqn:E.
    - right. split; [|reflexivity]. intros p m Q. apply (f_equal (@rev Z)) in Q. rewrite E, !rev_app_distr in Q. destruct (rev m), (rev p); discriminate Q.
    - assert (En : name = rev rh ++ [c]) by (rewrite <- (rev_involutive name), E; reflexivity).
      assert (NO : c <> 41 \/ ~ In 40 (rev rh) -> forall p m, name <> p ++ str "(" ++ m ++ str ")").
      { intros H p m Q. rewrite En in Q. change (str "(") with [40] in Q. change (str ")") with [41] in Q. rewrite !app_assoc in Q. apply app_inj_tail in Q as (Q1 & Q2). destruct H as [H|H]; [congruence|].
        apply H. rewrite Q1. rewrite !in_app_iff. left. right. left. reflexivity. }
      destruct (Z.eq_dec c 41) as [->|Hc].
      + destruct (memchr 40 (rev rh)) as [i|] eqn:M.
        * left. apply memchr_Some in M as (_ & M & Hn). exists (zdrop 1 (zdrop i (rev rh))). cbn [of_path of_member]. split; [|split; [exact Hn|reflexivity]].
          rewrite (zdrop_cons _ _ _ M). rewrite En at 1. rewrite <- (ztake_zdrop i (rev rh)) at 1. rewrite (zdrop_cons _ _ _ M), <- app_assoc. reflexivity.
        * right. split; [|reflexivity]. apply NO. right. apply memchr_None. exact M.
      + assert (Ed : (match c with 41 => match memchr 40 (rev rh) with Some i => {| of_path := ztake i (rev rh); of_member := Some (zdrop 1 (zdrop i (rev rh))) |} | None => {| of_path := name; of_member := None |} end | _ => {| of_path := name; of_member := None |} end) = {| of_path := name; of_member := None |}).
        { destruct c as [|c|c]; try reflexivity. repeat (destruct c as [c|c|]; try reflexivity). congruence. }
        cbv zeta. rewrite Ed. right. split; [|reflexivity]. apply NO. left. exact Hc. }
  split; [intros <-; exact S|].
  assert (U : forall g1 g2, object_file name g1 -> object_file name g2 -> g1 = g2).
  { intros [p1 m1] [p2 m2] H1 H2. unfold object_file in *. cbn [of_path of_member] in *.
    destruct H1 as [(x1 & E1 & N1 & ->)|(N1 & E1)], H2 as [(x2 & E2 & N2 & ->)|(N2 & E2)].
    - rewrite E1 in E2. change (str "(") with [40] in E2. cbn [app] in E2.
      assert (P : p1 = p2).
      { apply (f_equal (memchr 40)) in E2 as M. rewrite !memchr_app in M by assumption. apply (f_equal (ztake (zlen p1))) in E2. injection M as M. rewrite M in E2 at 2. rewrite !ztake_app_eq in E2 by reflexivity. exact E2. }
      subst p2. apply app_inv_head in E2. assert (E3 : x1 ++ str ")" = x2 ++ str ")") by congruence. apply app_inv_tail in E3. subst. reflexivity.
    - exfalso. apply (N2 _ _ E1).
    - exfalso. apply (N1 _ _ E2).
    - congruence. }
  intros H. apply U; [exact S|exact H].
Qed.
Section Map.
Context (t : msymtab).
Lemma start_fun n a b : object_start t n a -> object_start t n b -> a = b.
Proof. intros (_ & A & _) (_ & B & _). unfold sym_name in *. congruence. Qed.
Lemma files_snoc_take l r n name f : object_files t l r -> object_start t n name -> object_file name f -> object_files t (l ++ [n]) (r ++ [f]).
Proof. induction 1; intros HS HF; cbn [app]; [eapply ofs_take; [exact HS|exact HF|constructor]|eapply ofs_take; eauto|apply ofs_skip; auto]. Qed.
Lemma files_snoc_skip l r n : object_files t l r -> (forall name, ~ object_start t n name) -> object_files t (l ++ [n]) r.
Proof. induction 1; intros HS; cbn [app]; [apply ofs_skip; [exact HS|constructor]|eapply ofs_take; eauto|apply ofs_skip; auto]. Qed.
Lemma files_fun l r : object_files t l r -> forall r', object_files t l r' -> r = r'.
Proof.
  induction 1 as [|n l name f r H1 H2 _ IH|n l r H1 _ IH]; intros r' H'; inversion H' as [|? ? ? ? ? S' F' R'|? ? ? N' R']; subst; try reflexivity.
  - f_equal; [|apply IH; exact R']. pose proof (start_fun _ _ _ H1 S'). subst. apply oso_iff in H2, F'. congruence.
  - exfalso. eapply N'; eauto.
  - exfalso. eapply H1; eauto.
  - apply IH; exact R'.
Qed.
Definition objs (st : omst) (pre : list nlist) : Prop :=
  object_files t pre (om_objects st) /\ (forall k, om_object st = Some k <-> current_object t pre k) /\
  (forall nm a, om_fun st = Some (nm, a) <-> exists n, open_function t pre n nm /\ n_value n = a).
Lemma current_other pre n k : n_type n <> 100 -> n_type n <> 102 -> current_object t (pre ++ [n]) k <-> current_object t pre k.
Proof.
  intros H1 H2. unfold current_object. split.
  - intros (a & x & b & name & fs & E & S & Fb & O & K). apply snoc_split in E as [(-> & -> & ->)|(b' & -> & ->)]; [destruct S as (S & _); congruence|].
    exists a, x, b', name, fs. apply Forall_app in Fb as (Fb & _). auto.
  - intros (a & x & b & name & fs & -> & S & Fb & O & K). exists a, x, (b ++ [n]), name, fs. rewrite <- app_assoc. split; [reflexivity|]. split; [exact S|]. split; [apply Forall_app; auto|auto].
Qed.
Lemma current_none pre n k : n_type n = 100 \/ n_type n = 102 -> (forall name, ~ object_start t n name) -> ~ current_object t (pre ++ [n]) k.
Proof.
  intros H N (a & x & b & name & fs & E & S & Fb & O & K). apply snoc_split in E as [(-> & -> & ->)|(b' & -> & ->)]; [eapply N; exact S|].
  apply Forall_app in Fb as (_ & Fb). inversion Fb as [|? ? (F1 & F2) _]. subst. destruct H; congruence.
Qed.
Lemma current_new pre n name fs k : object_start t n name -> object_files t pre fs -> current_object t (pre ++ [n]) k <-> k = zlen fs.
Proof.
  intros S O. split.
  - intros (a & x & b & name' & fs' & E & S' & Fb & O' & ->). apply snoc_split in E as [(-> & -> & ->)|(b' & -> & ->)].
    + rewrite (files_fun _ _ O' _ O). reflexivity.
    + apply Forall_app in Fb as (_ & Fb). inversion Fb as [|? ? (F1 & F2) _]. subst. destruct S as (S & _). congruence.
  - intros ->. exists pre, n, [], name, fs. auto.
Qed.
Lemma open_other pre n m nm : ~ (n_type n = 36 /\ exists x, sym_name t n x) -> open_function t (pre ++ [n]) m nm <-> open_function t pre m nm.
Proof.
  intros N. unfold open_function. split.
  - intros (a & b & E & T & S & Hn & Fb). apply snoc_split in E as [(-> & -> & ->)|(b' & -> & ->)]; [exfalso; apply N; eauto|].
    exists a, b'. repeat split; auto. apply Forall_app in Fb. apply Fb.
  - intros (a & b & -> & T & S & Hn & Fb). exists a, (b ++ [n]). rewrite <- app_assoc. repeat split; auto. apply Forall_app. auto.
Qed.
Lemma open_new pre n x m nm : n_type n = 36 -> sym_name t n x -> open_function t (pre ++ [n]) m nm <-> m = n /\ nm = x /\ x <> [].
Proof.
  intros T S. unfold open_function. split.
  - intros (a & b & E & T' & S' & Hn & Fb). apply snoc_split in E as [(-> & -> & ->)|(b' & -> & ->)].
    + unfold sym_name in *. assert (nm = x) by congruence. subst. auto.
    + apply Forall_app in Fb as (_ & Fb). inversion Fb as [|? ? F1 _]. subst. exfalso. apply F1. eauto.
  - intros (-> & -> & Hx). exists pre, []. auto.
Qed.
Lemma om_split {A} (P : Prop) (x y : A) : x = y -> P -> x = y /\ P. Proof. auto. Qed.
Definition no_entry (pre : list nlist) (n : nlist) : Prop := forall en, ~ map_entry t pre n en.
Lemma no_entry_type pre n : n_type n <> 38 -> n_type n <> 36 -> no_entry pre n.
Proof. intros H1 H2 en (_ & [(H & _)|(H & _)]); congruence. Qed.
Lemma stab_type n : is_stab n = false -> n_type n <> 100 /\ n_type n <> 102 /\ n_type n <> 36 /\ n_type n <> 38.
Proof. unfold is_stab. intros H. repeat split; intros E; rewrite E in H; discriminate H. Qed.
Lemma step_ok st pre n : objs st pre -> objs (om_step t st n) (pre ++ [n]) /\
  ((om_symbols (om_step t st n) = om_symbols st /\ no_entry pre n) \/ exists en, om_symbols (om_step t st n) = om_symbols st ++ [en] /\ map_entry t pre n en).
Proof.
  intros (O1 & O2 & O3).
  assert (SAME : forall st', n_type n <> 100 -> n_type n <> 102 -> om_objects st' = om_objects st -> om_object st' = om_object st -> 
     (forall nm a, om_fun st' = Some (nm, a) <-> exists m, open_function t (pre ++ [n]) m nm /\ n_value m = a) -> objs st' (pre ++ [n])).
  { intros st' T1 T2 E1 E2 E3. split; [|split].
    - rewrite E1. apply files_snoc_skip; [exact O1|]. intros name (T & _). congruence.
    - intros k. rewrite E2, current_other by assumption. apply O2.
    - exact E3. }
  assert (FUN : ~ (n_type n = 36 /\ exists x, sym_name t n x) -> forall nm a, om_fun st = Some (nm, a) <-> exists m, open_function t (pre ++ [n]) m nm /\ n_value m = a).
  { intros N nm a. rewrite O3. split; intros (m & Hm & Hv); exists m; (split; [|exact Hv]); [apply open_other|apply open_other in Hm]; assumption. }
  unfold om_step. destruct (is_stab n) eqn:St; cbn [negb].
  2: { apply stab_type in St as (T1 & T2 & T3 & T4). split; [|left; split; [reflexivity|apply no_entry_type; assumption]].
       apply SAME; auto. apply FUN. intros (Q & _). congruence. }
  destruct (Z.eqb_spec (n_type n) 100) as [T|T1].
  { split; [|left; split; [reflexivity|apply no_entry_type; lia]]. assert (NS : forall name, ~ object_start t n name) by (intros name (Q & _); congruence).
    split; [|split]; cbn [om_objects om_object om_fun].
    - apply files_snoc_skip; assumption.
    - intros k. split; [discriminate|]. intros C. exfalso. eapply current_none; [left; exact T|exact NS|exact C].
    - apply FUN. intros (Q & _). congruence. }
  destruct (Z.eqb_spec (n_type n) 102) as [T|T2].
  { assert (FUN' := FUN ltac:(intros (Q & _); congruence)).
    assert (NONE : (forall name, ~ object_start t n name) -> objs {| om_symbols := om_symbols st; om_objects := om_objects st; om_object := None; om_fun := om_fun st |} (pre ++ [n])).
    { intros NS. split; [|split]; cbn [om_objects om_object om_fun]; [apply files_snoc_skip; assumption| |exact FUN'].
      intros k. split; [discriminate|]. intros C. exfalso. eapply current_none; [right; exact T|exact NS|exact C]. }
    destruct (nlist_name t n) as [[|c nm]| |] eqn:En.
    2: { assert (OS : object_start t n (c :: nm)) by (repeat split; [exact T|exact En|discriminate]).
         split; [|left; split; [reflexivity|apply no_entry_type; lia]]. split; [|split]; cbn [om_objects om_object om_fun]; [|intros k|exact FUN'].
         - eapply files_snoc_take; [exact O1|exact OS|]. apply oso_iff. reflexivity.
         - rewrite (current_new _ _ _ _ _ OS O1). split; congruence. }
    all: split; [apply NONE|left; split; [reflexivity|apply no_entry_type; lia]]; intros name (_ & Q & Q2); unfold sym_name in Q; congruence. }
  destruct (Z.eqb_spec (n_type n) 36) as [T|T3].
  { destruct (nlist_name t n) as [[|c nm]| |] eqn:En.
    - (* end of a function *)
      assert (NF : forall m nm, ~ open_function t (pre ++ [n]) m nm) by (intros m nm Q; apply (open_new _ _ [] _ _ T En) in Q as (_ & _ & Q); congruence).
      split.
      + apply SAME; cbn [om_objects om_object om_fun]; auto. intros nm a. split; [discriminate|]. intros (m & Q & _). exfalso. apply (NF _ _ Q).
      + cbn [om_symbols]. destruct (om_fun st) as [(nm, a)|] eqn:Ef.
        * destruct (om_object st) as [k|] eqn:Eo.
          -- right. eexists. split; [reflexivity|]. split; cbn [oe_object oe_name oe_address oe_size]; [apply O2; reflexivity|]. right.
             destruct (proj1 (O3 nm a) eq_refl) as (m & Hm & Hv). split; [exact T|]. split; [exact En|]. exists m. auto.
          -- left. rewrite app_nil_r. split; [reflexivity|]. intros en (C & _). apply O2 in C. discriminate C.
        * left. rewrite app_nil_r. split; [reflexivity|]. intros en (C & [(Q & _)|(_ & _ & m & Hm & _)]); [congruence|].
          assert (Q : None = Some (oe_name en, n_value m)) by (apply O3; eauto). discriminate Q.
    - split.
      + apply SAME; cbn [om_objects om_object om_fun]; auto. intros nm' a. split.
        * intros [= <- <-]. exists n. split; [|reflexivity]. apply (open_new _ _ (c :: nm)); [exact T|exact En|]. repeat split. discriminate.
        * intros (m & Q & <-). apply (open_new _ _ (c :: nm) _ _ T En) in Q as (-> & -> & _). reflexivity.
      + left. split; [reflexivity|]. intros en (_ & [(Q & _)|(_ & Q & _)]); unfold sym_name in *; congruence.
    - split; [apply SAME; auto; apply FUN; intros (_ & x & Q); unfold sym_name in Q; congruence|]. left. split; [reflexivity|]. intros en (_ & [(Q & _)|(_ & Q & _)]); unfold sym_name in *; congruence.
    - split; [apply SAME; auto; apply FUN; intros (_ & x & Q); unfold sym_name in Q; congruence|]. left. split; [reflexivity|]. intros en (_ & [(Q & _)|(_ & Q & _)]); unfold sym_name in *; congruence. }
  assert (FUN' := FUN ltac:(intros (Q & _); congruence)).
  destruct (Z.eqb_spec (n_type n) 38) as [T|T4].
  { destruct (nlist_name t n) as [nm| |] eqn:En.
    - destruct (om_object st) as [k|] eqn:Eo.
      + split; [apply SAME; auto|]. right. eexists. cbn [om_symbols]. split; [reflexivity|]. split; cbn [oe_object oe_name oe_address oe_size]; [apply O2; reflexivity|]. left. auto.
      + split; [apply SAME; auto|]. left. split; [reflexivity|]. intros en (C & _). apply O2 in C. discriminate C.
    - split; [apply SAME; auto|]. left. split; [reflexivity|]. intros en (_ & [(_ & Q & _)|(Q & _)]); unfold sym_name in *; congruence.
    - split; [apply SAME; auto|]. left. split; [reflexivity|]. intros en (_ & [(_ & Q & _)|(Q & _)]); unfold sym_name in *; congruence. }
  split; [apply SAME; auto|]. left. split; [reflexivity|]. apply no_entry_type; assumption.
Qed.
Lemma map_ok l : forall pre st, objs st pre -> object_files t (pre ++ l) (om_objects (fold_left (om_step t) l st)) /\
  exists r, om_symbols (fold_left (om_step t) l st) = om_symbols st ++ r /\ map_entries t pre l r.
Proof.
  induction l as [|n l IH]; intros pre st O; cbn [fold_left].
  - rewrite app_nil_r. split; [apply O|]. exists []. rewrite app_nil_r. split; [reflexivity|constructor].
  - destruct (step_ok st pre n O) as (O' & Hs). destruct (IH (pre ++ [n]) _ O') as (F1 & r & E & M). rewrite <- app_assoc in F1. split; [exact F1|].
    destruct Hs as [(Es & N)|(en & Es & N)].
    + exists r. rewrite E, Es. split; [reflexivity|]. apply mes_skip; assumption.
    + exists (en :: r). rewrite E, Es, <- app_assoc. split; [reflexivity|]. apply mes_take; assumption.
Qed.
Lemma object_map_ok : map_entries t [] (mt_symbols t) (fst (mach_object_map t)) /\ object_files t (mt_symbols t) (snd (mach_object_map t)).
Proof.
  set (st0 := {| om_symbols := []; om_objects := []; om_object := None; om_fun := None |}).
  assert (O : objs st0 []).
  { split; [constructor|]. split; [intros k|intros nm a]; (split; [discriminate|]).
    - intros (a & x & b & name & fs & E & _). destruct a; discriminate E.
    - intros (n & (x & b & E & _) & _). destruct x; discriminate E. }
  destruct (map_ok (mt_symbols t) [] st0 O) as (F1 & r & E & M). cbn [app om_symbols st0] in E. unfold mach_object_map. cbn [fst snd]. fold st0. rewrite E. auto.
Qed.
Lemma entry_fun pre n a b : map_entry t pre n a -> map_entry t pre n b -> a = b.
Proof.
  intros (Ca & Ha) (Cb & Hb). assert (CO : oe_object a = oe_object b).
  { clear -Ca Cb. revert Ca Cb. generalize (oe_object a) (oe_object b). intros i j (p & x & q & nm & fs & E & S & Fq & O & ->) (p' & x' & q' & nm' & fs' & E' & S' & Fq' & O' & ->).
    assert (p = p').
    { subst pre. clear O O'. revert p' E'. induction p as [|y p IH]; intros [|y' p'] E'; cbn [app] in E'; injection E' as Ey Et.
      - reflexivity.
      - exfalso. assert (In x' q) by (rewrite Et, in_app_iff; right; left; reflexivity). rewrite Forall_forall in Fq. destruct S' as (S' & _). destruct (Fq _ H). congruence.
      - exfalso. assert (In x q') by (rewrite <- Et, in_app_iff; right; left; reflexivity). rewrite Forall_forall in Fq'. destruct S as (S & _). destruct (Fq' _ H). congruence.
      - f_equal; [exact Ey|apply IH; exact Et]. }
    subst p'. rewrite (files_fun _ _ O _ O'). reflexivity. }
  assert (OF : forall m m' x y, open_function t pre m x -> open_function t pre m' y -> m = m' /\ x = y).
  { clear Ha Hb Ca Cb. intros m m' x y (p & q & E & T & S & N & Fq) (p' & q' & E' & T' & S' & N' & Fq').
    assert (p = p').
    { subst pre. revert p' E'. induction p as [|u p IH]; intros [|u' p'] E'; cbn [app] in E'; injection E' as Ey Et.
      - reflexivity.
      - exfalso. assert (In m' q) by (rewrite Et, in_app_iff; right; left; reflexivity). rewrite Forall_forall in Fq. apply (Fq _ H). eauto.
      - exfalso. assert (In m q') by (rewrite <- Et, in_app_iff; right; left; reflexivity). rewrite Forall_forall in Fq'. apply (Fq' _ H). eauto.
      - f_equal; [exact Ey|apply IH; exact Et]. }
    subst p'. rewrite E in E'. apply app_inv_head in E'. clear E. assert (m = m') by congruence. subst m'. split; [reflexivity|]. unfold sym_name in *. congruence. }
  destruct a as [a1 a2 a3 a4], b as [b1 b2 b3 b4]. cbn [oe_object oe_name oe_address oe_size] in *. subst b4. unfold sym_name in *.
  destruct Ha as [(T & S & -> & ->)|(T & S & m & Hm & -> & ->)], Hb as [(T' & S' & -> & ->)|(T' & S' & m' & Hm' & -> & ->)]; try congruence.
  destruct (OF _ _ _ _ Hm Hm') as (-> & ->). reflexivity.
Qed.
Lemma entries_fun pre l r : map_entries t pre l r -> forall r', map_entries t pre l r' -> r = r'.
Proof.
  induction 1 as [|pre n l en r H1 _ IH|pre n l r H1 _ IH]; intros r' H'; inversion H' as [|? ? ? en' ? E' R'|? ? ? ? N' R']; subst; try reflexivity.
  - rewrite (entry_fun _ _ _ _ H1 E'). f_equal. apply IH; assumption.
  - exfalso. eapply N'; eauto.
  - exfalso. eapply H1; eauto.
  - apply IH; assumption.
Qed.
End Map.

(** * Indirect symbols *)
Lemma indirect_iff is64 s l r : 0 <= x_reserved1 s -> 0 <= x_size s -> 0 <= x_reserved2 s -> ms_indirect is64 s l = Ok r <-> indirect_of is64 s l r.
Proof.
  intros H1 Hs H2. unfold ms_indirect, indirect_of.
  assert (Ety : ms_type s = x_flags s mod 256) by (unfold ms_type; change 255 with (Z.ones 8); apply Z.land_ones; lia). rewrite Ety. cbv zeta.
  assert (G : forall n, 0 < n -> (tl <- of_opt (get_from l (x_reserved1 s)) ;; of_opt (get_to tl (x_size s / n))) = Ok r <->
    exists a c, l = a ++ r ++ c /\ zlen a = x_reserved1 s /\ zlen r = x_size s / n).
  { intros n Hn. assert (0 <= x_size s / n) by (apply Z.div_pos; lia). set (k := x_size s / n) in *. clearbody k. rewrite get_from_eq. split.
    - destruct ((0 <=? x_reserved1 s) && (x_reserved1 s <=? zlen l)) eqn:E; cbn [of_opt bind]; [|discriminate]. unfold get_to. destruct ((0 <=? k) && (k <=? zlen (zdrop (x_reserved1 s) l))) eqn:E2; cbn [of_opt]; [|discriminate]. intros Q. assert (Q' : r = ztake k (zdrop (x_reserved1 s) l)) by congruence. rewrite Q'. rewrite zlen_zdrop in E2 by lia.
      exists (ztake (x_reserved1 s) l), (zdrop k (zdrop (x_reserved1 s) l)). rewrite !ztake_zdrop. split; [reflexivity|]. split; apply zlen_ztake; [lia|]. rewrite zlen_zdrop by lia. lia.
    - intros (a & c & -> & La & Lr). rewrite <- La. pose proof (zlen_nonneg a). pose proof (zlen_nonneg r). pose proof (zlen_nonneg c). rewrite !zlen_app.
      replace ((0 <=? zlen a) && (zlen a <=? zlen a + (zlen r + zlen c))) with true by lia. cbn [of_opt bind]. rewrite zdrop_app_eq by reflexivity.
      unfold get_to. rewrite <- Lr, zlen_app. replace ((0 <=? zlen r) && (zlen r <=? zlen r + zlen c)) with true by lia. cbn [of_opt]. rewrite ztake_app_eq by reflexivity. reflexivity. }
  set (ty := x_flags s mod 256). assert (Bt : 0 <= ty < 256) by (apply Z.mod_pos_bound; lia). clearbody ty.
  destruct (zmem ty [6; 7; 16; 20]) eqn:E1.
  - assert (C : ty = 6 \/ ty = 7 \/ ty = 16 \/ ty = 20) by (unfold zmem in E1; cbn [existsb] in E1; lia).
    destruct C as [-> | [-> | [-> | ->]]]; apply G; destruct is64; lia.
  - destruct (Z.eqb_spec ty 8) as [->|N8].
    + destruct (Z.eqb_spec (x_reserved2 s) 0) as [E|E]; [split; [discriminate|intros (Q & _); congruence]|]. rewrite G by lia. tauto.
    + assert (C : ty <> 6 /\ ty <> 7 /\ ty <> 16 /\ ty <> 20) by (unfold zmem in E1; cbn [existsb] in E1; lia).
      assert (Er : Ok [] = Ok r <-> r = []) by (split; congruence). rewrite Er.
      destruct ty as [|q|q]; [reflexivity| |reflexivity]. destruct C as (C1 & C2 & C3 & C4). repeat (destruct q as [q|q|]; try reflexivity); congruence.
Qed.

(** * UUID and entry point *)
Definition uuid_of (e : endian) (c : lcmd) : option bytes :=
  if lc_cmd c =? 27 then match lc_struct c 24 with Ok b => Some (zslice 8 16 b) | _ => None end else None.
Definition entry_of (e : endian) (cpu : Z) (c : lcmd) : option Z :=
  match (if lc_cmd c =? 2147483688 then match lc_struct c 24 with Ok b => Some (fld e 8 8 b) | _ => None end else None) with
  | Some x => Some x
  | None => if lc_cmd c =? 5 then match b_read (lc_data c) 8 with (Ok _, tl) => thread_pc e cpu tl | _ => None end else None
  end.
Fixpoint first_some {A B} (f : A -> option B) (l : list A) : option B :=
  match l with [] => None | x :: l => match f x with Some y => Some y | None => first_some f l end end.
Lemma first_some_iff {A B} (f : A -> option B) (P : A -> B -> Prop) l y : (forall x, In x l -> forall y, f x = Some y <-> P x y) ->
  first_some f l = Some y <-> exists x, is_first (fun x => exists y, P x y) l x /\ P x y.
Proof.
  induction l as [|x l IH]; intros H; cbn [first_some].
  - split; [discriminate|]. intros (x & (a & b & E & _) & _). destruct a; discriminate E.
  - assert (H' : forall z, In z l -> forall y, f z = Some y <-> P z y) by (intros z Hz; apply H; right; exact Hz). specialize (IH H'). pose proof (H x (or_introl eq_refl)) as Hx.
    destruct (f x) as [z|] eqn:E.
    + split.
      * intros [= <-]. exists x. assert (P x z) by (apply Hx; reflexivity). split; [|assumption]. exists [], l. split; [reflexivity|]. split; [eauto|constructor].
      * intros (w & (a & b & Eq & _ & Fa) & Hw). assert (Pz : P x z) by (apply Hx; reflexivity). destruct a as [|u a]; cbn [app] in Eq; injection Eq as <- Eq.
        -- apply Hx in Hw. congruence.
        -- inversion Fa. exfalso. eauto.
    + rewrite IH. split.
      * intros (w & (a & b & -> & Pw & Fa) & Hw). exists w. split; [|exact Hw]. exists (x :: a), b. split; [reflexivity|]. split; [exact Pw|]. constructor; [|exact Fa].
        intros (z & Pz). apply Hx in Pz. congruence.
      * intros (w & (a & b & Eq & Pw & Fa) & Hw). destruct a as [|u a]; cbn [app] in Eq; injection Eq as <- Eq.
        -- destruct Pw as (z & Pz). apply Hx in Pz. congruence.
        -- inversion Fa; subst. exists w. split; [|exact Hw]. exists a, b. auto.
Qed.
Lemma first_some_none {A B} (f : A -> option B) (P : A -> B -> Prop) l : (forall x, In x l -> forall y, f x = Some y <-> P x y) ->
  first_some f l = None <-> forall x y, In x l -> ~ P x y.
Proof.
  induction l as [|x l IH]; intros H; cbn [first_some].
  - split; [intros _ x y []|reflexivity].
  - assert (H' : forall z, In z l -> forall y, f z = Some y <-> P z y) by (intros z Hz; apply H; right; exact Hz). specialize (IH H'). pose proof (H x (or_introl eq_refl)) as Hx.
    destruct (f x) as [z|] eqn:E.
    + split; [discriminate|]. intros N. exfalso. apply (N x z); [left; reflexivity|]. apply Hx. reflexivity.
    + rewrite IH. split.
      * intros N w y [<-|Hw]; [intros Pw; apply Hx in Pw; congruence|apply N; exact Hw].
      * intros N w y Hw. apply N. right. exact Hw.
Qed.
Lemma uuid_loop_eq e it l err it' : runs (lc_next e) it l err it' -> forall fuel, (length l < fuel)%nat ->
  uuid_loop fuel e it = match first_some (uuid_of e) l with Some u => Ok (Some u) | None => if err then Err else Ok None end.
Proof.
  induction 1 as [it it' E|it it' E|it it1 it' c l err E _ IH]; intros fuel Hf; (destruct fuel as [|fuel]; [lia|]); cbn [uuid_loop first_some]; rewrite E; [reflexivity|reflexivity|].
  fold (uuid_of e c). destruct (uuid_of e c); [reflexivity|]. apply IH. cbn [length] in Hf. lia.
Qed.
Lemma entry_loop_eq e h it l err it' : runs (lc_next e) it l err it' -> forall fuel, (length l < fuel)%nat ->
  entry_loop fuel e h it = Ok (match first_some (entry_of e (mh_cputype e h)) l with Some a => a | None => 0 end).
Proof.
  induction 1 as [it it' E|it it' E|it it1 it' c l err E _ IH]; intros fuel Hf; (destruct fuel as [|fuel]; [lia|]); cbn [entry_loop first_some]; rewrite E; [reflexivity|reflexivity|].
  unfold entry_of at 1. destruct (if lc_cmd c =? 2147483688 then _ else _); [reflexivity|].
  destruct (if lc_cmd c =? 5 then _ else _); [reflexivity|]. apply IH. cbn [length] in Hf. lia.
Qed.
Lemma cmd_head e c b tl : cmd_ok e c -> lc_data c = b ++ tl -> 8 <= zlen b -> zslice 0 8 b = write_u e 4 (lc_cmd c) ++ write_u e 4 (zlen (lc_data c)).
Proof.
  intros (B & body & E & _) Ed Hl. rewrite Ed in E at 1. rewrite app_assoc in E. apply (f_equal (ztake 8)) in E.
  rewrite (ztake_app_eq 8 (write_u e 4 (lc_cmd c) ++ write_u e 4 (zlen (lc_data c)))) in E by (rewrite zlen_app, !zlen_write_u; reflexivity).
  rewrite <- E. unfold zslice. rewrite ztake_app_le by lia. reflexivity.
Qed.
Lemma cmd_bytes e c : cmd_ok e c -> u32_ok (lc_cmd c). Proof. intros (_ & body & _ & H & _). exact H. Qed.
Lemma uuid_iff e c u : cmd_ok e c -> uuid_of e c = Some u <-> uuid_command e c u.
Proof.
  intros K. pose proof K as (B & _). unfold uuid_of, uuid_command. destruct (Z.eqb_spec (lc_cmd c) 27) as [E|E]; [|split; [discriminate|intros (Q & _); congruence]]. split.
  - destruct (lc_struct c 24) as [b| |] eqn:Eb; try discriminate. intros [= <-]. apply struct_iff in Eb as (L & tl & Ed); [|lia]. split; [exact E|]. split; [apply zlen_zslice; lia|].
    exists tl. pose proof (cmd_head e c b tl K Ed ltac:(lia)) as H8. rewrite E in H8. rewrite app_assoc, <- H8. pose proof (PeI_proofs.zslice_join 0 8 16 b ltac:(lia) ltac:(lia) ltac:(lia) ltac:(lia)) as J. cbn [Z.add Pos.add Pos.succ] in J. rewrite app_assoc, J. rewrite (zslice_all b) by lia. exact Ed.
  - intros (_ & L & tl & Ed). assert (Eb : lc_struct c 24 = Ok (write_u e 4 27 ++ write_u e 4 (zlen (lc_data c)) ++ u)).
    { apply struct_iff; [lia|]. rewrite !zlen_app, !zlen_write_u, L. split; [reflexivity|]. exists tl. rewrite Ed at 1. rewrite <- !app_assoc. reflexivity. }
    rewrite Eb. f_equal. rewrite app_assoc, <- (app_nil_r u) at 1. apply zslice_app_eq; [rewrite zlen_app, !zlen_write_u; reflexivity|lia].
Qed.
Lemma pc_iff e cpu d a : bytes_ok d -> thread_pc e cpu d = Some a <->
  exists n w flavor regs tl, pc_register cpu = Some (n, w) /\ zlen flavor = 8 /\ zlen regs = n * Z.of_nat w /\ 0 <= a < 2 ^ (8 * Z.of_nat w) /\ d = flavor ++ regs ++ write_u e w a ++ tl.
Proof.
  intros B. unfold thread_pc, pc_register.
  assert (G : forall n w, 0 <= n -> (0 < w)%nat -> option_map (read_u e) (get_range d (8 + n * Z.of_nat w) (8 + n * Z.of_nat w + Z.of_nat w)) = Some a <->
     exists n' w' flavor regs tl, Some (n, w) = Some (n', w') /\ zlen flavor = 8 /\ zlen regs = n' * Z.of_nat w' /\ 0 <= a < 2 ^ (8 * Z.of_nat w') /\ d = flavor ++ regs ++ write_u e w' a ++ tl).
  { intros n w Hn Hw. unfold get_range. assert (0 <= n * Z.of_nat w) by nia. set (o := 8 + n * Z.of_nat w) in *. split.
    - destruct ((0 <=? o) && (o <=? o + Z.of_nat w) && (o + Z.of_nat w <=? zlen d)) eqn:E; cbn [option_map]; [|discriminate]. intros [= <-].
      replace (o + Z.of_nat w - o) with (Z.of_nat w) by lia.
      exists n, w, (ztake 8 d), (zslice 8 (n * Z.of_nat w) d), (zdrop (o + Z.of_nat w) d). split; [reflexivity|]. split; [apply zlen_ztake; lia|]. split; [apply zlen_zslice; lia|].
      split; [apply (fld_bound e o (Z.of_nat w)); [exact B|lia|lia]|].
      rewrite write_read_n by (try apply bytes_ok_zslice; try exact B; rewrite zlen_zslice; lia). rewrite <- zdrop_zslice by lia. unfold o. rewrite <- zdrop_zslice by lia. symmetry. apply ztake_zdrop.
    - intros (n' & w' & fl & rg & tl & Q & Lf & Lr & Ha & ->). injection Q as <- <-. rewrite !zlen_app, zlen_write_u. pose proof (zlen_nonneg tl).
      replace ((0 <=? o) && (o <=? o + Z.of_nat w) && (o + Z.of_nat w <=? zlen fl + (zlen rg + (Z.of_nat w + zlen tl)))) with true by lia. cbn [option_map]. f_equal.
      replace (o + Z.of_nat w - o) with (Z.of_nat w) by lia. rewrite app_assoc. rewrite zslice_app_eq by (rewrite ?zlen_app, ?zlen_write_u; lia). apply read_write_u_small. exact Ha. }
  destruct (cpu =? 16777223); [apply (G 16 8%nat); lia|]. destruct (cpu =? 16777228); [apply (G 32 8%nat); lia|]. destruct (cpu =? 7); [apply (G 10 4%nat); lia|]. destruct (cpu =? 12); [apply (G 15 4%nat); lia|].
  change (0 =? 0) with true. cbn iota. split; [discriminate|]. intros (n & w & fl & rg & tl & Q & _). discriminate Q.
Qed.
Lemma entry_iff e cpu c a : cmd_ok e c -> entry_of e cpu c = Some a <-> entry_command e cpu c a.
Proof.
  intros K. pose proof K as (B & _). unfold entry_of, entry_command. destruct (Z.eqb_spec (lc_cmd c) 2147483688) as [E|E].
  - replace (lc_cmd c =? 5) with false by lia. split.
    + destruct (lc_struct c 24) as [b| |] eqn:Eb; try discriminate. intros [= <-]. apply struct_iff in Eb as (L & tl & Ed); [|lia]. left. split; [exact E|].
      assert (Bb : bytes_ok b) by (rewrite Ed in B; apply bytes_ok_app in B; apply B). split; [apply (fld_bound e 8 8); auto; lia|].
      exists (zslice 16 8 b), tl. split; [apply zlen_zslice; lia|]. pose proof (cmd_head e c b tl K Ed ltac:(lia)) as H8. rewrite E in H8. rewrite app_assoc, <- H8.
      rewrite !app_assoc. rewrite Ed at 1. f_equal. rewrite <- !app_assoc. unfold fld. symmetry. pod_join. apply zslice_all. lia.
    + intros [(_ & Ha & st & tl & Ls & Ed)|(Q & _)]; [|congruence].
      assert (Eb : lc_struct c 24 = Ok (write_u e 4 2147483688 ++ write_u e 4 (zlen (lc_data c)) ++ write_u e 8 a ++ st)).
      { apply struct_iff; [lia|]. rewrite !zlen_app, !zlen_write_u, Ls. split; [reflexivity|]. exists tl. rewrite Ed at 1. rewrite <- !app_assoc. reflexivity. }
      rewrite Eb. f_equal. rewrite !fld_skip by lia. apply fld_hd; [reflexivity|exact Ha].
  - destruct (Z.eqb_spec (lc_cmd c) 5) as [E5|E5]; [|split; [discriminate|intros [(Q & _)|(Q & _)]; congruence]].
    destruct (b_read (lc_data c) 8) as [r tl] eqn:Er. destruct (b_read_spec _ _ _ _ Er) as [(b & -> & _ & Lb & Ed)|(-> & Hn & ->)].
    + assert (Bt : bytes_ok tl) by (rewrite Ed in B; apply bytes_ok_app in B; apply B). rewrite (pc_iff e cpu tl a Bt).
      pose proof (cmd_head e c b tl K Ed ltac:(lia)) as H8. rewrite E5 in H8. rewrite (zslice_all b) in H8 by lia. split.
      * intros (n & w & fl & rg & t & Q1 & Q2 & Q3 & Q4 & Q5). right. split; [exact E5|]. exists n, w, fl, rg, t. repeat split; try assumption; try apply Q4. rewrite Ed at 1. rewrite H8, Q5, <- app_assoc. reflexivity.
      * intros [(Q & _)|(_ & n & w & fl & rg & t & Q1 & Q2 & Q3 & Q4 & Q5)]; [congruence|]. exists n, w, fl, rg, t. repeat split; try assumption; try apply Q4.
        rewrite Ed, H8 in Q5 at 1. rewrite <- app_assoc in Q5. do 2 apply app_inv_head in Q5. exact Q5.
    + split; [discriminate|]. intros _. exfalso. destruct K as (_ & C). apply command_ge8 in C. lia.
Qed.
(** every command of the file could be read *)
Lemma search_ok is64 F f h r l : file_ok F -> mach_parse is64 F = Ok f -> mhdr_ok h -> mf_header f = mach_hdr is64 (mf_endian f) h r -> file_commands is64 (mf_endian f) F h l ->
  Forall (cmd_ok (mf_endian f)) l /\
  mach_entry f = Ok (match first_some (entry_of (mf_endian f) (mh_cpu h)) l with Some a => a | None => 0 end) /\
  mach_uuid f = match first_some (uuid_of (mf_endian f)) l with Some u => Ok (Some u) | None => if Z.eqb (zlen l) (mh_n h) && ((mh_sz h =? 0) || (table_size is64 + mh_sz h <=? zlen F)) then Ok None else Err end.
Proof.
  intros HF EP Ho Eh FC. apply mach_iff in EP; [|exact HF]. destruct EP as (h' & r' & l' & groups & tabs & Ho' & Lh & Hh & _ & _ & _ & E64 & Eh' & _ & _ & _ & Ed).
  destruct HF as (B & L). rewrite <- Eh', Eh in Lh, Hh.
  assert (BB : Forall (cmd_ok (mf_endian f)) l).
  { destruct FC as [(D & c & HD & _ & rest & C & _)|(-> & _)]; [|constructor]. eapply commands_ok; [exact C|]. eapply holds_bytes; eauto. }
  split; [exact BB|]. set (e := mf_endian f) in *. pose proof FC as FC0.
  apply (file_commands_iff is64 e F h r l) in FC; [|assumption..].
  destruct (hdr_enc is64 e h r Ho) as (Em & _). assert (Ec : mh_cputype e (mach_hdr is64 e h r) = mh_cpu h) by (rewrite <- Em at 2; reflexivity).
  unfold mach_entry, mach_uuid. rewrite E64, Eh, Ed. fold e. destruct FC as [(it & err & it' & E2 & R & Ln)|(E2 & ->)]; rewrite E2; cbn [bind].
  - rewrite (entry_loop_eq e _ it l err it' R) by (unfold zlen in Ln; lia). rewrite Ec. split; [reflexivity|].
    rewrite (uuid_loop_eq e it l err it' R) by (unfold zlen in Ln; lia). destruct (first_some (uuid_of e) l); [reflexivity|].
    pose proof (holds_bytes _ _ _ B Hh) as Bh. pose proof (holds_bounds _ _ _ Hh) as Hb. rewrite Lh in Hb. assert (0 < table_size is64 <= 32) by (destruct is64; cbn; lia).
    destruct (load_commands_cases is64 e _ F B Bh L ltac:(lia)) as [(D & E & HD & LD)|(E & _)]; [|congruence]. rewrite E2 in E. injection E as ->.
    assert (En : mh_ncmds e (mach_hdr is64 e h r) = mh_n h) by (rewrite <- Em at 2; reflexivity). assert (Es : mh_sizeofcmds e (mach_hdr is64 e h r) = mh_sz h) by (rewrite <- Em at 2; reflexivity).
    rewrite En, Es in *. destruct Ho as (_ & _ & _ & (Hn & Hn') & (Hz & Hz') & _). pose proof (holds_bounds _ _ _ HD) as HbD. rewrite LD in HbD.
    assert (BD : bytes_ok D) by (exact (holds_bytes _ _ _ B HD)).
    pose proof (proj1 (lc_iff e D (mh_n h) (table_size is64) l err BD ltac:(lia) ltac:(lia) ltac:(lia)) (ex_intro _ _ R)) as (rest & _ & Q).
    replace (table_size is64 + mh_sz h <=? zlen F) with true by lia. rewrite orb_true_r, andb_true_r. destruct err; cbn [negb] in Q.
    + destruct Q. replace (zlen l =? mh_n h) with false by lia. reflexivity.
    + replace (zlen l =? mh_n h) with true by lia. reflexivity.
  - cbn [first_some]. split; [reflexivity|].
    destruct (load_commands_cases is64 e (mach_hdr is64 e h r) F B (holds_bytes _ _ _ B Hh) L) as [(D & E & _)|(_ & N0 & NL)]; [pose proof (holds_bounds _ _ _ Hh); lia|congruence|].
    assert (Es : mh_sizeofcmds e (mach_hdr is64 e h r) = mh_sz h) by (rewrite <- Em at 2; reflexivity). rewrite Es in *.
    replace (mh_sz h =? 0) with false by lia. replace (table_size is64 + mh_sz h <=? zlen F) with false by lia. rewrite andb_false_r. reflexivity.
Qed.
