(** Proofs about the Mach-O reader: searches, iterators and the object map. *)
From Verif Require Import Base Core_proofs Util_proofs Pod_proofs File_proofs Hash_proofs Rel_proofs Ar_proofs Trie_proofs Coff_spec CoffR_proofs CoffI_proofs Elf_proofs.
From Verif Require Import Mach_spec Mach_proofs MachF_proofs MachP_proofs.

(** * Section offsets of a file that is larger than 4 GB *)
Lemma order_offsets is64 fin l : Forall (fun x => msec_ok is64 (fst x)) l -> forall prev, 0 <= prev -> prev <= fin < 2 ^ 64 -> in_order prev fin l ->
  sec_offsets true fin prev (map fst l) = Ok l.
Proof.
  induction 1 as [|(s, o) l Hs Hl IH]; intros prev Hp Hf Ho; cbn [map sec_offsets in_order fst] in *; [reflexivity|].
  assert (Hx : 0 <= x_offset s < 2 ^ 32) by (destruct Hs as (_ & _ & _ & _ & _ & _ & H & _); exact H).
  assert (Hz : 0 <= x_size s) by (destruct Hs as (_ & _ & _ & _ & _ & (H & _) & _); exact H).
  rewrite has_data_iff. destruct (section_has_data s).
  - destruct Ho as (O1 & O2 & O3 & O4 & O5). rewrite hi_part by (assumption || lia). set (q := x_offset s + prev / 2 ^ 32 * 2 ^ 32).
    assert (Eo : (if q <? prev then wrap_u 64 (q + 4294967296) else q) = o).
    { unfold q. pose proof (Z.div_mod prev (2 ^ 32) ltac:(lia)). pose proof (Z.mod_pos_bound prev (2 ^ 32) ltac:(lia)).
      pose proof (Z.div_mod o (2 ^ 32) ltac:(lia)). rewrite <- O4 in *.
      assert (o / 2 ^ 32 = prev / 2 ^ 32 \/ o / 2 ^ 32 = prev / 2 ^ 32 + 1) by nia.
      unfold wrap_u. destruct (Z.ltb_spec (x_offset s + prev / 2 ^ 32 * 2 ^ 32) prev).
      - rewrite Z.mod_small by lia. lia.
      - lia. }
    rewrite Eo. unfold wrap_u. rewrite Z.mod_small by lia. replace (fin <? o + x_size s) with false by lia. rewrite IH by (assumption || lia). reflexivity.
  - destruct Ho as (-> & Ho). rewrite IH by assumption. reflexivity.
Qed.
Lemma order_small l fin : fin < 2 ^ 32 -> forall prev, 0 <= prev -> Forall (fun x => 0 <= x_size (fst x)) l -> in_order prev fin l -> map (fun s => (s, x_offset s)) (map fst l) = l.
Proof.
  intros Hf. induction l as [|(s, o) l IH]; intros prev Hp Hz Ho; cbn [map in_order fst] in *; [reflexivity|]. inversion Hz as [|? ? Z1 Z2]; subst. cbn [fst] in Z1.
  destruct (section_has_data s).
  - destruct Ho as (O1 & O2 & O3 & O4 & O5). rewrite Z.mod_small in O4 by lia. rewrite O4. f_equal. apply (IH (o + x_size s)); [lia|assumption|assumption].
  - destruct Ho as (-> & Ho). f_equal. apply (IH prev); assumption.
Qed.
Lemma order_ok is64 g l : seg_ok is64 g -> Forall (fun x => msec_ok is64 (fst x)) l -> g_fileoff g + g_filesize g < 2 ^ 64 ->
  in_order (g_fileoff g) (g_fileoff g + g_filesize g) l -> seg_section_offsets g (map fst l) = Ok l.
Proof.
  intros Hg Hl Hf Ho. unfold seg_section_offsets, wrap_u.
  assert (Hb : 0 <= g_fileoff g /\ 0 <= g_filesize g) by (destruct Hg as (_ & _ & _ & _ & H1 & H2 & _); unfold mword_ok in *; lia).
  rewrite Z.mod_small by lia. destruct (Z.ltb_spec 4294967295 (g_fileoff g + g_filesize g)) as [H|H].
  - apply (order_offsets is64); (assumption || lia).
  - rewrite no_overflow. f_equal. eapply (order_small l); [| |exact (Forall_impl _ (fun x (H : msec_ok is64 (fst x)) => ltac:(destruct H as (_ & _ & _ & _ & _ & (H & _) & _); exact H)) Hl)|exact Ho]; lia.
Qed.

(** * Names *)
Lemma until_null_field f : field_name f (until_null f).
Proof.
  unfold field_name, until_null. destruct (memchr 0 f) as [n|] eqn:E.
  - apply memchr_Some in E as (_ & E & Hn). split; [exact Hn|]. right. exists (zdrop (n + 1) f). rewrite <- (zdrop_cons _ _ _ E). symmetry. apply ztake_zdrop.
  - split; [|auto]. apply memchr_None. exact E.
Qed.
Lemma field_name_fun f a b : field_name f a -> field_name f b -> a = b.
Proof.
  assert (P : forall x c, ~ In 0 x -> (c = [] \/ exists r, c = 0 :: r) -> until_null (x ++ c) = x).
  { intros x c Hx [->|(r & ->)]; unfold until_null.
    - rewrite app_nil_r. destruct (memchr 0 x) as [n|] eqn:E; [|reflexivity]. exfalso. apply memchr_Some in E as (_ & E & _). apply Hx. eapply zget_In, E.
    - rewrite memchr_app by exact Hx. apply ztake_app_eq. reflexivity. }
  assert (Q : forall x, field_name f x -> until_null f = x).
  { intros x (Hx & [->|(r & ->)]); [rewrite <- (app_nil_r x) at 1|]; apply P; eauto. }
  intros Ha Hb. rewrite <- (Q a Ha), <- (Q b Hb). reflexivity.
Qed.
Lemma strip_prefix_iff p b r : strip_prefix p b = Some r <-> b = p ++ r.
Proof.
  revert b. induction p as [|x p IH]; intros b; cbn [strip_prefix app]; [split; congruence|]. destruct b as [|y b]; [split; discriminate|].
  destruct (Z.eqb_spec x y) as [->|N]; [rewrite IH; split; congruence|]. split; [discriminate|]. intros Q. congruence.
Qed.
Lemma prefix_iff sn q np name : zlen np <= 16 -> prefix_matcher sn q np name = true <-> exists suffix, sn = q ++ suffix /\ name = ztake 16 (np ++ suffix).
Proof.
  intros Hn. pose proof (zlen_nonneg np). unfold prefix_matcher. destruct (strip_prefix q sn) as [suf|] eqn:E1.
  - apply strip_prefix_iff in E1. subst sn.
    assert (T : ztake 16 (np ++ suf) = np ++ ztake (Z.min (zlen suf) (16 - zlen np)) suf).
    { pose proof (zlen_nonneg suf). rewrite ztake_app_ge by lia. f_equal. destruct (Z.min_spec (zlen suf) (16 - zlen np)) as [(H1 & ->)|(H1 & ->)]; [|reflexivity].
      rewrite !CoffW_proofs.ztake_all by lia. reflexivity. }
    destruct (strip_prefix np name) as [n|] eqn:E2.
    + apply strip_prefix_iff in E2. subst name. rewrite bytes_eqb_iff. split.
      * intros ->. exists suf. rewrite T. auto.
      * intros (s & Es & En). apply app_inv_head in Es. subst s. rewrite T in En. apply app_inv_head in En. exact En.
    + split; [discriminate|]. intros (s & Es & En). apply app_inv_head in Es. subst s. rewrite T in En. apply strip_prefix_iff in En. congruence.
  - split; [discriminate|]. intros (s & -> & _). exfalso. assert (strip_prefix q (q ++ s) = Some s) by (apply strip_prefix_iff; reflexivity). congruence.
Qed.
Lemma name_matches_iff sn name : name_matches sn name = true <-> finds sn name.
Proof.
  unfold name_matches, finds. rewrite !orb_true_iff, bytes_eqb_iff. rewrite (prefix_iff sn [46] [95; 95]) by (cbn; lia). rewrite (prefix_iff sn DOT_DEBUG UU_ZDEBUG) by (cbn; lia).
  change (str ".") with [46]. change (str "__") with [95; 95]. change (str ".debug_") with DOT_DEBUG. change (str "__zdebug_") with UU_ZDEBUG. tauto.
Qed.
Lemma find_first {A} (P : A -> bool) l x : find P l = Some x <-> is_first (fun y => P y = true) l x.
Proof.
  unfold is_first. induction l as [|y l IH]; cbn [find].
  - split; [discriminate|]. intros (a & b & E & _). destruct a; discriminate E.
  - destruct (P y) eqn:E.
    + split.
      * intros [= <-]. exists [], l. repeat split; [exact E|constructor].
      * intros ([|z a] & b & Eq & Hx & Ha); [cbn in Eq; congruence|]. inversion Ha; subst. cbn in Eq. congruence.
    + rewrite IH. split.
      * intros (a & b & -> & Hx & Ha). exists (y :: a), b. repeat split; [exact Hx|]. constructor; [congruence|exact Ha].
      * intros ([|z a] & b & Eq & Hx & Ha); [cbn in Eq; congruence|]. inversion Ha; subst. cbn in Eq. injection Eq as -> ->. eauto.
Qed.
Lemma find_none {A} (P : A -> bool) l : find P l = None <-> Forall (fun y => ~ P y = true) l.
Proof. induction l as [|y l IH]; cbn [find]; [split; [constructor|reflexivity]|]. destruct (P y) eqn:E; [split; [discriminate|inversion 1; congruence]|]. rewrite IH. split; [constructor; congruence|inversion 1; assumption]. Qed.
Lemma is_first_ext {A} (P Q : A -> Prop) l x : (forall y, P y <-> Q y) -> is_first P l x <-> is_first Q l x.
Proof.
  intros H. unfold is_first. assert (G : forall a, Forall (fun y => ~ P y) a <-> Forall (fun y => ~ Q y) a) by (intros a; rewrite !Forall_forall; split; intros X y Hy; specialize (X y Hy); rewrite (H y) in *; assumption).
  split; intros (a & b & E & Hx & Ha); exists a, b; (split; [exact E|]; split; [apply H; exact Hx|apply G; exact Ha]).
Qed.
Definition found (q : bytes) (x : msint) : Prop := exists n, field_name (x_sectname (xi_sec x)) n /\ finds q n.
Lemma found_iff q x : name_matches q (ms_name (xi_sec x)) = true <-> found q x.
Proof.
  rewrite name_matches_iff. unfold found, ms_name. split.
  - intros H. eexists. split; [apply until_null_field|exact H].
  - intros (n & Hn & H). rewrite (field_name_fun _ _ _ (until_null_field _) Hn). exact H.
Qed.
Lemma by_name_iff f q x : mach_section_by_name f q = Some x <-> is_first (found q) (mf_sections f) x.
Proof. unfold mach_section_by_name. rewrite find_first. apply is_first_ext. intros y. apply found_iff. Qed.
Lemma by_name_none f q : mach_section_by_name f q = None <-> Forall (fun x => ~ found q x) (mf_sections f).
Proof. unfold mach_section_by_name. rewrite find_none, !Forall_forall. split; intros H y Hy; specialize (H y Hy); rewrite found_iff in *; exact H. Qed.

(** * Function starts *)
Lemma uleb_nonempty x d : uleb_bytes x d -> x <> [] /\ 0 <= d.
Proof.
  intros (H & _ & _). split; [intros ->; inversion H|]. clear -H. induction H; lia.
Qed.
Lemma fs_step a D l c : bytes_ok D -> 0 <= a < 2 ^ 64 -> deltas a D l c -> exists st, runs fs_next (D, a) l (negb c) st /\ fs_next st = (Ok None, st).
Proof.
  intros B Ha H. revert B Ha. induction H as [a|a x tl U|a D Hn Hb|a x d tl l c U Hd Hs _ IH]; intros B Ha.
  - exists ([], a). split; [apply runs_done|]; reflexivity.
  - exists ([], a). split; [|reflexivity]. apply runs_done. unfold fs_next. cbn [fst]. destruct (x ++ tl) as [|y r] eqn:E; [destruct x; [destruct (uleb_nonempty _ _ U); congruence|discriminate E]|].
    unfold fs_parse. cbn [fst]. rewrite <- E in *. rewrite (uleb_app x 0 tl B U). reflexivity.
  - unfold fs_next. destruct D as [|y D]; [congruence|]. destruct (uleb_cases (y :: D) B) as [(v & rest & E)|(rest & E)].
    + exists ([], a). split; [|reflexivity]. apply runs_err. unfold fs_next, fs_parse. cbn [fst snd]. rewrite E. apply uleb_iff in E as (x & Eq & U); [|exact B].
      specialize (Hb x v rest Eq U). pose proof U as U'. destruct U' as (_ & _ & Uv). replace (v =? 0) with false by lia. unfold cadd. replace (a + v <? 2 ^ 64) with false by lia. reflexivity.
    + exists ([], a). split; [|reflexivity]. apply runs_err. unfold fs_next, fs_parse. cbn [fst snd]. rewrite E. reflexivity.
  - pose proof (uleb_nonempty _ _ U) as (Hx & Hd0). apply bytes_ok_app in B as B'. destruct B' as (_ & Bt). destruct (IH Bt ltac:(lia)) as (st & R & E). exists st. split; [|exact E].
    eapply runs_more; [|exact R]. unfold fs_next. cbn [fst]. destruct (x ++ tl) as [|y r] eqn:Eq; [destruct x; [congruence|discriminate Eq]|]. rewrite <- Eq in *.
    unfold fs_parse. cbn [fst snd]. rewrite (uleb_app x d tl B U). replace (d =? 0) with false by lia. unfold cadd. replace (a + d <? 2 ^ 64) with true by lia. reflexivity.
Qed.
Lemma deltas_total a D : bytes_ok D -> 0 <= a < 2 ^ 64 -> exists l c, deltas a D l c.
Proof.
  remember (length D) as n eqn:En. revert D a En. induction n as [n IH] using lt_wf_ind. intros D a En B Ha.
  destruct D as [|y D]; [exists [], true; constructor|]. destruct (uleb_cases (y :: D) B) as [(v & rest & E)|(rest & E)].
  - apply uleb_iff in E as (x & Eq & U); [|exact B]. destruct (Z.eq_dec v 0) as [->|Hv]; [exists [], true; rewrite Eq; apply ds_zero; exact U|].
    destruct (Z_lt_dec (a + v) (2 ^ 64)) as [Hs|Hs].
    + pose proof (uleb_nonempty _ _ U) as (Hx & Hv0). assert (Lr : (length rest < n)%nat).
      { rewrite En, Eq, app_length. destruct x; [congruence|]. cbn [length]. lia. }
      rewrite Eq in B. apply bytes_ok_app in B as (_ & Br). destruct (IH _ Lr rest (a + v) eq_refl Br ltac:(lia)) as (l & c & H). exists (a + v :: l), c. rewrite Eq. apply ds_more; assumption.
    + exists [], false. apply ds_bad; [discriminate|]. intros x' d tl Eq' U'. assert (E1 : read_uleb128 (y :: D) = (Ok v, rest)) by (apply uleb_iff; eauto).
      assert (E2 : read_uleb128 (y :: D) = (Ok d, tl)) by (apply uleb_iff; eauto). assert (d = v) by congruence. subst d. lia.
  - exists [], false. apply ds_bad; [discriminate|]. intros x' d tl Eq' U'. assert (E2 : read_uleb128 (y :: D) = (Ok d, tl)) by (apply uleb_iff; eauto). congruence.
Qed.
Lemma fs_iff a D l err : bytes_ok D -> 0 <= a < 2 ^ 64 -> (exists st, runs fs_next (D, a) l err st) <-> deltas a D l (negb err).
Proof.
  intros B Ha. split.
  - intros (st & R). destruct (deltas_total a D B Ha) as (l' & c & H). destruct (fs_step a D l' c B Ha H) as (st' & R' & _). destruct (runs_det _ _ _ _ _ R _ _ _ R') as (-> & -> & _). rewrite negb_involutive. exact H.
  - intros H. destruct (fs_step a D l _ B Ha H) as (st & R & _). rewrite negb_involutive in R. eauto.
Qed.

(** * Symbols *)
Lemma stab_iff is64 n : nlist_ok is64 n -> is_stab n = true <-> stab n.
Proof.
  intros (_ & H & _). unfold is_stab, stab. assert (E : Z.land (n_type n) 224 = (n_type n / 32) * 32).
  { assert (F : forallb (fun x => Z.land x 224 =? x / 32 * 32) (map Z.of_nat (seq 0 256)) = true) by (vm_compute; reflexivity).
    rewrite forallb_forall in F. specialize (F (n_type n)). apply Z.eqb_eq. apply F. apply in_map_iff. exists (Z.to_nat (n_type n)). split; [lia|]. apply in_seq. lia. }
  rewrite E. pose proof (Z.div_mod (n_type n) 32 ltac:(lia)). pose proof (Z.mod_pos_bound (n_type n) 32 ltac:(lia)). split; [intros Q|intros Q]; [nia|]. assert (1 <= n_type n / 32) by (apply Z.div_le_lower_bound; lia). lia.
Qed.
Lemma sym_next_runs is64 f l : Forall (nlist_ok is64) (mt_symbols (mf_symbols f)) -> forall pre, mt_symbols (mf_symbols f) = pre ++ l -> zlen (mt_symbols (mf_symbols f)) < 2 ^ 64 ->
  exists r, non_stabs (zlen pre) l r /\ runs (mach_sym_next f) (zlen pre) r false (zlen (mt_symbols (mf_symbols f))).
Proof.
  intros Hk.
  assert (ST : forall n pre l, mt_symbols (mf_symbols f) = pre ++ n :: l -> zlen (mt_symbols (mf_symbols f)) < 2 ^ 64 -> forall fuel,
    sym_next (S fuel) f (zlen pre) = if is_stab n then sym_next fuel f (zlen pre + 1) else (Ok (Some (zlen pre, n)), zlen pre + 1)).
  { intros n pre l' E Hl fuel. cbn [sym_next]. rewrite E at 1. rewrite zget_app2 by lia. rewrite Z.sub_diag. cbn. unfold padd.
    rewrite E, zlen_app, zlen_cons in Hl. pose proof (zlen_nonneg l'). replace (zlen pre + 1 <? 2 ^ 64) with true by lia. reflexivity. }
  assert (FU : forall l pre, mt_symbols (mf_symbols f) = pre ++ l -> zlen (mt_symbols (mf_symbols f)) < 2 ^ 64 -> forall fuel, (length l < fuel)%nat -> sym_next fuel f (zlen pre) = mach_sym_next f (zlen pre)).
  { intros l'. unfold mach_sym_next. induction l' as [|n l' IH]; intros pre E Hl fuel Hf.
    - rewrite app_nil_r in E. destruct fuel as [|fuel]; [lia|]. cbn [sym_next]. assert (G : zget (mt_symbols (mf_symbols f)) (zlen pre) = None) by (apply zget_None; rewrite E; lia). rewrite G. reflexivity.
    - destruct fuel as [|fuel]; [lia|]. rewrite !(ST n pre l' E Hl). destruct (is_stab n); [|reflexivity].
      assert (E' : mt_symbols (mf_symbols f) = (pre ++ [n]) ++ l') by (rewrite <- app_assoc; exact E).
      assert (Lp : zlen pre + 1 = zlen (pre ++ [n])) by (rewrite zlen_app; reflexivity). rewrite Lp. cbn [length] in Hf.
      rewrite (IH (pre ++ [n]) E' Hl fuel) by lia. symmetry. apply IH; [exact E'|exact Hl|]. rewrite E, app_length. cbn [length]. lia. }
  induction l as [|n l IH]; intros pre E Hl.
  - exists []. split; [constructor|]. rewrite app_nil_r in E. rewrite E. apply runs_done. unfold mach_sym_next. cbn [sym_next].
    assert (G : zget (mt_symbols (mf_symbols f)) (zlen pre) = None) by (apply zget_None; rewrite E; lia). rewrite G. reflexivity.
  - assert (E' : mt_symbols (mf_symbols f) = (pre ++ [n]) ++ l) by (rewrite <- app_assoc; exact E).
    assert (Lp : zlen (pre ++ [n]) = zlen pre + 1) by (rewrite zlen_app; reflexivity). destruct (IH (pre ++ [n]) E' Hl) as (r & N & R). rewrite Lp in N, R.
    assert (Hn : nlist_ok is64 n) by (rewrite E in Hk; apply Forall_app in Hk as (_ & Hk); inversion Hk; assumption).
    pose proof (stab_iff is64 n Hn) as SI.
    destruct (is_stab n) eqn:Es.
    + exists r. split; [apply nst_skip; [apply SI; reflexivity|exact N]|].
      assert (EN : mach_sym_next f (zlen pre) = mach_sym_next f (zlen pre + 1)).
      { unfold mach_sym_next at 1. rewrite (ST n pre l E Hl), Es. rewrite <- Lp. apply (FU l); [exact E'|exact Hl|]. rewrite E, app_length. cbn [length]. lia. }
      inversion R as [st st' Q|st st' Q|st st1 st' x l0 er Q R']; subst.
      * apply runs_done. rewrite EN. exact Q.
      * eapply runs_more; [rewrite EN; exact Q|exact R'].
    + exists ((zlen pre, n) :: r). split; [apply nst_take; [rewrite <- SI; congruence|exact N]|].
      eapply runs_more; [|exact R]. unfold mach_sym_next. rewrite (ST n pre l E Hl), Es. reflexivity.
Qed.
