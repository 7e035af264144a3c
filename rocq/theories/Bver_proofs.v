(** Proofs about the version sections a Builder writes. *)
From Verif Require Import Core_proofs Str_proofs Tab_proofs Build_proofs Ver_spec Ver_proofs Bver_spec.

Lemma elf_hash_u32 s : u32_ok (elf_hash s).
Proof.
  unfold u32_ok. split; [unfold elf_hash; apply Z.land_nonneg; right; lia|]. unfold elf_hash. change 268435455 with (Z.ones 28). rewrite Z.land_ones by lia.
  pose proof (Z.mod_pos_bound (elf_hash_loop s 0) (2 ^ 28) ltac:(lia)). lia.
Qed.
Lemma eqb_len0 {A} (l : list A) : negb (zlen l =? 0) = match l with [] => false | _ => true end.
Proof. destruct l as [|x l]; [reflexivity|]. rewrite zlen_cons. pose proof (zlen_nonneg l). destruct (Z.eqb_spec (1 + zlen l) 0); [lia|reflexivity]. Qed.
Lemma F2_len {A B} (R : A -> B -> Prop) a b : Forall2 R a b -> zlen a = zlen b.
Proof. induction 1; [reflexivity|]. rewrite !zlen_cons. lia. Qed.
Lemma finds_views str l : finds str l -> exists os, Forall2 (fun n o => str n = Ok o) l os /\ Forall u32_ok os.
Proof. induction 1 as [|s l (o & E & Ho) _ (os & F & U)]; [exists []; split; constructor|]. exists (o :: os). split; constructor; assumption. Qed.
Lemma psub_ok a b : b <= a -> psub a b = Ok (a - b).
Proof. intros H. unfold psub. destruct (Z.leb_spec b a); [reflexivity|lia]. Qed.
Lemma padd_eq n a b : a + b < 2 ^ n -> padd n a b = Ok (a + b).
Proof. intros H. unfold padd. destruct (Z.ltb_spec (a + b) (2 ^ n)); [reflexivity|lia]. Qed.

(** * Definitions *)
Lemma w_verdauxs_ok e str names os : Forall2 (fun n o => str n = Ok o) names os -> w_verdauxs e str (zlen names) names = Ok (enc_names e os).
Proof.
  induction 1 as [|n o names os E F IH]; [reflexivity|]. cbn [w_verdauxs enc_names]. rewrite zlen_cons. pose proof (zlen_nonneg names).
  rewrite psub_ok by lia. cbn [bind]. rewrite E. cbn [bind]. replace (1 + zlen names - 1) with (zlen names) by lia. rewrite IH. cbn [bind].
  rewrite (F2_len _ _ _ F), eqb_len0. reflexivity.
Qed.
Lemma zlen_live_defs id l : zlen (live_defs id l) <= zlen l.
Proof.
  revert id. induction l as [|v l IH]; intros id; cbn [live_defs]; [reflexivity || (unfold zlen; cbn [length]; lia)|]. rewrite zlen_app, zlen_cons. specialize (IH (id + 1)).
  unfold zlen in *; destruct (v_del v), (v_data v); cbn [length]; lia.
Qed.
Definition def_names (l : list (Z * list bytes * Z)) : list bytes := concat (map (fun x => snd (fst x)) l).
Lemma w_verdefs_ok e str files l : forall id, Forall (ver_ok files) l -> 2 <= id -> id + zlen l <= 2 ^ 16 -> finds str (def_names (live_defs id l)) ->
  exists ds, w_verdefs e str (zlen (live_defs id l)) id l = Ok (enc_defs e ds) /\ Forall2 (view_of_def str) (live_defs id l) ds /\ Forall def_ok ds.
Proof.
  induction l as [|v l IH]; intros id Hv Hid Hb Hf.
  { exists []. split; [reflexivity|]. split; constructor. }
  rewrite zlen_cons in Hb. pose proof (zlen_nonneg l). pose proof (Forall_inv Hv) as H1. cbn beta in H1. apply Forall_inv_tail in Hv.
  cbn [live_defs w_verdefs] in *. unfold ver_ok in H1. destruct (v_del v); [cbn [app] in *; apply IH; [assumption|lia|lia|assumption]|].
  destruct (v_data v) as [names flags|]; [|cbn [app] in *; apply IH; [assumption|lia|lia|assumption]].
  destruct (H1 eq_refl) as (Hne & Hl & Hfl). cbn [app] in *. unfold def_names in Hf. cbn [map concat fst snd] in Hf. unfold finds in Hf. rewrite Forall_app in Hf. destruct Hf as [Hf1 Hf2].
  destruct (IH (id + 1) Hv ltac:(lia) ltac:(lia) Hf2) as (ds & E & F & D). destruct (finds_views _ _ Hf1) as (os & Fo & U).
  destruct names as [|name tl]; [contradiction|]. inversion Fo as [|? o ? os' Eo Fo']; subst.
  exists ({| dv_version := 1; dv_flags := flags; dv_index := id; dv_hash := elf_hash name; dv_names := o :: os' |} :: ds).
  rewrite zlen_cons. pose proof (zlen_nonneg (live_defs (id + 1) l)). rewrite psub_ok by lia. cbn [bind]. destruct (Z.leb_spec (2 ^ 16) (zlen (name :: tl))); [lia|].
  rewrite Eo. cbn [bind]. rewrite (w_verdauxs_ok e str tl os' Fo'). cbn [bind]. replace (1 + zlen (live_defs (id + 1) l) - 1) with (zlen (live_defs (id + 1) l)) by lia.
  rewrite E. cbn [bind]. split; [|split].
  - cbn [enc_defs dv_names List.tl]. rewrite (F2_len _ _ _ F), eqb_len0. unfold wverdef_of. cbn [dv_version dv_flags dv_index dv_hash dv_names hd].
    rewrite (F2_len _ _ _ Fo). unfold wrap_u. rewrite Z.mod_small by lia. reflexivity.
  - constructor; [|exact F]. cbn [view_of_def dv_version dv_flags dv_index dv_hash dv_names hd]. repeat (split; [reflexivity|]). exact Fo.
  - constructor; [|exact D]. unfold def_ok. cbn [dv_version dv_flags dv_index dv_hash dv_names]. split; [unfold u16_ok; lia|]. split; [exact Hfl|]. split; [unfold u16_ok; lia|].
    split; [apply elf_hash_u32|]. split; [discriminate|]. split; [rewrite <- (F2_len _ _ _ Fo); exact Hl|exact U].
Qed.

(** * Counting *)
Definition first_shared (base : option bytes) (l : list (Z * list bytes * Z)) : bool :=
  match base, l with Some b, (_, [n], _) :: _ => bytes_eqb n b | _, _ => false end.
Fixpoint names_total (l : list (Z * list bytes * Z)) : Z := match l with [] => 0 | x :: l => zlen (snd (fst x)) + names_total l end.
Lemma is_shared_eq names k base id fl l : names <> [] -> is_shared names k base = (k =? 1) && first_shared base ((id, names, fl) :: l).
Proof.
  intros H. unfold is_shared, first_shared. destruct names as [|n [|m names]]; [contradiction| |].
  - change (zlen [n]) with 1. cbn [Z.eqb Pos.eqb]. destruct (k =? 1), base; reflexivity.
  - rewrite !zlen_cons. pose proof (zlen_nonneg names). destruct (Z.eqb_spec (1 + (1 + zlen names)) 1); [lia|]. destruct (k =? 1), base; reflexivity.
Qed.
Lemma first_shared_names base x l : first_shared base (x :: l) = true -> exists b, base = Some b /\ snd (fst x) = [b].
Proof.
  destruct x as [[id names] fl]. unfold first_shared. destruct base as [b|]; [|discriminate]. destruct names as [|n [|]]; try discriminate. intro H. apply bytes_eqb_eq in H. subst. exists b. split; reflexivity.
Qed.
Definition sh_of (k : Z) base l : bool := (k =? 1) && first_shared base l.
Lemma sh_of_later base k l l' : base = None \/ 1 <= k -> sh_of (k + 1) base l = false /\ (k <> 1 -> sh_of k base l' = false).
Proof.
  unfold sh_of, first_shared. intros [->|H].
  - rewrite !andb_false_r. split; reflexivity.
  - split; [destruct (Z.eqb_spec (k + 1) 1); [lia|reflexivity]|]. intro. destruct (Z.eqb_spec k 1); [lia|reflexivity].
Qed.
Lemma live_needs_none files id f l : Forall (ver_ok files) l -> zget files f = None -> live_needs id f l = [].
Proof.
  intros Hv Hf. revert id. induction Hv as [|v l H _ IH]; intros id; cbn [live_needs]; [reflexivity|]. rewrite IH, app_nil_r. unfold ver_ok in H.
  destruct (v_del v); [reflexivity|]. destruct (v_data v) as [|g name fl]; [reflexivity|]. destruct (H eq_refl) as (_ & x & E & _). destruct (Z.eqb_spec g f); [congruence|reflexivity].
Qed.
Lemma count_versions_ok base (files : list bfile) l : forall id c, Forall (ver_ok files) l -> zlen (vc_files c) = zlen files -> base = None \/ 1 <= vc_def c -> 0 <= vc_def c ->
  vc_def c + zlen l < 2 ^ 16 -> (forall b, base = Some b -> In b (vc_strs c)) ->
  exists c', count_versions base id l c = Ok c' /\ vc_def c' = vc_def c + zlen (live_defs id l) /\
    vc_shared c' = sh_of (vc_def c) base (live_defs id l) || vc_shared c /\
    vc_daux c' = vc_daux c + names_total (live_defs id l) - (if sh_of (vc_def c) base (live_defs id l) then 1 else 0) /\
    vc_need c' = vc_need c /\ vc_naux c' = vc_naux c + size_vernauxs l /\ zlen (vc_files c') = zlen files /\
    (forall f x, zget (vc_files c) f = Some x -> zget (vc_files c') f = Some (x ++ map (fun x => fst (fst x)) (live_needs id f l))) /\
    incl (vc_strs c) (vc_strs c') /\ incl (def_names (live_defs id l)) (vc_strs c') /\
    (forall f, incl (map (fun x => snd (fst x)) (live_needs id f l)) (vc_strs c')).
Proof.
  induction l as [|v l IH]; intros id c Hv Hz Hb H0 Hl Hin.
  { exists c. cbn [count_versions live_defs live_needs names_total size_vernauxs map]. change (zlen (@nil (Z * list bytes * Z))) with 0.
    assert (sh_of (vc_def c) base [] = false) as -> by (unfold sh_of, first_shared; destruct base; apply andb_false_r).
    split; [reflexivity|]. repeat (split; [lia || reflexivity|]). split; [intros; rewrite app_nil_r; assumption|]. split; [apply incl_refl|]. split; [intros ? []|intros ? ? []]. }
  rewrite zlen_cons in Hl. pose proof (zlen_nonneg l). pose proof (Forall_inv Hv) as H1. cbn beta in H1. apply Forall_inv_tail in Hv. unfold ver_ok in H1.
  cbn [count_versions live_defs live_needs size_vernauxs]. destruct (v_del v).
  { cbn [bind app]. rewrite Z.add_0_l. apply IH; try assumption; lia. }
  destruct (v_data v) as [names flags|file name flags]; cbn [app count_version].
  - destruct (H1 eq_refl) as (Hne & _ & _). rewrite padd_eq by lia. cbn [bind]. rewrite (is_shared_eq names (vc_def c) base id flags (live_defs (id + 1) l) Hne).
    fold (sh_of (vc_def c) base ((id, names, flags) :: live_defs (id + 1) l)). set (sh := sh_of (vc_def c) base _). set (c1 := Build_vcount _ _ _ _ _ _ _).
    destruct (IH (id + 1) c1) as (c' & E & Ed & Es & Ea & En & Ex & Ez & Ef & I1 & I2 & I3); [assumption|exact Hz|right; subst c1; cbn [vc_def]; lia|subst c1; cbn [vc_def]; lia|subst c1; cbn [vc_def]; lia| |].
    { intros b Eb. subst c1. cbn [vc_strs]. specialize (Hin b Eb). destruct sh; [exact Hin|]. apply in_or_app. left. exact Hin. }
    exists c'. split; [exact E|]. subst c1. cbn [vc_def vc_daux vc_shared vc_need vc_naux vc_strs vc_files] in *. destruct (sh_of_later base (vc_def c) (live_defs (id + 1) l) [] Hb) as [Hs _]. rewrite Hs in Es, Ea.
    split; [rewrite zlen_cons; lia|]. split; [rewrite Es; destruct sh, (vc_shared c); reflexivity|].
    assert (Hsh : sh = true -> exists b, base = Some b /\ names = [b]).
    { intro Hsh. unfold sh, sh_of in Hsh. apply andb_prop in Hsh as [_ Hsh]. apply first_shared_names in Hsh. exact Hsh. }
    split.
    { rewrite Ea. cbn [names_total fst snd]. destruct sh; [|lia]. destruct (Hsh eq_refl) as (b & _ & ->). change (zlen [b]) with 1. lia. }
    split; [exact En|]. split; [lia|]. split; [exact Ez|]. split; [exact Ef|].
    assert (I0 : incl (vc_strs c) (vc_strs c')) by (eapply incl_tran; [|exact I1]; destruct sh; [apply incl_refl|apply incl_appl, incl_refl]).
    split; [exact I0|]. split; [|exact I3]. unfold def_names. cbn [map concat fst snd]. apply incl_app; [|exact I2].
    destruct sh eqn:Eh.
    + destruct (Hsh eq_refl) as (b & Eb & ->). intros s [<-|[]]. apply I0, Hin, Eb.
    + eapply incl_tran; [|exact I1]. apply incl_appr, incl_refl.
  - destruct (H1 eq_refl) as (_ & x & Ex & _). assert (Hr : 0 <= file < zlen files) by (apply zget_Some_lt in Ex; lia).
    destruct (zget (vc_files c) file) as [ids|] eqn:Eg; [|apply zget_None in Eg; lia]. cbn [unwrap bind]. set (c1 := Build_vcount _ _ _ _ _ _ _).
    destruct (IH (id + 1) c1) as (c' & E & Ed & Es & Ea & En & Ex' & Ez & Ef & I1 & I2 & I3); [assumption|subst c1; cbn [vc_files]; rewrite zlen_zset by lia; exact Hz|exact Hb|exact H0|subst c1; cbn [vc_def]; lia| |].
    { intros b Eb. subst c1. cbn [vc_strs]. apply in_or_app. left. apply Hin, Eb. }
    exists c'. split; [exact E|]. subst c1. cbn [vc_def vc_daux vc_shared vc_need vc_naux vc_strs vc_files] in *. split; [exact Ed|]. split; [exact Es|]. split; [exact Ea|]. split; [exact En|].
    split; [lia|]. split; [exact Ez|]. split; [|split; [|split; [exact I2|]]].
    + intros f y Ey. specialize (Ef f). rewrite zget_zset in Ef by lia. destruct (Z.eqb_spec f file) as [Efe|Hn].
      * subst f. rewrite Z.eqb_refl. rewrite Eg in Ey. injection Ey as ->. rewrite (Ef _ eq_refl). cbn [app map fst]. rewrite <- app_assoc. reflexivity.
      * destruct (Z.eqb_spec file f); [congruence|]. cbn [app]. apply Ef, Ey.
    + eapply incl_tran; [|exact I1]. apply incl_appl, incl_refl.
    + intro f. rewrite map_app. apply incl_app; [|apply I3]. destruct (file =? f); [|intros ? []]. intros s [<-|[]]. apply I1. apply in_or_app. right. left. reflexivity.
Qed.

Lemma size_verdefs_eq base files l : forall id k n, Forall (ver_ok files) l -> base = None \/ 1 <= k -> k + zlen l < 2 ^ 16 ->
  size_verdefs base l k n = Ok (gnu_verdef_size (k + zlen (live_defs id l)) (n + names_total (live_defs id l) - (if sh_of k base (live_defs id l) then 1 else 0))).
Proof.
  induction l as [|v l IH]; intros id k n Hv Hb Hl.
  { cbn [size_verdefs live_defs names_total]. assert (sh_of k base [] = false) as -> by (unfold sh_of, first_shared; destruct base; apply andb_false_r).
    change (zlen (@nil (Z * list bytes * Z))) with 0. do 2 f_equal; lia. }
  rewrite zlen_cons in Hl. pose proof (zlen_nonneg l). pose proof (Forall_inv Hv) as H1. cbn beta in H1. apply Forall_inv_tail in Hv. unfold ver_ok in H1.
  cbn [size_verdefs live_defs]. destruct (v_del v); [cbn [app]; apply IH; try assumption; lia|].
  destruct (v_data v) as [names flags|file name flags]; cbn [app]; [|apply IH; try assumption; lia].
  destruct (H1 eq_refl) as (Hne & _ & _). rewrite (is_shared_eq names k base id flags (live_defs (id + 1) l) Hne).
  fold (sh_of k base ((id, names, flags) :: live_defs (id + 1) l)). set (sh := sh_of k base _).
  assert (Hsh : sh = true -> zlen names = 1).
  { intro Hsh. unfold sh, sh_of in Hsh. apply andb_prop in Hsh as [_ Hsh]. apply first_shared_names in Hsh. destruct Hsh as (b & _ & En). cbn [fst snd] in En. subst. reflexivity. }
  destruct (Z_le_gt_dec 0 k) as [Hk|Hk].
  2:{ destruct Hb as [->|]; [|lia]. rewrite padd_eq by lia. cbn [bind]. rewrite (IH (id + 1)) by (first [assumption|left; reflexivity|lia]).
      destruct (sh_of_later None k (live_defs (id + 1) l) [] (or_introl eq_refl)) as [-> _]. unfold sh, sh_of, first_shared. rewrite andb_false_r. rewrite zlen_cons. cbn [names_total fst snd]. do 2 f_equal; lia. }
  rewrite padd_eq by lia. cbn [bind]. rewrite (IH (id + 1)) by (first [assumption|right; lia|lia]).
  destruct (sh_of_later base k (live_defs (id + 1) l) [] Hb) as [-> _]. rewrite zlen_cons. cbn [names_total fst snd]. destruct sh; [rewrite (Hsh eq_refl)|]; do 2 f_equal; lia.
Qed.

Lemma zlen_live_names id l : zlen (tab_iter f_del l) = zlen (live_files id l).
Proof.
  rewrite iter_filter. revert id. induction l as [|f l IH]; intros id; [reflexivity|]. cbn [filter live_files]. rewrite zlen_app. specialize (IH (id + 1)). unfold zlen in *. destruct (f_del f); cbn [negb length]; lia.
Qed.
Lemma count_files_ok l : forall id c, 0 <= vc_need c -> vc_need c + zlen l < 2 ^ 16 ->
  exists c', count_files l c = Ok c' /\ vc_def c' = vc_def c /\ vc_shared c' = vc_shared c /\ vc_daux c' = vc_daux c /\
    vc_need c' = vc_need c + zlen (live_files id l) /\ vc_naux c' = vc_naux c /\ vc_files c' = vc_files c /\
    vc_strs c' = vc_strs c ++ map snd (live_files id l).
Proof.
  induction l as [|f l IH]; intros id c H0 Hl.
  { exists c. cbn [count_files live_files map]. change (zlen (@nil (Z * bytes))) with 0. rewrite app_nil_r. repeat (split; [lia || reflexivity|]). reflexivity. }
  rewrite zlen_cons in Hl. pose proof (zlen_nonneg l). cbn [count_files live_files]. destruct (f_del f); [cbn [app]; apply IH; lia|].
  rewrite padd_eq by lia. cbn [bind]. match goal with |- context [count_files l ?c1] => destruct (IH (id + 1) c1) as (c' & E & E1 & E2 & E3 & E4 & E5 & E6 & E7); [cbn [vc_need]; lia|cbn [vc_need]; lia|] end.
  exists c'. split; [exact E|]. cbn [vc_def vc_daux vc_shared vc_need vc_naux vc_strs vc_files] in *. cbn [app map snd]. rewrite zlen_cons. split; [exact E1|]. split; [exact E2|]. split; [exact E3|]. split; [lia|].
  split; [exact E5|]. split; [exact E6|]. rewrite E7, <- app_assoc. reflexivity.
Qed.

Definition strings_of (base : option bytes) (files : list bfile) (vers : list bver) : list bytes :=
  match base with Some b => [b] | None => [] end ++ def_names (live_defs 2 vers).
(** What counting establishes. *)
Lemma count_all_ok base files vers : Forall (ver_ok files) vers -> 2 + zlen vers - 1 <= 32767 -> zlen files < 2 ^ 16 ->
  let k := match base with Some _ => 1 | None => 0 end in let defs := live_defs 2 vers in let sh := sh_of k base defs in
  exists c, count_all base files vers = Ok c /\ vc_def c = k + zlen defs /\ vc_shared c = sh /\
    vc_daux c = k + names_total defs - (if sh then 1 else 0) /\ vc_need c = zlen (live_files 0 files) /\ vc_naux c = size_vernauxs vers /\
    (forall f, 0 <= f < zlen files -> zget (vc_files c) f = Some (map (fun x => fst (fst x)) (live_needs 2 f vers))) /\
    (forall b, base = Some b -> In b (vc_strs c)) /\ incl (def_names defs) (vc_strs c) /\
    (forall f, incl (map (fun x => snd (fst x)) (live_needs 2 f vers)) (vc_strs c)) /\ incl (map snd (live_files 0 files)) (vc_strs c).
Proof.
  intros Hv Hn Hf k defs sh. unfold count_all. destruct (Z.ltb_spec 32767 (2 + zlen vers - 1)); [lia|].
  destruct (count_versions_ok base files vers 2 (vc_init base files) Hv) as (c1 & E & Ed & Es & Ea & En & Ex & Ez & Ef & I1 & I2 & I3).
  - cbn [vc_init vc_files]. unfold zlen. rewrite repeat_length. reflexivity.
  - destruct base; [right; cbn; lia|left; reflexivity].
  - destruct base; cbn [vc_init vc_def]; lia.
  - destruct base; cbn [vc_init vc_def]; lia.
  - intros b ->. left. reflexivity.
  - assert (vc_def (vc_init base files) = k) as Hk by reflexivity. rewrite Hk in *. cbn [vc_init vc_need vc_naux vc_daux vc_shared] in *. rewrite E. cbn [bind].
    destruct (count_files_ok files 0 c1) as (c & E' & E1 & E2 & E3 & E4 & E5 & E6 & E7); [lia|lia|]. exists c. split; [exact E'|].
    split; [rewrite E1; exact Ed|]. split; [rewrite E2, Es, orb_false_r; reflexivity|]. split; [rewrite E3, Ea; unfold k; reflexivity|]. split; [lia|]. split; [lia|]. split.
    { intros f Hff. rewrite E6. rewrite (Ef f []); [reflexivity|]. cbn [vc_init vc_files]. clear - Hff. unfold zget. unfold zlen in *. rewrite repeat_length.
      destruct (Z.leb_spec 0 f); [|lia]. destruct (Z.ltb_spec f (Z.of_nat (length files))); [|lia]. cbn [andb]. apply nth_error_repeat. lia. }
    split; [intros b ->; rewrite E7; apply in_or_app; left; apply I1; left; reflexivity|]. split; [rewrite E7; apply incl_appl; exact I2|].
    split; [intro f; rewrite E7; apply incl_appl, I3|]. rewrite E7. apply incl_appr, incl_refl.
Qed.

(** * The definition section *)
Lemma own_names_false (l : list def_view) : own_names (map fst (map (fun d => (false, d, eflags (dv_names d))) l)) = fold_right (fun d n => zlen (dv_names d) + n) 0 l.
Proof. induction l as [|d l IH]; [reflexivity|]. cbn [map fst own_names fold_right]. rewrite IH. reflexivity. Qed.
Lemma views_total str l ds : Forall2 (view_of_def str) l ds -> fold_right (fun d n => zlen (dv_names d) + n) 0 ds = names_total l.
Proof.
  induction 1 as [|[[id names] fl] d l ds (_ & _ & _ & _ & F) _ IH]; [reflexivity|]. cbn [fold_right names_total fst snd]. rewrite IH, (F2_len _ _ _ F). reflexivity.
Qed.
Lemma verdef_section e str base files vers : Forall (ver_ok files) vers -> 2 + zlen vers - 1 <= 32767 -> zlen files < 2 ^ 16 ->
  exists c, count_all base files vers = Ok c /\
    (finds str (vc_strs c) -> exists data its views,
      w_verdef_section e str base vers c = Ok data /\ bytes_ok data /\ b_verdef_size base vers = Ok (zlen data) /\ gnu_verdef_size (vc_def c) (vc_daux c) = zlen data /\
      runs (verdef_next e) data its false [] /\ Forall2 (reads_def e) its views /\ Forall2 (view_of_def str) (all_defs base vers) views).
Proof.
  intros Hv Hn Hfz. destruct (count_all_ok base files vers Hv Hn Hfz) as (c & E & Ed & Es & Ea & _ & _ & _ & Ib & In_ & _ & _). cbv zeta in *.
  exists c. split; [exact E|]. intros Hf. pose proof (zlen_live_defs 2 vers).
  assert (Hfn : finds str (def_names (live_defs 2 vers))) by (unfold finds in *; rewrite Forall_forall in *; intros s Hs; apply Hf, In_, Hs).
  destruct (w_verdefs_ok e str files vers 2 Hv ltac:(lia) ltac:(lia) Hfn) as (ds & Ew & F & D). pose proof (zlen_nonneg (live_defs 2 vers)).
  assert (Hsz : b_verdef_size base vers = Ok (gnu_verdef_size (vc_def c) (vc_daux c))).
  { unfold b_verdef_size. rewrite Ed, Ea. destruct base; rewrite (size_verdefs_eq _ files vers 2); try assumption; try lia; try (left; reflexivity); reflexivity. }
  assert (Hod : Forall own_ok (map (fun d => (false, d, eflags (dv_names d))) ds)).
  { rewrite Forall_map. eapply Forall_impl; [|exact D]. intros d (_ & _ & _ & _ & _ & _ & U). unfold own_ok. cbn [fst snd]. intros _. split; [apply length_eflags|apply nf_ok_eflags; exact U]. }
  assert (Hwf : items_wf (map fst (map (fun d => (false, d, eflags (dv_names d))) ds))) by (rewrite map_map; cbn [fst]; clear; induction ds as [|d ds IH]; [exact I|exact IH]).
  assert (Htot := views_total _ _ _ F). assert (Hlen := F2_len _ _ _ F).
  assert (Hviews : forall e its ds, Forall2 (reads_def' e) its (map (fun d => (false, d, eflags (dv_names d))) ds) -> Forall2 (reads_def e) its ds).
  { clear. intros e its ds. revert its. induction ds as [|d ds IH]; intros its HF; inversion HF; subst; constructor; [|apply IH; assumption]. match goal with H : reads_def' _ _ _ |- _ => apply H end. }
  unfold w_verdef_section, all_defs. destruct base as [b|].
  - rewrite Ed. rewrite psub_ok by lia. cbn [bind]. unfold finds in Hf. rewrite Forall_forall in Hf. destruct (Hf b (Ib b eq_refl)) as (o & Eo & Ho). rewrite Eo. cbn [bind].
    replace (1 + zlen (live_defs 2 vers) - 1) with (zlen (live_defs 2 vers)) by lia. rewrite Ew. cbn [bind]. rewrite Es.
    set (bd := {| dv_version := 1; dv_flags := 1; dv_index := 1; dv_hash := elf_hash b; dv_names := [o] |}).
    assert (Dbd : def_ok bd).
    { unfold def_ok, bd; cbn [dv_version dv_flags dv_index dv_hash dv_names]. split; [unfold u16_ok; lia|]. split; [unfold u16_ok; lia|]. split; [unfold u16_ok; lia|].
      split; [apply elf_hash_u32|]. split; [discriminate|]. split; [change (zlen [o]) with 1; lia|]. constructor; [exact Ho|constructor]. }
    set (sh := sh_of 1 (Some b) (live_defs 2 vers)) in *.
    assert (Eb : (if sh then gnu_verdef_shared e {| wd_version := 1; wd_flags := 1; wd_index := 1; wd_aux_count := 1; wd_name := o; wd_hash := elf_hash b |}
                  else gnu_verdef e (negb (zlen (live_defs 2 vers) =? 0)) {| wd_version := 1; wd_flags := 1; wd_index := 1; wd_aux_count := 1; wd_name := o; wd_hash := elf_hash b |}) ++ enc_defs e ds =
                 sec e ((sh, bd, [false]) :: map (fun d => (false, d, eflags (dv_names d))) ds)).
    { rewrite Hlen, eqb_len0. destruct sh.
      - rewrite enc_defs_eq by exact D. reflexivity.
      - transitivity (enc_defs e (bd :: ds)); [reflexivity|]. rewrite enc_defs_eq by (constructor; assumption). reflexivity. }
    rewrite Eb. set (items := (sh, bd, [false]) :: map (fun d => (false, d, eflags (dv_names d))) ds).
    assert (Ho' : Forall own_ok items).
    { constructor; [|exact Hod]. unfold own_ok. cbn [fst snd]. intros _. split; [reflexivity|]. unfold bd; cbn [dv_names combine nf_ok]. split; [exact Ho|]. split; [tauto|exact I]. }
    assert (Hw' : items_wf (map fst items)).
    { unfold items. cbn [map fst items_wf]. destruct sh eqn:Esh; [|exact Hwf]. unfold sh, sh_of in Esh. apply andb_prop in Esh as [_ Esh].
      destruct ds as [|d ds]; [inversion F as [Hnil|]; rewrite <- Hnil in Esh; discriminate|]. inversion F as [|x ? l' ? Hx F']; subst. rewrite <- H1 in Esh. apply first_shared_names in Esh.
      destruct Esh as (b' & Eb' & En). injection Eb' as <-. destruct x as [[id names] fl]. cbn [fst snd] in En. subst names. destruct Hx as (_ & _ & _ & _ & Fx).
      inversion Fx as [|? o' ? os Eo' Fos]; subst. inversion Fos; subst. cbn [map fst]. split; [|exact Hwf]. exists []. unfold bd; cbn [dv_names]. rewrite app_nil_r. congruence. }
    destruct (sec_read e items) as (its & R & FR); [|exact Hw'|exact Ho'|].
    { constructor; [exact Dbd|]. rewrite Forall_map. exact D. }
    assert (Hzl : gnu_verdef_size (vc_def c) (vc_daux c) = zlen (sec e items)).
    { rewrite zlen_sec by exact Ho'. unfold items at 1. rewrite zlen_cons, zlen_map. unfold items. cbn [map fst own_names]. rewrite own_names_false, Htot, Ed, Ea, Hlen. unfold gnu_verdef_size, bd; cbn [dv_names].
      change (zlen [o]) with 1. fold sh. destruct sh; lia. }
    exists (sec e items), its, (bd :: ds). split; [reflexivity|]. split; [apply bytes_ok_sec|]. split; [rewrite Hsz, Hzl; reflexivity|]. split; [first [exact Hzl|rewrite <- Ed; exact Hzl]|]. split; [exact R|].
    unfold items in FR. inversion FR as [|it ? its' ? H1 F1]; subst. split.
    + constructor; [apply H1|]. apply Hviews. exact F1.
    + cbn [app]. constructor; [|exact F]. unfold view_of_def, bd. cbn [dv_version dv_flags dv_index dv_hash dv_names hd]. repeat (split; [reflexivity|]). constructor; [exact Eo|constructor].
  - rewrite Ed. rewrite Z.add_0_l. rewrite Ew. rewrite enc_defs_eq by exact D. destruct (sec_read e (map (fun d => (false, d, eflags (dv_names d))) ds)) as (its & R & FR); [|exact Hwf|exact Hod|].
    { rewrite Forall_map. exact D. }
    assert (Hzl : gnu_verdef_size (vc_def c) (vc_daux c) = zlen (sec e (map (fun d => (false, d, eflags (dv_names d))) ds))).
    { rewrite zlen_sec by exact Hod. rewrite zlen_map, own_names_false, Htot, Ed, Ea, Hlen. assert (sh_of 0 None (live_defs 2 vers) = false) as -> by reflexivity. unfold gnu_verdef_size. lia. }
    eexists _, its, ds. split; [reflexivity|]. split; [apply bytes_ok_sec|]. split; [rewrite Hsz, Hzl; reflexivity|]. split; [|split; [exact R|split; [apply Hviews; exact FR|exact F]]].
    first [exact Hzl|replace (zlen (live_defs 2 vers)) with (vc_def c) by lia; exact Hzl].
Qed.
