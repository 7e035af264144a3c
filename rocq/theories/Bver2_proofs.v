(** Proofs about the version requirements a Builder writes, and about the version table read back. *)
From Verif Require Import Core_proofs Str_proofs Tab_proofs Build_proofs Ver_spec Ver_proofs Bver_spec Bver_proofs.

Lemma live_needs_get files f l : forall id x, Forall (ver_ok files) l -> In x (live_needs id f l) ->
  let '(i, name, flags) := x in id <= i < id + zlen l /\ u16_ok flags /\ exists v, zget l (i - id) = Some v /\ v_data v = VNeed f name flags.
Proof.
  induction l as [|v l IH]; intros id [[i name] flags] Hv Hx; [destruct Hx|].
  pose proof (Forall_inv Hv) as H1. cbn beta in H1. apply Forall_inv_tail in Hv. cbn [live_needs] in Hx. rewrite zlen_cons. pose proof (zlen_nonneg l). apply in_app_or in Hx as [Hx|Hx].
  - unfold ver_ok in H1. destruct (v_del v); [destruct Hx|]. destruct (v_data v) as [|g n fl] eqn:Ed; [destruct Hx|]. destruct (Z.eqb_spec g f); [|destruct Hx]. destruct Hx as [Hx|[]]. injection Hx as -> -> ->. subst g.
    split; [lia|]. split; [apply H1; reflexivity|]. exists v. rewrite Z.sub_diag. split; [reflexivity|exact Ed].
  - specialize (IH (id + 1) (i, name, flags) Hv Hx). cbn beta iota in IH. destruct IH as (Hr & Hu & w & Ew & Ed). split; [lia|]. split; [exact Hu|]. exists w. rewrite zget_S by lia.
    replace (i - id - 1) with (i - (id + 1)) by lia. split; assumption.
Qed.
Lemma w_vernauxs_ok e str files vers f : Forall (ver_ok files) vers -> zlen vers + 2 <= 2 ^ 15 -> forall xs, incl xs (live_needs 2 f vers) ->
  finds str (map (fun x => snd (fst x)) xs) ->
  exists xa, w_vernauxs e str vers (zlen xs) (map (fun x => fst (fst x)) xs) = Ok (nbytes e xa) /\ Forall2 (view_of_naux str) xs xa /\ Forall naux_ok xa.
Proof.
  intros Hv Hz. induction xs as [|[[id name] flags] xs IH]; intros Hi Hf.
  { exists []. split; [reflexivity|]. split; constructor. }
  cbn [map fst snd] in *. unfold finds in Hf. pose proof (Forall_inv Hf) as (o & Eo & Ho). apply Forall_inv_tail in Hf. destruct (IH (fun x H => Hi x (or_intror H)) Hf) as (xa & E & F & A).
  pose proof (live_needs_get files f vers 2 _ Hv (Hi _ (or_introl eq_refl))) as (Hr & Hu & v & Eg & Ed).
  exists ({| nv_flags := flags; nv_index := id; nv_name := o; nv_hash := elf_hash name |} :: xa). cbn [w_vernauxs]. rewrite zlen_cons. pose proof (zlen_nonneg xs).
  rewrite psub_ok by lia. cbn [bind]. rewrite Eg. cbn [unwrap bind]. rewrite Ed, Eo. cbn [bind]. replace (1 + zlen xs - 1) with (zlen xs) by lia. rewrite E. cbn [bind]. split; [|split].
  - cbn [nbytes]. rewrite (F2_len _ _ _ F), eqb_len0. unfold wvernaux_of. cbn [nv_flags nv_index nv_name nv_hash]. unfold wrap_u. rewrite Z.mod_small by lia. reflexivity.
  - constructor; [|exact F]. cbn [view_of_naux nv_flags nv_index nv_name nv_hash]. repeat (split; [reflexivity|]). exact Eo.
  - constructor; [|exact A]. unfold naux_ok. cbn [nv_flags nv_index nv_name nv_hash]. split; [exact Hu|]. split; [unfold u16_ok; lia|]. split; [exact Ho|apply elf_hash_u32].
Qed.
Lemma zlen_live_needs id f l : zlen (live_needs id f l) <= zlen l.
Proof.
  revert id. induction l as [|v l IH]; intros id; cbn [live_needs]; [unfold zlen; cbn [length]; lia|]. rewrite zlen_app, zlen_cons. specialize (IH (id + 1)).
  unfold zlen in *; destruct (v_del v); [|destruct (v_data v) as [|g n fl]; [|destruct (g =? f)]]; cbn [length]; lia.
Qed.
Lemma w_verneeds_ok e str files vers outs : Forall (ver_ok files) vers -> zlen vers + 2 <= 2 ^ 15 -> forall fs fid,
  (forall k, fid <= k < fid + zlen fs -> zget outs k = Some (map (fun x => fst (fst x)) (live_needs 2 k vers))) ->
  (forall k, finds str (map (fun x => snd (fst x)) (live_needs 2 k vers))) -> finds str (map snd (live_files fid fs)) ->
  exists ns, w_verneeds e str vers outs (zlen (live_files fid fs)) fid fs = Ok (nsec e ns) /\ Forall2 (view_of_need str vers) (live_files fid fs) ns /\ Forall need_ok ns.
Proof.
  intros Hv Hz. induction fs as [|f fs IH]; intros fid Ho Hn Hf.
  { exists []. split; [reflexivity|]. split; constructor. }
  rewrite zlen_cons in Ho. pose proof (zlen_nonneg fs). cbn [live_files w_verneeds] in *. destruct (f_del f); [cbn [app] in *; apply IH; [intros; apply Ho; lia|assumption|assumption]|].
  cbn [app map snd] in *. unfold finds in Hf. pose proof (Forall_inv Hf) as (o & Eo & Hoo). apply Forall_inv_tail in Hf. destruct (IH (fid + 1)) as (ns & E & F & N); [intros; apply Ho; lia|assumption|exact Hf|].
  rewrite (Ho fid) by lia. cbn [unwrap bind]. rewrite zlen_cons. pose proof (zlen_nonneg (live_files (fid + 1) fs)). rewrite psub_ok by lia. cbn [bind]. rewrite zlen_map. pose proof (zlen_live_needs 2 fid vers). pose proof (zlen_nonneg (live_needs 2 fid vers)).
  destruct (Z.leb_spec (2 ^ 16) (zlen (live_needs 2 fid vers))); [lia|]. rewrite Eo. cbn [bind]. destruct (w_vernauxs_ok e str files vers fid Hv Hz (live_needs 2 fid vers) (incl_refl _) (Hn fid)) as (xa & Ea & Fa & A).
  rewrite Ea. cbn [bind]. replace (1 + zlen (live_files (fid + 1) fs) - 1) with (zlen (live_files (fid + 1) fs)) by lia. rewrite E. cbn [bind].
  exists ({| nd_version := 1; nd_file := o; nd_auxs := xa |} :: ns). split; [|split].
  - cbn [nsec nd_auxs]. rewrite (F2_len _ _ _ F), eqb_len0. unfold wverneed_of. cbn [nd_version nd_file nd_auxs]. rewrite (F2_len _ _ _ Fa). reflexivity.
  - constructor; [|exact F]. cbn [view_of_need nd_version nd_file nd_auxs]. split; [reflexivity|]. split; [exact Eo|exact Fa].
  - constructor; [|exact N]. unfold need_ok. cbn [nd_version nd_file nd_auxs]. split; [unfold u16_ok; lia|]. split; [exact Hoo|]. split; [rewrite <- (F2_len _ _ _ Fa); lia|exact A].
Qed.

(** * Counting the requirements by file *)
Definition sumf (g : Z -> Z) (l : list (Z * bytes)) : Z := fold_right (fun x n => g (fst x) + n) 0 l.
Lemma sumf_add g h l : sumf (fun k => g k + h k) l = sumf g l + sumf h l.
Proof. induction l as [|x l IH]; [reflexivity|]. cbn [sumf fold_right] in *. unfold sumf in IH. lia. Qed.
Lemma sumf_ext g h l : (forall k, g k = h k) -> sumf g l = sumf h l.
Proof. intros H. induction l as [|x l IH]; [reflexivity|]. unfold sumf in *. cbn [fold_right]. rewrite H, IH. reflexivity. Qed.
Lemma sumf_zero l : sumf (fun _ => 0) l = 0.
Proof. induction l as [|x l IH]; [reflexivity|]. unfold sumf in *. cbn [fold_right]. rewrite IH. reflexivity. Qed.
Lemma sumf_ind_out file fs : forall fid, ~ (fid <= file < fid + zlen fs) -> sumf (fun k => if file =? k then 1 else 0) (live_files fid fs) = 0.
Proof.
  induction fs as [|f fs IH]; intros fid H; [reflexivity|]. rewrite zlen_cons in H. pose proof (zlen_nonneg fs). cbn [live_files]. unfold sumf in *. rewrite fold_right_app, IH by lia.
  destruct (f_del f); [reflexivity|]. cbn [fold_right fst]. destruct (Z.eqb_spec file fid); [lia|reflexivity].
Qed.
Lemma sumf_ind file fs : forall fid f, zget fs (file - fid) = Some f -> f_del f = false -> sumf (fun k => if file =? k then 1 else 0) (live_files fid fs) = 1.
Proof.
  induction fs as [|g fs IH]; intros fid f Hg Hd; [apply zget_Some_lt in Hg; change (zlen (@nil bfile)) with 0 in Hg; lia|]. pose proof (zget_Some_lt _ _ _ Hg) as Hr.
  cbn [live_files]. destruct (Z.eq_dec file fid) as [->|Hne].
  - rewrite Z.sub_diag in Hg. injection Hg as ->. rewrite Hd. cbn [app]. pose proof (sumf_ind_out fid fs (fid + 1) ltac:(lia)). unfold sumf in *. cbn [fold_right fst]. rewrite Z.eqb_refl. lia.
  - rewrite zget_S in Hg by lia. specialize (IH (fid + 1) f). replace (file - (fid + 1)) with (file - fid - 1) in IH by lia. specialize (IH Hg Hd). unfold sumf in *. rewrite fold_right_app, IH.
    destruct (f_del g); [reflexivity|]. cbn [fold_right fst]. destruct (Z.eqb_spec file fid); [contradiction|reflexivity].
Qed.
Lemma size_vernauxs_sum files l : forall id, Forall (ver_ok files) l -> sumf (fun k => zlen (live_needs id k l)) (live_files 0 files) = size_vernauxs l.
Proof.
  induction l as [|v l IH]; intros id Hv; cbn [size_vernauxs].
  { rewrite (sumf_ext _ (fun _ => 0)); [apply sumf_zero|reflexivity]. }
  pose proof (Forall_inv Hv) as H1. cbn beta in H1. apply Forall_inv_tail in Hv. unfold ver_ok in H1. rewrite <- (IH (id + 1) Hv).
  rewrite (sumf_ext _ (fun k => zlen match v_del v, v_data v with false, VNeed f name flags => if f =? k then [(id, name, flags)] else [] | _, _ => [] end + zlen (live_needs (id + 1) k l))).
  2:{ intro k. cbn [live_needs]. apply zlen_app. }
  rewrite sumf_add. f_equal. destruct (v_del v); [apply sumf_zero|]. destruct (v_data v) as [|file name flags]; [apply sumf_zero|]. destruct (H1 eq_refl) as (_ & f & Ef & Df).
  rewrite (sumf_ext _ (fun k => if file =? k then 1 else 0)) by (intro k; destruct (file =? k); reflexivity). apply (sumf_ind file files 0 f); [rewrite Z.sub_0_r; exact Ef|exact Df].
Qed.
Lemma all_auxs_sum str vers l ns : Forall2 (view_of_need str vers) l ns -> all_auxs ns = sumf (fun k => zlen (live_needs 2 k vers)) l.
Proof.
  induction 1 as [|[k name] n l ns (_ & _ & F) _ IH]; [reflexivity|]. unfold sumf in *. cbn [all_auxs fold_right fst]. rewrite IH, (F2_len _ _ _ F). reflexivity.
Qed.
Lemma zlen_live_files fid l : zlen (live_files fid l) <= zlen l.
Proof. revert fid. induction l as [|f l IH]; intros fid; cbn [live_files]; [unfold zlen; cbn [length]; lia|]. rewrite zlen_app, zlen_cons. specialize (IH (fid + 1)). unfold zlen in *; destruct (f_del f); cbn [length]; lia. Qed.
Lemma verneed_section e str base files vers : Forall (ver_ok files) vers -> 2 + zlen vers - 1 <= 32767 -> zlen files < 2 ^ 16 ->
  exists c, count_all base files vers = Ok c /\
    (finds str (vc_strs c) -> exists data its views,
      w_verneed_section e str vers files c = Ok data /\ bytes_ok data /\ b_verneed_size files vers = zlen data /\ gnu_verneed_size (vc_need c) (vc_naux c) = zlen data /\
      runs (verneed_next e) data its false [] /\ Forall2 (reads_need e) its views /\ Forall2 (view_of_need str vers) (live_files 0 files) views).
Proof.
  intros Hv Hn Hfz. destruct (count_all_ok base files vers Hv Hn Hfz) as (c & E & _ & _ & _ & En & Ex & Ef & _ & _ & In_ & If). cbv zeta in *.
  exists c. split; [exact E|]. intros Hf. unfold finds in Hf. rewrite Forall_forall in Hf.
  destruct (w_verneeds_ok e str files vers (vc_files c) Hv ltac:(lia) files 0) as (ns & Ew & F & N).
  - intros k Hk. apply Ef. lia.
  - intro k. apply Forall_forall. intros s Hs. apply Hf, (In_ k), Hs.
  - apply Forall_forall. intros s Hs. apply Hf, If, Hs.
  - destruct (nsec_read e ns N) as (its & R & FR). exists (nsec e ns), its, ns. unfold w_verneed_section. rewrite En. split; [exact Ew|]. split; [apply bytes_ok_nsec|].
    pose proof (zlen_live_files 0 files). pose proof (zlen_nonneg (live_files 0 files)).
    assert (Hs : gnu_verneed_size (zlen (live_files 0 files)) (vc_naux c) = zlen (nsec e ns)).
    { rewrite zlen_nsec, (all_auxs_sum _ _ _ _ F), (size_vernauxs_sum files vers 2 Hv), Ex, (F2_len _ _ _ F). reflexivity. }
    split; [|split; [exact Hs|split; [exact R|split; [exact FR|exact F]]]].
    unfold b_verneed_size. rewrite (zlen_live_names 0 files). unfold wrap_u. rewrite Z.mod_small by lia. rewrite <- Ex. exact Hs.
Qed.
