(** Dyld shared caches: caches, addresses, slide information and relocations. *)
From Coq Require Import String.
From Verif Require Import Core_proofs Util_proofs File_proofs Hash_proofs Pod_proofs Iter_proofs Rel_proofs Mach_proofs.
From Verif Require Import Fix_proofs.
From Verif Require Fkind_proofs Ar_proofs XcoffC_proofs Coff_proofs BuildD_proofs Ar_spec.
From Verif Require Import Fkind_spec.
From Verif Require Import Shc_spec Shc_proofs ShcR_proofs ShcS_proofs ShcA_proofs.
Ltac inv_bind H x E := match type of H with bind ?m _ = Ok _ => destruct m as [x| |] eqn:E; [cbn [bind] in H|discriminate H|discriminate H] end.

(** * Files *)
Lemma sub_files_iff e : forall infos reg fs, zlen reg = zlen infos -> Forall file_ok reg -> Forall (fun i => zlen (su_uuid i) = 16) infos ->
  sub_files e reg infos = Ok fs <-> reg = map sf_data fs /\ Forall2 (fun i f => cache_file e f /\ holds (sf_data f) 88 (su_uuid i)) infos fs.
Proof.
  induction infos as [|i infos IH]; intros [|d reg] fs L Hr Hi; rewrite ?zlen_cons, ?zlen_nil in L; try (pose proof (zlen_nonneg reg); lia); try (pose proof (zlen_nonneg infos); lia).
  - cbn [sub_files]. split; [intros [= <-]; split; [reflexivity|constructor]|]. intros (_ & H). inversion H. reflexivity.
  - pose proof (Forall_inv Hr) as Hd. pose proof (Forall_inv_tail Hr) as Hr'. pose proof (Forall_inv Hi) as Hu. cbn beta in Hu. pose proof (Forall_inv_tail Hi) as Hi'. pose proof Hd as (_ & Ld).
    cbn [sub_files]. split.
    + intro H. inv_bind H h Eh. apply header_iff in Eh as (L2 & ->); [|exact Ld].
      destruct (bytes_eqb (zslice 88 16 (ztake 552 d)) (su_uuid i)) eqn:Q; [|discriminate H]. apply (hdr_bytes d 88 16) in Q; [|lia..].
      inv_bind H m Em. inv_bind H r Er. injection H as <-. apply IH in Er as (-> & F2); [|lia|exact Hr'|exact Hi']. apply mappings_iff in Em; [|exact Hd|exact L2].
      split; [reflexivity|]. constructor; [|exact F2]. cbn [sf_data]. split; [split; [exact L2|exact Em]|exact Q].
    + intros (E & H). inversion H as [|? f ? fs' ((L2 & Em) & Q) F2]; subst. cbn [map] in E. injection E as -> ->.
      rewrite (proj2 (header_iff _ _ Ld) (conj L2 eq_refl)). cbn [bind]. rewrite (proj2 (hdr_bytes (sf_data f) 88 16 (su_uuid i) L2 ltac:(lia) ltac:(lia) ltac:(lia) Hu) Q).
      rewrite (proj2 (mappings_iff e (sf_data f) Hd L2 _) Em). cbn [bind]. rewrite (proj2 (IH (map sf_data fs') fs' ltac:(lia) Hr' Hi')); [|auto]. cbn [bind]. destruct f; reflexivity.
Qed.
Lemma sub_files_np e : forall reg infos, sub_files e reg infos <> Panic.
Proof.
  induction reg as [|d reg IH]; intros [|i infos]; cbn [sub_files]; try discriminate.
  pose proof (header_np d). destruct (shc_header d) as [h| |]; cbn [bind]; [|discriminate|congruence].
  destruct (bytes_eqb _ _); [|discriminate]. pose proof (mappings_np e h d). destruct (shc_mappings e h d); cbn [bind]; [|discriminate|congruence].
  pose proof (IH infos). destruct (sub_files e reg infos); cbn [bind]; congruence.
Qed.
Definition flat {A} (l : option (list A)) : list A := match l with Some l => l | None => [] end.
Lemma infos_ok e F l : subcaches_at e F l -> Forall (fun i => zlen (su_uuid i) = 16) (flat l) /\ zlen (flat l) < 2 ^ 32 /\
  exists b, Forall (ssub_ok b) (flat l).
Proof.
  intros (h & _ & H). destruct l as [l|]; cbn [flat]; [|split; [constructor|split; [reflexivity|exists true; constructor]]]. destruct H as (_ & o & n & _ & (Hn & _) & (Ln & Fo & _)).
  split; [|split; [rewrite Ln; apply Hn|eexists; exact Fo]]. eapply Forall_impl; [|exact Fo]. intros x Hx. apply Hx.
Qed.
Lemma F2_zlen {A B} (R : A -> B -> Prop) l l' : Forall2 R l l' -> zlen l' = zlen l.
Proof. induction 1; rewrite ?zlen_cons; [reflexivity|congruence]. Qed.
Lemma zlen_map' {A B} (f : A -> B) l : zlen (map f l) = zlen l.
Proof. unfold zlen. rewrite map_length. reflexivity. Qed.
Lemma magic_fun F a e a' e' : 552 <= zlen F -> magic_at F a e -> magic_at F a' e' -> a = a' /\ e = e'.
Proof. intros L M M'. apply (magic_iff _ _ _ L) in M. apply (magic_iff _ _ _ L) in M'. rewrite M in M'. injection M' as <- <-. auto. Qed.
Lemma parse_iff F subs c : file_ok F -> Forall file_ok subs -> shc_parse F subs = Ok c <-> cache_of F subs c.
Proof.
  intros HF Hs. pose proof HF as (_ & LF). unfold shc_parse. split.
  - intro H. inv_bind H h Eh. apply header_iff in Eh as (L2 & ->); [|exact LF]. inv_bind H ae Em. destruct ae as [a e]. apply magic_iff in Em; [|exact L2].
    inv_bind H m Emp. apply mappings_iff in Emp; [|exact HF|exact L2]. cbv zeta in H.
    destruct (shc_symbols_uuid e (ztake 552 F)) as [u|] eqn:Es; (apply symbols_iff in Es; [|exact HF|exact L2]);
    inv_bind H info Ei; apply subcaches_iff in Ei; try assumption; destruct (infos_ok _ _ _ Ei) as (Hu & _); fold (flat info) in H;
    destruct (zlen subs =? zlen (flat info) + _) eqn:Q in H; cbn [negb] in H; try discriminate H; apply Z.eqb_eq in Q.
    + destruct (exists_last (l := subs)) as (rest & sd & ->); [intros ->; pose proof (zlen_nonneg (flat info)); rewrite zlen_nil in Q; lia|].
      destruct (rest ++ [sd]) as [|x0 xs] eqn:Ex; [destruct rest; discriminate Ex|]. rewrite <- Ex in *. clear Ex x0 xs. cbn [bind] in H. rewrite last_last, removelast_last in H. apply Forall_app in Hs as (Hr & Hd). apply Forall_inv in Hd.
      rewrite zlen_app in Q. change (zlen [sd]) with 1 in Q.
      assert (Eq : match info with Some l => sub_files e rest l | None => Ok [] end = sub_files e rest (flat info)).
      { destruct info; cbn [flat] in *; [reflexivity|]. destruct rest; [reflexivity|]. rewrite zlen_cons in Q. pose proof (zlen_nonneg rest). change (zlen (@nil ssub)) with 0 in Q. lia. }
      rewrite Eq in H. clear Eq. inv_bind H fs Ef. apply sub_files_iff in Ef as (-> & F2); [|lia|exact Hr|exact Hu].
      inv_bind H x Ex. inv_bind Ex sh Esh. apply header_iff in Esh as (L3 & ->); [|apply Hd].
      destruct (bytes_eqb (zslice 88 16 (ztake 552 sd)) u) eqn:Qu; [|discriminate Ex]. destruct Es as (hh & Uh & G1 & G2 & G3 & G4). apply (hdr_bytes sd 88 16) in Qu; [|lia..].
      inv_bind Ex sm Esm. apply mappings_iff in Esm; [|exact Hd|exact L3]. inv_bind H im Eim. apply images_iff in Eim; [|exact HF|exact L2]. injection H as <-.
      unfold cache_of. cbn [sc_arch sc_endian sc_data sc_images sc_files]. split; [exact Em|]. split; [reflexivity|]. split; [exact Eim|]. exists m, fs, info, (Some u). split; [reflexivity|].
      split; [split; [exact L2|exact Emp]|]. split; [exact Ei|]. split; [exists hh; auto|]. split; [exact F2|]. exists {| sf_data := sd; sf_maps := sm |}. cbn [sf_data]. split; [split; [exact L3|exact Esm]|]. auto.
    + cbn [bind] in H. rewrite Z.add_0_r in Q.
      assert (Eq : match info with Some l => sub_files e subs l | None => Ok [] end = sub_files e subs (flat info)).
      { destruct info; cbn [flat] in *; [reflexivity|]. destruct subs; [reflexivity|]. rewrite zlen_cons in Q. pose proof (zlen_nonneg subs). change (zlen (@nil ssub)) with 0 in Q. lia. }
      rewrite Eq in H. clear Eq. inv_bind H fs Ef. apply sub_files_iff in Ef as (-> & F2); [|lia|exact Hs|exact Hu]. cbn [bind] in H.
      inv_bind H im Eim. apply images_iff in Eim; [|exact HF|exact L2]. injection H as <-.
      unfold cache_of. cbn [sc_arch sc_endian sc_data sc_images sc_files]. split; [exact Em|]. split; [reflexivity|]. split; [exact Eim|]. exists m, fs, info, None. split; [reflexivity|].
      split; [split; [exact L2|exact Emp]|]. split; [exact Ei|]. split; [exact Es|]. split; [exact F2|reflexivity].
  - destruct c as [e d files im a]. unfold cache_of. cbn [sc_arch sc_endian sc_data sc_images sc_files]. intros (Em & -> & Eim & m & fs & info & sym & -> & (L2 & Emp) & Ei & Es & F2 & Q). cbn [sf_data sf_maps] in *.
    rewrite (proj2 (header_iff _ _ LF) (conj L2 eq_refl)). cbn [bind]. rewrite (proj2 (magic_iff F a e L2) Em). cbn [bind]. rewrite (proj2 (mappings_iff e F HF L2 _) Emp). cbn [bind]. cbv zeta.
    rewrite (proj2 (symbols_iff e F HF L2 sym) Es). rewrite (proj2 (subcaches_iff e F HF L2 info) Ei). cbn [bind]. fold (flat info) in *. destruct (infos_ok _ _ _ Ei) as (Hu & _). pose proof (F2_zlen _ _ _ F2) as Lf.
    assert (Eq : forall rest, zlen rest = zlen (flat info) -> match info with Some l => sub_files e rest l | None => Ok [] end = sub_files e rest (flat info)).
    { intros rest Lr. destruct info; cbn [flat] in *; [reflexivity|]. destruct rest; [reflexivity|]. rewrite zlen_cons in Lr. pose proof (zlen_nonneg rest). change (zlen (@nil ssub)) with 0 in Lr. lia. }
    destruct sym as [u|].
    + destruct Q as (s & (L3 & Esm) & Hu3 & ->). apply Forall_app in Hs as (Hr & Hd). apply Forall_inv in Hd. rewrite zlen_app, zlen_map', Lf. change (zlen [sf_data s]) with 1. rewrite Z.eqb_refl. cbn [negb].
      destruct (map sf_data fs ++ [sf_data s]) as [|x0 xs] eqn:Ex; [destruct (map sf_data fs); discriminate Ex|]. rewrite <- Ex in *. clear Ex x0 xs. cbn [bind]. rewrite last_last, removelast_last.
      rewrite Eq by (rewrite zlen_map'; exact Lf). rewrite (proj2 (sub_files_iff e (flat info) (map sf_data fs) fs ltac:(rewrite zlen_map'; exact Lf) Hr Hu)) by auto. cbn [bind].
      rewrite (proj2 (header_iff (sf_data s) _ (proj2 Hd)) (conj L3 eq_refl)). cbn [bind]. destruct Es as (hh & Uh & G1 & G2 & G3 & G4). rewrite (proj2 (hdr_bytes (sf_data s) 88 16 u L3 ltac:(lia) ltac:(lia) ltac:(lia) G2) Hu3).
      rewrite (proj2 (mappings_iff e (sf_data s) Hd L3 _) Esm). cbn [bind]. rewrite (proj2 (images_iff e F HF L2 _) Eim). cbn [bind]. reflexivity.
    + rewrite Q in *. rewrite zlen_map', Lf, Z.add_0_r, Z.eqb_refl. cbn [negb bind]. rewrite Eq by (rewrite zlen_map'; exact Lf).
      rewrite (proj2 (sub_files_iff e (flat info) (map sf_data fs) fs ltac:(rewrite zlen_map'; exact Lf) Hs Hu)) by auto. cbn [bind]. rewrite (proj2 (images_iff e F HF L2 _) Eim). cbn [bind]. reflexivity.
Qed.
Lemma parse_np F subs : shc_parse F subs <> Panic.
Proof.
  unfold shc_parse. pose proof (header_np F). destruct (shc_header F) as [h| |]; cbn [bind]; [|discriminate|congruence].
  pose proof (magic_np h). destruct (shc_magic h) as [(a & e)| |]; cbn [bind]; [|discriminate|congruence].
  pose proof (mappings_np e h F). destruct (shc_mappings e h F) as [m| |]; cbn [bind]; [|discriminate|congruence]. cbv zeta.
  pose proof (subcaches_np e h F). destruct (shc_subcaches e h F) as [info| |]; cbn [bind]; [|discriminate|congruence]. fold (flat info).
  destruct (zlen subs =? _) eqn:Q; cbn [negb]; [|discriminate]. apply Z.eqb_eq in Q. pose proof (images_np e h F) as NI.
  destruct (shc_symbols_uuid e h) as [u|].
  - destruct subs as [|x0 xs]; [pose proof (zlen_nonneg (flat info)); rewrite zlen_nil in Q; lia|]. cbn [bind].
    assert (NF : match info with Some l => sub_files e (removelast (x0 :: xs)) l | None => Ok [] end <> Panic) by (destruct info; [apply sub_files_np|discriminate]).
    destruct (match info with Some l => sub_files e (removelast (x0 :: xs)) l | None => Ok [] end); cbn [bind]; [|discriminate|congruence].
    pose proof (header_np (last (x0 :: xs) [])). destruct (shc_header (last (x0 :: xs) [])) as [sh| |]; cbn [bind]; [|discriminate|congruence]. destruct (bytes_eqb _ _); [|discriminate].
    pose proof (mappings_np e sh (last (x0 :: xs) [])). destruct (shc_mappings e sh (last (x0 :: xs) [])); cbn [bind]; [|discriminate|congruence]. destruct (shc_images e h F); cbn [bind]; congruence.
  - cbn [bind]. assert (NF : match info with Some l => sub_files e subs l | None => Ok [] end <> Panic) by (destruct info; [apply sub_files_np|discriminate]).
    destruct (match info with Some l => sub_files e subs l | None => Ok [] end); cbn [bind]; [|discriminate|congruence]. destruct (shc_images e h F); cbn [bind]; congruence.
Qed.

(** * Suffixes *)
Lemma dec_hd f : forall v acc, 0 < v < 10 ^ Z.of_nat f -> hd 0 (CoffW_model.dec_digits f v acc) <> 48.
Proof.
  induction f as [|f IH]; intros v acc Hv; [cbn in Hv; lia|]. cbn [CoffW_model.dec_digits]. destruct (Z.eqb_spec v 0); [lia|].
  assert (Hp : 10 ^ Z.of_nat (S f) = 10 * 10 ^ Z.of_nat f) by (rewrite Nat2Z.inj_succ, Z.pow_succ_r by lia; lia).
  destruct (Z.eq_dec (v / 10) 0) as [E|N].
  - rewrite E. assert (Em : v mod 10 = v) by (pose proof (Z.div_mod v 10); lia). destruct f; cbn [CoffW_model.dec_digits Z.eqb hd]; lia.
  - apply IH. split; [pose proof (Z.div_pos v 10); lia|]. apply Z.div_lt_upper_bound; lia.
Qed.
Lemma dot_ok i : 0 < i < 2 ^ 64 -> exists d, decimal i d /\ dot_number i = chars "."%string ++ d.
Proof.
  intro Hi. exists (CoffW_model.dec_digits 20 i []). split; [|reflexivity]. assert (B : 0 < i < 10 ^ Z.of_nat 20) by (split; [lia|]; apply Z.lt_trans with (2 ^ 64); [lia|reflexivity]).
  split; [|split; [apply dec_hd; exact B|]]; destruct (Coff_proofs.dec_digits_spec 20 i [] ltac:(lia)) as (ds & -> & HF & Hv & _); rewrite app_nil_r.
  - apply Forall_forall. intros x Hx. apply in_map_iff in Hx as (d & <- & Hd). rewrite Forall_forall in HF. specialize (HF d Hd). lia.
  - rewrite <- Hv. unfold Ar_spec.value. clear. generalize 0 as s. induction ds as [|d ds IH]; intro s; cbn [map fold_left]; [reflexivity|]. rewrite IH. f_equal. lia.
Qed.
Lemma until_null_ok s : ~ In 0 (until_null s) /\ (until_null s = s \/ exists r, s = until_null s ++ 0 :: r).
Proof.
  induction s as [|b s (IH1 & IH2)]; cbn [until_null]; [split; [tauto|left; reflexivity]|]. destruct (Z.eqb_spec b 0) as [->|N].
  - split; [tauto|]. right. exists s. reflexivity.
  - split; [intros [->|H]; tauto|]. destruct IH2 as [E|(r & E)]; [left; rewrite E; reflexivity|right; exists r; cbn [app]; rewrite <- E; reflexivity].
Qed.
Definition suffix_list (l : list ssub) : list bytes :=
  match l with
  | {| su_suffix := Some _ |} :: _ => map (fun s => match su_suffix s with Some x => until_null x | None => [] end) l
  | _ => map (fun i => dot_number (Z.of_nat i)) (seq 1 (length l))
  end.
Lemma zget_map' {A B} (f : A -> B) l : forall i, zget (map f l) i = option_map f (zget l i).
Proof.
  intro i. unfold zget. rewrite zlen_map'. destruct (_ && _); [|reflexivity]. apply nth_error_map.
Qed.
Lemma zget_seq n i : 0 <= i < Z.of_nat n -> zget (seq 1 n) i = Some (S (Z.to_nat i)).
Proof.
  intros Hi. unfold zget. assert (Ls : zlen (seq 1 n) = Z.of_nat n) by (unfold zlen; rewrite seq_length; reflexivity). rewrite Ls. destruct (Z.leb_spec 0 i); [|lia]. destruct (Z.ltb_spec i (Z.of_nat n)); [|lia]. cbn [andb]. assert (L : (Z.to_nat i < n)%nat) by lia. rewrite (nth_error_nth' (seq 1 n) O) by (rewrite seq_length; exact L). rewrite seq_nth by exact L. f_equal.
Qed.
Lemma suffix_list_ok b l : Forall (ssub_ok b) l -> zlen l < 2 ^ 32 -> zlen (suffix_list l) = zlen l /\ forall i s, zget l i = Some s -> exists x, zget (suffix_list l) i = Some x /\ suffix_of (i + 1) s x.
Proof.
  intros Hl L. destruct l as [|[u v [sx|]] l]; cbn [suffix_list].
  - split; [reflexivity|]. intros i s E. apply zget_Some_lt in E. change (zlen (@nil ssub)) with 0 in E. lia.
  - split; [apply zlen_map'|]. intros i s E. rewrite zget_map', E. cbn [option_map]. eexists. split; [reflexivity|].
    assert (Bt : b = true) by (apply Forall_inv in Hl; apply Hl). subst b. rewrite Forall_forall in Hl. pose proof (Hl s (zget_In _ _ _ E)) as (_ & _ & _ & H). unfold suffix_of. destruct (su_suffix s) as [y|]; [|discriminate H]. apply until_null_ok.
  - split; [rewrite zlen_map'; unfold zlen; rewrite seq_length; reflexivity|]. intros i s E. pose proof (zget_Some_lt _ _ _ E) as Hi. rewrite zget_map', zget_seq by (unfold zlen in Hi; exact Hi). cbn [option_map]. eexists. split; [reflexivity|].
    assert (Bt : b = false) by (apply Forall_inv in Hl; apply Hl). subst b. rewrite Forall_forall in Hl. pose proof (Hl s (zget_In _ _ _ E)) as (_ & _ & _ & H). unfold suffix_of. destruct (su_suffix s) as [y|]; [destruct H; discriminate|].
    replace (Z.of_nat (S (Z.to_nat i))) with (i + 1) by lia. destruct (dot_ok (i + 1)) as (d & D1 & D2); [lia|]. exists d. auto.
Qed.
Lemma suffixes_sound F l : file_ok F -> shc_suffixes F = Ok l -> exists a e, 552 <= zlen F /\ magic_at F a e /\ suffixes_at e F l.
Proof.
  intros HF H. unfold shc_suffixes in H. inv_bind H h Eh. apply header_iff in Eh as (L2 & ->); [|apply HF]. inv_bind H ae Em. destruct ae as [a e]. apply magic_iff in Em; [|exact L2].
  inv_bind H info Ei. apply subcaches_iff in Ei; [|exact HF|exact L2]. exists a, e. split; [exact L2|]. split; [exact Em|]. pose proof (proj1 (symbols_iff e F HF L2 _) eq_refl) as Es.
  destruct (infos_ok _ _ _ Ei) as (_ & Lb & b & Hb). destruct info as [info|]; [|injection H as <-; exists None, (shc_symbols_uuid e (ztake 552 F)), []; auto].
  cbn [flat] in *. destruct (suffix_list_ok b info Hb Lb) as (S1 & S2). fold (suffix_list info) in H. injection H as <-.
  exists (Some info), (shc_symbols_uuid e (ztake 552 F)), (suffix_list info). split; [exact Ei|]. split; [exact Es|]. split; [exact S1|]. split; [exact S2|]. reflexivity.
Qed.
Lemma suffixes_total F a e i : file_ok F -> 552 <= zlen F -> magic_at F a e -> subcaches_at e F i -> exists l, shc_suffixes F = Ok l.
Proof.
  intros HF L2 Em Ei. unfold shc_suffixes. rewrite (proj2 (header_iff _ _ (proj2 HF)) (conj L2 eq_refl)). cbn [bind]. rewrite (proj2 (magic_iff F a e L2) Em). cbn [bind]. rewrite (proj2 (subcaches_iff e F HF L2 i) Ei). cbn [bind].
  destruct i; eexists; reflexivity.
Qed.
Lemma suffixes_np F : shc_suffixes F <> Panic.
Proof.
  unfold shc_suffixes. pose proof (header_np F). destruct (shc_header F) as [h| |]; cbn [bind]; [|discriminate|congruence].
  pose proof (magic_np h). destruct (shc_magic h) as [(a & e)| |]; cbn [bind]; [|discriminate|congruence].
  pose proof (subcaches_np e h F). destruct (shc_subcaches e h F) as [[l|]| |]; cbn [bind]; [discriminate|discriminate|discriminate|congruence].
Qed.

(** * Addresses *)
Lemma map_offset_iff l a o : map_offset l a = Some o <-> exists l1 m l2, l = l1 ++ m :: l2 /\ Forall (fun m => ~ contains m a) l1 /\ contains m a /\ o = sm_offset m + (a - sm_address m) /\ o < 2 ^ 64.
Proof.
  induction l as [|m l IH]; cbn [map_offset].
  - split; [discriminate|]. intros (l1 & m & l2 & E & _). destruct l1; discriminate E.
  - assert (D : contains m a \/ ~ contains m a) by (unfold contains; lia). destruct D as [C|C].
    + assert (G : match csub a (sm_address m) with Some d => if d <? sm_size m then cadd 64 (sm_offset m) d else map_offset l a | None => map_offset l a end = cadd 64 (sm_offset m) (a - sm_address m)).
      { unfold contains in C. unfold csub. destruct (Z.leb_spec (sm_address m) a); [|destruct (Z.ltb_spec a (sm_address m)); try lia]; try (destruct (Z.ltb_spec (a - sm_address m) (sm_size m)); [reflexivity|lia]). }
      rewrite G. unfold cadd. destruct (Z.ltb_spec (sm_offset m + (a - sm_address m)) (2 ^ 64)).
      * split; [intros [= <-]; exists [], m, l; auto|]. intros (l1 & m' & l2 & E & Fn & C' & -> & _). destruct l1 as [|x l1]; cbn [app] in E; injection E as <- E; [reflexivity|]. apply Forall_inv in Fn. tauto.
      * split; [discriminate|]. intros (l1 & m' & l2 & E & Fn & C' & -> & B). destruct l1 as [|x l1]; cbn [app] in E; injection E as <- E; [lia|]. apply Forall_inv in Fn. tauto.
    + assert (G : match csub a (sm_address m) with Some d => if d <? sm_size m then cadd 64 (sm_offset m) d else map_offset l a | None => map_offset l a end = map_offset l a).
      { unfold contains in C. unfold csub. destruct (Z.leb_spec (sm_address m) a); [|try reflexivity]; try (destruct (Z.ltb_spec (a - sm_address m) (sm_size m)); [lia|reflexivity]). }
      rewrite G, IH. split.
      * intros (l1 & m' & l2 & -> & Fn & R). exists (m :: l1), m', l2. split; [reflexivity|]. split; [constructor; assumption|exact R].
      * intros (l1 & m' & l2 & E & Fn & C' & R). destruct l1 as [|x l1]; cbn [app] in E; injection E as <- E; [tauto|]. exists l1, m', l2. split; [exact E|]. split; [exact (Forall_inv_tail Fn)|]. auto.
Qed.
Lemma offset_iff c a d o : shc_offset c a = Some (d, o) <-> cache_offset c a d o.
Proof.
  unfold shc_offset, cache_offset. induction (sc_files c) as [|f l IH]; cbn [files_offset].
  - split; [discriminate|]. intros (l1 & m & l2 & E & _). destruct l1; discriminate E.
  - destruct (map_offset (sf_maps f) a) as [o'|] eqn:E.
    + apply map_offset_iff in E. fold (file_offset f a o') in E. split.
      * intros [= <- <-]. exists [], f, l. auto.
      * intros (f1 & g & f2 & Q & Fn & C & ->). destruct f1 as [|x f1]; cbn [app] in Q; injection Q as <- Q.
        -- apply map_offset_iff in C. apply map_offset_iff in E. rewrite C in E. injection E as ->. reflexivity.
        -- apply Forall_inv in Fn. destruct (Fn o' E).
    + assert (N : forall o', ~ file_offset f a o') by (intros o' C; apply map_offset_iff in C; congruence). rewrite IH. split.
      * intros (f1 & g & f2 & -> & Fn & R). exists (f :: f1), g, f2. split; [reflexivity|]. split; [constructor; assumption|exact R].
      * intros (f1 & g & f2 & Q & Fn & C & R). destruct f1 as [|x f1]; cbn [app] in Q; injection Q as <- Q; [destruct (N o C)|]. exists f1, g, f2. split; [exact Q|]. split; [exact (Forall_inv_tail Fn)|]. auto.
Qed.
