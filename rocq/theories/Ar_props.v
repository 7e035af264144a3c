(** C30 (archives) and C43 (archive symbol tables) *)
From Coq Require Import Sorted.
From Verif Require Import Ar_spec.
From Verif Require Import Base Core_proofs Util_proofs File_proofs Ar_proofs ArSym_proofs ArEnc_proofs.
From Verif Require Import Obj_model.

Lemma first_bound F a : file_ok F -> archive_of F a ->
  ar_data a = F /\ match ar_members a with MCommon o e => 0 <= o /\ e = zlen F | MZos o e => 0 <= o /\ e = zlen F /\ ar_kind a = AKZos | MAix i => Forall (fun x => zlen x = 20) i end.
Proof.
  intros HF [H|[H|H]].
  - destruct H as (H1 & H2 & syms & off & H3 & H4 & H5). split; [assumption|]. rewrite H5. split; [|reflexivity].
    destruct H3 as [Ha|m n1 nm Ha Hb|m n1 Ha Hb|m n1 m2 n2 nm Ha Hb Hc|m n1 Ha Hb|m n1 m2 n2 nm Ha Hb Hc|m n1 nm Ha Hb|m n1 nm Ha Hb|m1 n1 m2 n2 nm n3 n4 Ha Hb Hc Hd]; try lia;
    try (apply named_pos in Ha; [|lia]); try assumption; try (apply named_pos in Hb; [|lia]); try assumption.
    assert (0 <= n3) by (destruct Hc as [(_ & -> & _)|(m3 & Hc & _)]; [lia|apply named_pos in Hc; lia]).
    destruct Hd as [(-> & _)|(m4 & Hd)]; [lia|apply named_pos in Hd; lia].
  - destruct H as (H1 & H2 & H3 & H4 & H5 & [(m & n & H6 & H7 & H8 & H9 & H10)|(H6 & H7 & H8)]); (split; [assumption|]).
    + rewrite H10. apply zos_member_next in H7. repeat split; try assumption; lia.
    + rewrite H8. repeat split; try assumption; lia.
  - destruct H as (H1 & H2 & H3 & H4 & fh & H5 & H6 & H7 & _ & mo & H9 & H10). split; [assumption|].
    destruct (mo =? 0); [rewrite H10; constructor|]. destruct H10 as (m & d & index & Ha & Hb & Hc & ->). destruct Hc as (c & n & tl & _ & _ & _ & _ & Hc). exact Hc.
Qed.

(** Parsing accepts exactly the archives, and describes them as specified. *)
Theorem C30_parse : forall F a, file_ok F -> ar_parse F = Ok a <-> archive_of F a.
Proof. intros F a HF. apply parse_iff. assumption. Qed.
Print Assumptions C30_parse.
Theorem C30_parse_no_panic : forall F, file_ok F -> ar_parse F <> Panic.
Proof. exact parse_no_panic. Qed.
Print Assumptions C30_parse_no_panic.

(** The member at an offset *)
Theorem C30_member : forall F a off m, file_ok F -> ar_parse F = Ok a -> 0 <= off -> ar_member a off = Ok m <-> member_of F a off m.
Proof.
  intros F a off m HF Ha Ho. apply C30_parse in Ha; [|assumption]. destruct (first_bound F a HF Ha) as [HD HM]. unfold ar_member, member_of. rewrite HD.
  destruct (ar_members a) as [o e|i|o e]; [destruct HM as (HM & ->)| |destruct HM as (HM & -> & _)].
  - destruct ((off <? o) || (zlen F <=? off)) eqn:E; [split; [discriminate|lia]|].
    destruct (member_parse F off (ar_names a) (ar_thin a)) as [[m' n]| |] eqn:Em; cbn [bind fst].
    + split.
      * intros [= ->]. split; [lia|]. exists n. apply member_iff in Em; assumption.
      * intros (_ & n' & H). apply member_iff in H; [|assumption|assumption]. congruence.
    + split; [discriminate|]. intros (_ & n' & H). apply member_iff in H; [|assumption|assumption]. congruence.
    + exfalso. exact (member_no_panic _ _ _ _ HF Ho Em).
  - apply aix_member_iff; assumption.
  - destruct ((off <? o) || (zlen F <=? off)) eqn:E; [split; [discriminate|lia]|].
    destruct (member_parse_zos F off) as [[m' n]| |] eqn:Em; cbn [bind fst].
    + split.
      * intros [= ->]. split; [lia|]. exists n. apply zos_member_iff in Em; assumption.
      * intros (_ & n' & H). apply zos_member_iff in H; [|assumption|assumption]. congruence.
    + split; [discriminate|]. intros (_ & n' & H). apply zos_member_iff in H; [|assumption|assumption]. congruence.
    + exfalso. exact (zos_member_no_panic _ _ HF Ho Em).
Qed.
Print Assumptions C30_member.
Theorem C30_member_no_panic : forall F a off, file_ok F -> ar_parse F = Ok a -> 0 <= off -> ar_member a off <> Panic.
Proof.
  intros F a off HF Ha Ho. apply C30_parse in Ha; [|assumption]. destruct (first_bound F a HF Ha) as [HD HM]. unfold ar_member. rewrite HD.
  destruct (ar_members a) as [o e|i|o e].
  - destruct ((off <? o) || (e <=? off)); [discriminate|]. pose proof (member_no_panic F (ar_names a) (ar_thin a) off HF Ho).
    destruct (member_parse F off (ar_names a) (ar_thin a)); cbn [bind]; congruence.
  - apply aix_member_no_panic.
  - destruct ((off <? o) || (e <=? off)); [discriminate|]. pose proof (zos_member_no_panic F off HF Ho).
    destruct (member_parse_zos F off); cbn [bind]; congruence.
Qed.
Print Assumptions C30_member_no_panic.

(** Iterating over the members always ends, returns the members of the archive in order, and returns nothing more after that
    (in particular after an error). *)
Theorem C30_members : forall F a, file_ok F -> ar_parse F = Ok a ->
  exists l bad st, runs (ar_members_next a) (ar_members a) l bad st /\ listing F a l bad /\ ar_members_next a st = (Ok None, st).
Proof.
  intros F a HF Ha. apply C30_parse in Ha; [|assumption]. destruct (first_bound F a HF Ha) as [HD HM]. unfold listing, ar_members_next. rewrite HD.
  destruct (ar_members a) as [o e|i|o e]; [destruct HM as (HM & ->)| |destruct HM as (HM & -> & _)].
  - destruct (members_total F (ar_names a) (ar_thin a) o HF HM) as (l & e & o' & H1 & H2). exists l, e, (MCommon o' (zlen F)).
    split; [assumption|]. split; [eapply members_runs; eauto|]. cbn [members_next]. destruct (Z.leb_spec (zlen F) o'); [reflexivity|lia].
  - destruct (aix_members_total F (ar_names a) (ar_thin a) i) as (l & e & H1). exists l, e, (MAix []).
    split; [assumption|]. split; [eapply aix_members_runs; eauto|reflexivity].
  - destruct (zos_members_total F (ar_names a) (ar_thin a) o HF HM) as (l & e & o' & H1 & H2). exists l, e, (MZos o' (zlen F)).
    split; [assumption|]. split; [eapply zos_members_runs; eauto|]. cbn [members_next]. destruct (Z.leb_spec (zlen F) o'); [reflexivity|lia].
Qed.
Print Assumptions C30_members.

(** Every member that is found by iteration can be found with its offset; all the offsets are different except in AIX archives. *)
Lemma members_in F names thin off l e m : 0 <= off -> members_from F names thin off l e -> In m l ->
  exists o next, off <= o < zlen F /\ member_at F names thin o m next.
Proof.
  intros Ho H. induction H as [off H|off H1 H2|off m' next l e H1 H2 H3 IH]; intro Hin; [destruct Hin|destruct Hin|]. destruct Hin as [->|Hin].
  - exists off, next. split; [lia|assumption].
  - apply member_next in H2. destruct (IH ltac:(lia) Hin) as (o & n & H4 & H5). exists o, n. split; [lia|assumption].
Qed.
Lemma zos_members_in F off l e m : 0 <= off -> zos_members_from F off l e -> In m l ->
  exists o next, off <= o < zlen F /\ zos_member_at F o m next.
Proof.
  intros Ho H. induction H as [off H|off H1 H2|off m' next l e H1 H2 H3 IH]; intro Hin; [destruct Hin|destruct Hin|]. destruct Hin as [->|Hin].
  - exists off, next. split; [lia|assumption].
  - apply zos_member_next in H2. destruct (IH ltac:(lia) Hin) as (o & n & H4 & H5). exists o, n. split; [lia|assumption].
Qed.
Theorem C30_members_member : forall F a l bad m, file_ok F -> ar_parse F = Ok a -> listing F a l bad -> In m l ->
  exists off, 0 <= off /\ ar_member a off = Ok m.
Proof.
  intros F a l bad m HF Ha Hl Hin.
  assert (exists off, 0 <= off /\ member_of F a off m) as (off & Ho & Hm); [|exists off; split; [assumption|]; apply (C30_member F a off m HF Ha Ho); assumption].
  apply C30_parse in Ha; [|assumption]. destruct (first_bound F a HF Ha) as [HD HM]. unfold listing in Hl. unfold member_of.
  destruct (ar_members a) as [o e|i|o e]; [destruct HM as (HM & ->)| |destruct HM as (HM & -> & _)].
  - destruct (members_in _ _ _ _ _ _ _ HM Hl Hin) as (off & n & H1 & H2). exists off. split; [lia|]. split; [lia|eauto].
  - clear - Hl Hin. induction Hl as [|x l Hx|x off m' l ms bad H1 H2 H3 IH]; [destruct Hin|destruct Hin|]. destruct Hin as [->|Hin]; [|auto].
    exists off. split; [|assumption]. apply number_bound in H1; lia.
  - destruct (zos_members_in _ _ _ _ _ HM Hl Hin) as (off & n & H1 & H2). exists off. split; [lia|]. split; [lia|eauto].
Qed.
Print Assumptions C30_members_member.

(** The number of members is bounded by the size of the file. *)
Lemma zos_members_count F off l e : 0 <= off -> zos_members_from F off l e -> off <= zlen F -> 60 * zlen l <= zlen F - off.
Proof.
  intros Ho H. induction H as [off H|off H1 H2|off m next l e H1 H2 H3 IH]; intro Hf; change (zlen (@nil member)) with 0; try lia.
  rewrite zlen_cons. apply zos_member_next in H2. destruct (Z.leb_spec next (zlen F)); [specialize (IH ltac:(lia) H); lia|].
  inversion H3; subst; [|lia|lia]. change (zlen (@nil member)) with 0. lia.
Qed.
Lemma zlen_index (i : list bytes) : Forall (fun x => zlen x = 20) i -> zlen (concat i) = 20 * zlen i.
Proof. intro H. induction H as [|x l H1 H2 IH]; [reflexivity|]. cbn [concat]. rewrite zlen_app, zlen_cons. lia. Qed.
Lemma aix_members_count F i l e : aix_members F i l e -> zlen l <= zlen i.
Proof. intro H. induction H as [|x l Hx|x off m' l ms bad H1 H2 H3 IH]; rewrite ?zlen_cons; change (zlen (@nil member)) with 0; try (pose proof (zlen_nonneg l)); try lia. vm_compute. discriminate. Qed.
Theorem C30_members_count : forall F a l bad, file_ok F -> ar_parse F = Ok a -> listing F a l bad -> 20 * zlen l <= zlen F.
Proof.
  intros F a l bad HF Ha Hl. apply C30_parse in Ha; [|assumption]. destruct (first_bound F a HF Ha) as [_ HM].
  unfold listing in Hl. pose proof (zlen_nonneg l). destruct (ar_members a) as [o e|i|o e] eqn:Em; [destruct HM as (HM & ->)| |destruct HM as (HM & -> & _)].
  - destruct (Z.leb_spec o (zlen F)); [apply members_count in Hl; lia|]. inversion Hl; subst; [|lia|lia]. change (zlen (@nil member)) with 0. pose proof (zlen_nonneg F). lia.
  - apply aix_members_count in Hl. destruct Ha as [Ha|[Ha|Ha]].
    + destruct Ha as (_ & _ & s & off & _ & _ & Ha). congruence.
    + destruct Ha as (_ & _ & _ & _ & _ & [(m & n & _ & _ & _ & _ & Ha)|(_ & _ & Ha)]); congruence.
    + destruct Ha as (H1 & H2 & H3 & H4 & fh & H5 & H6 & H7 & _ & mo & H9 & H10).
      destruct (mo =? 0); [assert (Ei : i = []) by congruence; rewrite Ei in Hl; change (zlen (@nil bytes)) with 0 in Hl; pose proof (zlen_nonneg F); lia|].
      destruct H10 as (m & d & index & Ha & [Hb1 Hb2] & Hc & Ei). assert (index = i) by congruence. subst index.
      destruct Hc as (c & n & tl & -> & Hc1 & _ & _ & Hc2). apply holds_bounds in Hb1. rewrite !zlen_app, zlen_index in Hb1 by assumption. pose proof (zlen_nonneg tl). lia.
  - destruct (Z.leb_spec o (zlen F)); [apply zos_members_count in Hl; lia|]. inversion Hl; subst; [|lia|lia]. change (zlen (@nil member)) with 0. pose proof (zlen_nonneg F). lia.
Qed.
Print Assumptions C30_members_count.

(** The data of a member are the bytes of the file in its range, which is checked against the size of the file; the members of a thin
    archive have no data. *)
Theorem C30_data : forall F a off m d, file_ok F -> ar_parse F = Ok a -> 0 <= off -> ar_member a off = Ok m ->
  mb_data F m = Ok d <-> (mb_is_thin m = true /\ d = []) \/ (mb_is_thin m = false /\ contents F m d).
Proof.
  intros F a off m d HF Ha Ho Hm. apply (C30_member F a off m HF Ha Ho) in Hm. unfold member_of in Hm.
  destruct (mb_is_thin m) eqn:Et.
  - unfold mb_data. rewrite Et. split; [intros [= <-]; auto|intros [[_ ->]|[? _]]; [reflexivity|discriminate]].
  - unfold mb_is_thin in Et. assert (Hc : mb_data F m = Ok d <-> contents F m d); [|rewrite Hc; split; [auto|intros [[? _]|[_ ?]]; [discriminate|assumption]]].
    destruct (ar_members a) as [o e|i|o e].
    + destruct Hm as (_ & n & Hm). eapply member_data_iff; eauto. lia.
    + eapply aix_data_iff; eauto.
    + destruct Hm as (_ & n & [h sz H1 H2 H3 H4 H5 H6 H7]). apply holds_bounds in H1. pose proof (number_bound _ _ _ _ _ (eq_refl : 1 < 10) H4) as Hb.
      assert (0 <= mb_offset m <= zlen F /\ 0 <= mb_size m).
      { destruct H5 as [ds k raw nm Ha' Hb' Hc' Hd He Hf Hg|]; [|lia]. apply holds_bounds in He. pose proof (zlen_nonneg raw). lia. }
      destruct HF as [_ HF]. unfold mb_data, mb_is_thin, contents. destruct (Z.eqb_spec (mb_offset m) 0); [lia|]. rewrite rr_read_bytes_at_eq by lia.
      destruct (Z.eqb_spec (mb_size m) 0) as [E|].
      * split.
        -- intros [= <-]. split; [apply holds_nil; lia|rewrite E; reflexivity].
        -- intros [H8 H9]. rewrite E in H9. apply zlen_0_nil in H9. subst. reflexivity.
      * destruct (Z.leb_spec (mb_offset m + mb_size m) (zlen F)).
        -- split.
           ++ intros [= <-]. split; [apply holds_zslice; lia|rewrite zlen_zslice; lia].
           ++ intros [H8 H9]. apply holds_slice in H8. rewrite H9 in H8. congruence.
        -- split; [discriminate|]. intros [H8 H9]. apply holds_bounds in H8. lia.
Qed.
Print Assumptions C30_data.
(** Only thin archives have members without data. *)
Theorem C30_thin : forall F a off m, file_ok F -> ar_parse F = Ok a -> 0 <= off -> ar_member a off = Ok m -> mb_is_thin m = true ->
  ar_thin a = true /\ holds F 0 AR_THIN_MAGIC.
Proof.
  intros F a off m HF Ha Ho Hm Ht. apply (C30_member F a off m HF Ha Ho) in Hm. unfold member_of in Hm. unfold mb_is_thin in Ht.
  pose proof Ha as Hp. apply C30_parse in Hp; [|assumption].
  destruct (ar_members a) as [o e|i|o e] eqn:Em.
  - destruct Hp as [Hp|[Hp|Hp]].
    + destruct (ar_thin a) eqn:Eth; [split; [reflexivity|]; destruct Hp as (_ & Hp & _); rewrite Eth in Hp; exact Hp|].
      destruct Hm as (_ & n & Hm). apply special_offset in Hm; [lia|assumption|auto].
    + destruct Hp as (_ & _ & _ & _ & _ & [(m' & n & _ & _ & _ & _ & Hp)|(_ & _ & Hp)]); congruence.
    + destruct Hp as (_ & _ & _ & _ & fh & _ & _ & _ & _ & mo & _ & Hp). destruct (mo =? 0); [congruence|]. destruct Hp as (m' & d & index & _ & _ & _ & Hp). congruence.
  - destruct Hm as [h n pos H1 H2 H3 H4 H5 H6 H7 H8 H9 H10]. pose proof (zlen_nonneg (mb_name m)). pose proof (Z.mod_pos_bound (off + 112 + n) 2). lia.
  - destruct Hm as (_ & n & [h sz H1 H2 H3 H4 H5 H6 H7]). destruct H5 as [ds k raw nm Ha' Hb' Hc' Hd He Hf Hg|]; [|lia]. pose proof (zlen_nonneg raw). lia.
Qed.
Print Assumptions C30_thin.

(** The date, owner and mode of a member are the numbers in the fields of its header (None if there is none). *)
Theorem C30_attributes : forall F a off m v, file_ok F -> ar_parse F = Ok a -> 0 <= off -> ar_member a off = Ok m ->
  (mb_date m = Some v <-> attr m 10 (16, 12) (60, 12) v) /\ (mb_uid m = Some v <-> attr m 10 (28, 6) (72, 12) v) /\
  (mb_gid m = Some v <-> attr m 10 (34, 6) (84, 12) v) /\ (mb_mode m = Some v <-> attr m 8 (40, 8) (96, 12) v).
Proof.
  intros F a off m v HF Ha Ho Hm. apply (C30_member F a off m HF Ha Ho) in Hm. unfold member_of in Hm.
  assert (Hl : match mb_header m with HCommon h | HZos h => zlen h = 60 | HAix h => zlen h = 112 end).
  { destruct (ar_members a) as [o e|i|o e].
    - destruct Hm as (_ & n & [h sz doff A1 A2 A3 A4 A5 A6 A7]). rewrite A6. assumption.
    - destruct Hm as [h n pos A1 A2 A3 A4 A5 A6 A7 A8 A9 A10]. rewrite A10. assumption.
    - destruct Hm as (_ & n & [h sz A1 A2 A3 A4 A5 A6 A7]). rewrite A6. assumption. }
  assert (Hne : forall (h : bytes) o n, 0 <= o -> 0 < n -> o + n <= zlen h -> zslice o n h <> []).
  { intros h o n Ho' Hn1 Hn2 E. pose proof (zlen_zslice o n h) as HZ. rewrite E in HZ. change (zlen (@nil Z)) with 0 in HZ. lia. }
  unfold mb_date, mb_uid, mb_gid, mb_mode, attr, ah_date, ah_uid, ah_gid, ah_mode, xh_date, xh_uid, xh_gid, xh_mode. cbn [fst snd].
  destruct (mb_header m) as [h|h|h]; (split; [|split; [|split]]);
    first [apply parse_u64_digits_iff|apply parse_u64_ebcdic_digits_iff]; try (apply Hne; lia); lia.
Qed.
Print Assumptions C30_attributes.

(** The ranges of the members of an ordinary archive do not overlap, and are in the order of the file. *)
Theorem C30_disjoint : forall F a l bad, file_ok F -> ar_parse F = Ok a -> listing F a l bad -> ar_kind a <> AKAixBig -> ar_thin a = false ->
  StronglySorted (fun m m' => mb_offset m + mb_size m <= mb_offset m') l.
Proof.
  intros F a l bad HF Ha Hl Hk Ht. apply C30_parse in Ha; [|assumption]. destruct (first_bound F a HF Ha) as [HD HM]. unfold listing in Hl.
  assert (Hcase : (exists off, 0 <= off /\ members_from F (ar_names a) false off l bad) \/ (exists off, 0 <= off /\ zos_members_from F off l bad)).
  { destruct (ar_members a) as [o e|i|o e] eqn:Em; [destruct HM as (HM & ->)| |destruct HM as (HM & -> & _)].
    - left. exists o. rewrite Ht in Hl. auto.
    - destruct Ha as [Ha|[Ha|Ha]].
      + destruct Ha as (_ & _ & s & off & _ & _ & Ha). congruence.
      + destruct Ha as (_ & _ & _ & _ & _ & [(m & n & _ & _ & _ & _ & Ha)|(_ & _ & Ha)]); congruence.
      + destruct Ha as (_ & Ha & _). contradiction.
    - right. eauto. }
  clear - HF Hcase. destruct Hcase as [(off & Ho & H)|(off & Ho & H)].
  - assert (StronglySorted (fun m m' => mb_offset m + mb_size m <= mb_offset m') l /\ Forall (fun m => off <= mb_offset m) l) as [? _]; [|assumption].
    remember false as thin eqn:Et. revert Ho. induction H as [off H|off H1 H2|off m next l e H1 H2 H3 IH]; intro Ho; [split; constructor|split; constructor|]. subst thin.
    pose proof (member_next _ _ _ _ _ _ H2) as Hn. destruct (IH ltac:(lia)) as [I1 I2].
    assert (off <= mb_offset m /\ mb_offset m + mb_size m <= next) as [B1 B2].
    { destruct H2 as [h sz doff A1 A2 A3 A4 A5 A6 A7]. apply holds_bounds in A1. pose proof (number_bound _ _ _ _ _ (eq_refl : 1 < 10) A4) as Hb. destruct A7 as [-> ->].
      pose proof (Z.mod_pos_bound sz 2).
      assert (off + 60 <= doff /\ doff + mb_size m = off + 60 + sz); [|lia].
      destruct A5 as [| ds' n' raw' nm Ha Hb' Hc Hd He Hf Hg| | |]; try lia. pose proof (zlen_nonneg raw'). lia. }
    split; constructor; auto; (eapply Forall_impl; [|exact I2]); cbv beta; intros; lia.
  - assert (StronglySorted (fun m m' => mb_offset m + mb_size m <= mb_offset m') l /\ Forall (fun m => off <= mb_offset m) l) as [? _]; [|assumption].
    revert Ho. induction H as [off H|off H1 H2|off m next l e H1 H2 H3 IH]; intro Ho; [split; constructor|split; constructor|].
    pose proof (zos_member_next _ _ _ _ H2) as Hn. destruct (IH ltac:(lia)) as [I1 I2].
    assert (off <= mb_offset m /\ mb_offset m + mb_size m <= next) as [B1 B2].
    { destruct H2 as [h sz A1 A2 A3 A4 A5 A6 ->]. apply holds_bounds in A1. pose proof (number_bound _ _ _ _ _ (eq_refl : 1 < 10) A4) as Hb.
      pose proof (Z.mod_pos_bound sz 2).
      assert (off + 60 <= mb_offset m /\ mb_offset m + mb_size m = off + 60 + sz); [|lia].
      destruct A5 as [ ds' n' raw' nm Ha Hb' Hc Hd He Hf Hg| ]; try lia. pose proof (zlen_nonneg raw'). lia. }
    split; constructor; auto; (eapply Forall_impl; [|exact I2]); cbv beta; intros; lia.
Qed.
Print Assumptions C30_disjoint.

(** Reading back what the archivers write: an archive with a symbol table and any members, with names of any length. *)
Theorem C30_gnu : forall symtab l, Forall entry_ok l -> zlen symtab < 10 ^ 10 -> zlen (gnu_names l) < 10 ^ 10 ->
  let F := gnu_archive symtab l in file_ok F ->
  exists a ms, ar_parse F = Ok a /\ ar_kind a = AKGnu /\ ar_thin a = false /\ ar_data a = F /\
    (exists st, runs (ar_members_next a) (ar_members a) ms false st) /\ Forall2 (is_entry F) ms l /\
    ar_symbols a = (68, zlen symtab) /\ holds F 68 symtab.
Proof. exact gnu_round. Qed.
Print Assumptions C30_gnu.
Theorem C30_bsd : forall symtab l, Forall entry_ok l -> zlen symtab < 10 ^ 9 ->
  let F := bsd_archive symtab l in file_ok F ->
  exists a ms, ar_parse F = Ok a /\ ar_kind a = AKBsd /\ ar_thin a = false /\ ar_data a = F /\
    (exists st, runs (ar_members_next a) (ar_members a) ms false st) /\ Forall2 (is_entry F) ms l /\
    ar_symbols a = (77, zlen symtab) /\ holds F 77 symtab.
Proof. exact bsd_round. Qed.
Print Assumptions C30_bsd.

(** * Symbol tables *)
Lemma symbols_bound F a : file_ok F -> archive_of F a -> 0 <= fst (ar_symbols a) <= zlen F /\ 0 <= snd (ar_symbols a).
Proof.
  intros HF H. pose proof (zlen_nonneg F) as HF0.
  assert (Hm : forall thin off m next name, 0 <= off -> named_at F [] thin off name m next -> 0 <= mb_offset m <= zlen F /\ 0 <= mb_size m).
  { intros thin off m next name Ho (H1 & [h sz doff A1 A2 A3 A4 A5 A6 A7] & _). apply holds_bounds in A1. pose proof (number_bound _ _ _ _ _ (eq_refl : 1 < 10) A4) as Hb.
    apply name_of_offset in A5; [|unfold ah_name; rewrite zlen_zslice; lia|lia|lia]. destruct thin; [destruct A7 as [(_ & -> & _)|(_ & -> & _)]|destruct A7 as [-> _]]; lia. }
  assert (Hx : forall off m, 0 <= off -> aix_member_at F off m -> 0 <= mb_offset m <= zlen F /\ 0 <= mb_size m).
  { intros off m Ho [h n pos A1 A2 A3 A4 A5 A6 A7 A8 A9 A10]. apply holds_bounds in A7. change (zlen AR_TERMINATOR) with 2 in A7.
    pose proof (number_bound _ _ _ _ _ (eq_refl : 1 < 10) A8). lia. }
  destruct H as [H|[H|H]].
  - destruct H as (_ & _ & syms & off & H3 & -> & _). pose proof (Z.le_refl 8).
    destruct H3 as [Ha|m n1 nm Ha Hb|m n1 Ha Hb|m n1 m2 n2 nm Ha Hb Hc|m n1 Ha Hb|m n1 m2 n2 nm Ha Hb Hc|m n1 nm Ha Hb|m n1 nm Ha Hb|m1 n1 m2 n2 nm n3 n4 Ha Hb Hc Hd]; cbn [fst snd];
      try lia; try (eapply Hm; [|exact Ha]; lia). eapply Hm; [|exact Hb]. apply named_pos in Ha; lia.
  - destruct H as (H1 & H2 & H3 & H4 & H5 & [(m & n & H6 & H7 & H8 & H9 & H10)|(H6 & H7 & H8)]); [|rewrite H7; cbn [fst snd]; lia].
    rewrite H9. cbn [fst snd]. destruct H7 as [h sz A1 A2 A3 A4 A5 A6 ->]. apply holds_bounds in A1. pose proof (number_bound _ _ _ _ _ (eq_refl : 1 < 10) A4) as Hb.
    destruct A5 as [ ds' n' raw' nm Ha Hb' Hc Hd He Hf Hg| ]; try lia. apply holds_bounds in He. pose proof (zlen_nonneg raw'). lia.
  - destruct H as (H1 & H2 & H3 & H4 & fh & H5 & H6 & H7 & (g64 & G1 & G2) & _). destruct (Z.ltb_spec 0 g64).
    + destruct G2 as (m & G2 & ->). cbn [fst snd]. eapply Hx; [|exact G2]. lia.
    + destruct G2 as (g & G3 & G2). destruct (Z.ltb_spec 0 g); [|rewrite G2; cbn [fst snd]; lia].
      destruct G2 as (m & G2 & ->). cbn [fst snd]. eapply Hx; [|exact G2]. lia.
Qed.
(** What is read is what the table contains: if an iterator is returned, then the range of the symbol table is in the file, it holds a
    table of the kind of this archive, and the iterator returns its symbols. *)
Theorem C43_symbols_sound : forall F a it, file_ok F -> ar_parse F = Ok a -> ar_symbols_iter a = Ok (Some it) ->
  exists T n sym, holds F (fst (ar_symbols a)) T /\ zlen T = snd (ar_symbols a) /\ sym_table T (ar_kind a) n sym /\ yields it n sym.
Proof.
  intros F a it HF Ha H. apply C30_parse in Ha; [|assumption]. destruct (symbols_bound F a HF Ha) as [B1 B2]. destruct (first_bound F a HF Ha) as [HD _].
  unfold ar_symbols_iter in H. rewrite HD in H. destruct (ar_symbols a) as [off size]. cbn [fst snd] in *.
  destruct ((off =? 0) && (size =? 0)); [discriminate|]. destruct (symiter_new (ar_kind a) F off size) as [it'| |] eqn:E; try discriminate. injection H as ->.
  assert (off + size <= zlen F).
  { destruct (Z.leb_spec (off + size) (zlen F)); [assumption|]. destruct HF as [_ HF]. unfold symiter_new in E. rewrite rr_read_bytes_at_eq in E by lia.
    destruct (Z.eqb_spec size 0); [lia|]. destruct (Z.leb_spec (off + size) (zlen F)); [lia|discriminate]. }
  pose proof (holds_zslice F off size ltac:(lia) ltac:(lia) ltac:(lia)) as HT. assert (HL : zlen (zslice off size F) = size) by (rewrite zlen_zslice; lia).
  rewrite <- HL in E. rewrite (table_read F (ar_kind a) off _ HT) in E.
  destruct HF as [HFb HF]. apply table_dec in E; [|destruct HT as (p & q & HE & _); rewrite HE in HFb; apply Forall_app in HFb; destruct HFb as [_ HFb]; apply Forall_app in HFb; apply HFb|lia].
  destruct E as (n & sym & E1 & E2). exists (zslice off size F), n, sym. auto.
Qed.
Print Assumptions C43_symbols_sound.
(** ... and every such table is read. *)
Theorem C43_symbols_complete : forall F a T n sym, file_ok F -> ar_parse F = Ok a -> ar_symbols a <> (0, 0) ->
  holds F (fst (ar_symbols a)) T -> zlen T = snd (ar_symbols a) -> sym_table T (ar_kind a) n sym ->
  exists it, ar_symbols_iter a = Ok (Some it) /\ yields it n sym.
Proof.
  intros F a T n sym HF Ha Hnz HT HL Hs. apply C30_parse in Ha; [|assumption]. destruct (first_bound F a HF Ha) as [HD _].
  unfold ar_symbols_iter. rewrite HD. destruct (ar_symbols a) as [off size]. cbn [fst snd] in *. subst size.
  destruct ((off =? 0) && (zlen T =? 0)) eqn:E; [exfalso; apply Hnz; f_equal; lia|]. rewrite (table_read F (ar_kind a) off _ HT).
  apply table_enc in Hs; [|apply holds_bounds in HT; destruct HF; lia]. destruct Hs as (it & -> & Hs). exists it. auto.
Qed.
Print Assumptions C43_symbols_complete.
(** There is no symbol table exactly if its range is empty and at offset 0; reading it never panics. *)
Theorem C43_symbols_none : forall a, ar_symbols_iter a = Ok None <-> ar_symbols a = (0, 0).
Proof.
  intro a. unfold ar_symbols_iter. destruct (ar_symbols a) as [off size]. destruct ((off =? 0) && (size =? 0)) eqn:E.
  - split; [|reflexivity]. intros _. f_equal; lia.
  - split; [destruct (symiter_new _ _ _ _); discriminate|]. intros [= -> ->]. discriminate.
Qed.
Print Assumptions C43_symbols_none.
Theorem C43_symbols_no_panic : forall a, ar_symbols_iter a <> Panic.
Proof.
  intro a. unfold ar_symbols_iter. destruct (ar_symbols a) as [off size]. destruct ((off =? 0) && (size =? 0)); [discriminate|].
  pose proof (symiter_new_no_panic (ar_kind a) (ar_data a) off size). destruct (symiter_new _ _ _ _); cbn [bind]; congruence.
Qed.
Print Assumptions C43_symbols_no_panic.
(** The symbol table of an archive that holds any symbols, written by a GNU archiver: every symbol is read back, in order. *)
Theorem C43_gnu_round_trip : forall l syms, Forall entry_ok l -> zlen (gnu_names l) < 10 ^ 10 ->
  Forall (fun '(name, o) => ~ In 0 name /\ 0 <= o < 2 ^ 32) syms -> zlen syms < 2 ^ 32 ->
  let symtab := write_u Big 4 (zlen syms) ++ concat (map (fun s => write_u Big 4 (snd s)) syms) ++ concat (map (fun s => fst s ++ [0]) syms) in
  let F := gnu_archive symtab l in zlen symtab < 10 ^ 10 -> file_ok F ->
  exists a it st, ar_parse F = Ok a /\ ar_symbols_iter a = Ok (Some it) /\
    runs symiter_next it (map (fun '(name, o) => {| as_name := name; as_offset := o |}) syms) false st.
Proof.
  intros l syms Hl Hn Hs Hlen symtab F Hst HF. destruct (gnu_round symtab l Hl Hst Hn HF) as (a & ms & A1 & A2 & A3 & A4 & _ & _ & A5 & A6).
  set (sym := fun i name o => zget (map snd syms) i = Some o /\ nth_string (concat (map (fun s => fst s ++ [0]) syms)) i name).
  assert (Ht : sym_table symtab AKGnu (zlen syms) sym).
  { exists (map snd syms), (concat (map (fun s => fst s ++ [0]) syms)). split; [unfold symtab; rewrite map_map; reflexivity|]. split; [unfold zlen; rewrite map_length; reflexivity|].
    split; [exact Hlen|]. split; [rewrite Forall_map; eapply Forall_impl; [|exact Hs]; intros [? ?] [_ ?]; assumption|]. reflexivity. }
  destruct (C43_symbols_complete F a symtab (zlen syms) sym HF A1) as (it & B1 & B2 & res & B3 & B4 & B5); try rewrite A5; try rewrite A2; auto; [discriminate|].
  assert (Hres : res = map (fun s => Some {| as_name := fst s; as_offset := snd s |}) syms).
  { apply zget_ext; [rewrite zlen_map_w; assumption|]. intros i _. rewrite Map_proofs.zget_map. destruct (zget syms i) as [[name o]|] eqn:E; cbn [option_map fst snd].
    - apply B5. split; [rewrite Map_proofs.zget_map, E; reflexivity|]. exists (map fst syms), []. rewrite app_nil_r, map_map. split; [reflexivity|].
      split; [rewrite Forall_map; eapply Forall_impl; [|exact Hs]; intros [? ?] [? _]; assumption|]. rewrite Map_proofs.zget_map, E. reflexivity.
    - destruct (zget res i) as [r|] eqn:Er; [|reflexivity]. apply zget_Some_lt in Er. destruct (zget_lt_Some syms i) as [x Hx]; [lia|congruence]. }
  assert (exists st, runs symiter_next it (map (fun '(name, o) => {| as_name := name; as_offset := o |}) syms) false st) as [st Hr]; [|exists a, it, st; auto].
  clear - B3 Hres. revert syms Hres. induction B3 as [st st' H|st x st' l H H2 IH|st st' l H H2 IH]; intros [|[name o] syms] E; try discriminate.
  - exists st'. constructor. assumption.
  - injection E as -> E. destruct (IH syms E) as [s Hs]. exists s. cbn [map]. eapply runs_more; eauto.
Qed.
Print Assumptions C43_gnu_round_trip.

(** * Examples *)
Definition ex_stamp : stamp := {| st_date := 1700000000; st_uid := 1000; st_gid := 100; st_mode := 33188 |}.
Definition ex_entries : list entry :=
  [{| en_name := str "a.o"; en_stamp := ex_stamp; en_data := [1; 2; 3] |};
   {| en_name := str "a-very-long-file-name.o"; en_stamp := ex_stamp; en_data := [4; 5] |}].
Definition ex_syms : list (bytes * Z) := [(str "main", 200); (str "f", 300)].
Definition ex_symtab : bytes :=
  write_u Big 4 (zlen ex_syms) ++ concat (map (fun s => write_u Big 4 (snd s)) ex_syms) ++ concat (map (fun s => fst s ++ [0]) ex_syms).
Definition ex_gnu : bytes := gnu_archive ex_symtab ex_entries.
Definition ex_list (F : bytes) : out (list bytes) :=
  a <- ar_parse F ;;
  match ar_members_next a (ar_members a) with
  | (Ok (Some m), s) => match ar_members_next a s with
                        | (Ok (Some m'), s) => match ar_members_next a s with (Ok None, _) => Ok [mb_name m; mb_name m'] | _ => Err end
                        | _ => Err end
  | _ => Err end.
Example C30_ex : ex_list ex_gnu = Ok [str "a.o"; str "a-very-long-file-name.o"] /\
  ex_list (bsd_archive [0; 0; 0; 0; 0; 0; 0; 0] ex_entries) = Ok [str "a.o"; str "a-very-long-file-name.o"].
Proof. vm_compute. auto. Qed.
Lemma not_in_dec x (l : bytes) : forallb (fun y => negb (y =? x)) l = true -> ~ In x l.
Proof. intros H Hin. rewrite forallb_forall in H. specialize (H _ Hin). rewrite Z.eqb_refl in H. discriminate. Qed.
Example C30_ex_hyps : Forall entry_ok ex_entries /\ zlen ex_symtab < 10 ^ 10 /\ zlen (gnu_names ex_entries) < 10 ^ 10 /\ file_ok ex_gnu /\
  file_ok (bsd_archive ex_symtab ex_entries).
Proof.
  split.
  - repeat constructor; cbn [en_name en_stamp en_data st_date st_uid st_gid st_mode ex_stamp]; try (apply not_in_dec; reflexivity); vm_compute; congruence.
  - split; [vm_compute; reflexivity|]. split; [vm_compute; reflexivity|]. split; (split; [apply bytes_ok_forallb; vm_compute; reflexivity|vm_compute; reflexivity]).
Qed.
Example C43_ex :
  (a <- ar_parse ex_gnu ;; it <- ar_symbols_iter a ;;
   match it with
   | Some it => let '(r1, it) := symiter_next it in let '(r2, it) := symiter_next it in let '(r3, _) := symiter_next it in Ok [r1; r2; r3]
   | None => Err
   end) = Ok [Ok (Some {| as_name := str "main"; as_offset := 200 |}); Ok (Some {| as_name := str "f"; as_offset := 300 |}); Ok None].
Proof. vm_compute. reflexivity. Qed.
Example C43_ex_hyps : Forall (fun '(name, o) => ~ In 0 name /\ 0 <= o < 2 ^ 32) ex_syms /\ zlen ex_syms < 2 ^ 32 /\
  (exists a, ar_parse ex_gnu = Ok a /\ ar_symbols a <> (0, 0)).
Proof.
  split; [repeat constructor; try (apply not_in_dec; reflexivity); vm_compute; congruence|]. split; [vm_compute; reflexivity|].
  destruct (C30_gnu ex_symtab ex_entries) as (a & ms & A1 & _ & _ & _ & _ & _ & A5 & _); try apply C30_ex_hyps.
  exists a. split; [exact A1|]. rewrite A5. discriminate.
Qed.
(** A COFF symbol table: the index of a symbol is one more than the number of its member. *)
Example C43_ex_coff : exists sym, sym_table (write_u Little 4 2 ++ concat (map (write_u Little 4) [100; 200]) ++ write_u Little 4 1 ++ concat (map (write_u Little 2) [2]) ++ str "f" ++ [0]) AKCoff 1 sym /\
  sym 0 (str "f") 200.
Proof.
  eexists (fun i name o => exists j, zget [2] i = Some j /\ zget [100; 200] ((j - 1) mod 2 ^ 16) = Some o /\ nth_string (str "f" ++ [0]) i name). split.
  - exists [100; 200], [2], (str "f" ++ [0]). split; [reflexivity|]. repeat split; auto; repeat constructor; vm_compute; congruence.
  - exists 2. split; [reflexivity|]. split; [reflexivity|]. exists [str "f"], []. split; [reflexivity|]. split; [|reflexivity].
    repeat constructor. apply not_in_dec. reflexivity.
Qed.
