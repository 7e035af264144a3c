(** Proofs about COFF section names and the COFF writer. *)
From Verif Require Import Coff_spec Core_proofs Str_proofs Util_proofs Hash_proofs Pod_proofs File_proofs Ar_spec Ar_proofs Buf_proofs Elf_proofs.

(** * Section name offsets *)
Lemma dec_digits_spec f : forall v acc, 0 <= v < 10 ^ Z.of_nat f ->
  exists ds, dec_digits f v acc = map (fun d => 48 + d) ds ++ acc /\ Forall (fun d => 0 <= d < 10) ds /\ value 10 ds = v /\ zlen ds <= Z.of_nat f /\
    (v <> 0 -> ds <> []).
Proof.
  induction f as [|f IH]; intros v acc Hv.
  - exists []. cbn in *. repeat split; try constructor; try lia. 
  - cbn [dec_digits]. destruct (Z.eqb_spec v 0) as [->|Hn].
    + exists []. cbn [map app]. repeat split; try constructor; try (cbn; lia).
    + assert (Hp : 10 ^ Z.of_nat (S f) = 10 * 10 ^ Z.of_nat f) by (rewrite Nat2Z.inj_succ, Z.pow_succ_r by lia; lia).
      destruct (IH (v / 10) ((48 + v mod 10) :: acc)) as (ds & E & HF & Hval & Hl & _).
      { split; [apply Z.div_pos; lia|]. apply Z.div_lt_upper_bound; lia. }
      exists (ds ++ [v mod 10]). rewrite E, map_app, <- app_assoc. split; [reflexivity|]. split; [apply Forall_app; split; [assumption|]; constructor; [|constructor]; apply Z.mod_pos_bound; lia|].
      split.
      { unfold value in *. rewrite fold_left_app. cbn [fold_left]. rewrite Hval. rewrite (Z.div_mod v 10) at 3 by lia. lia. }
      split; [rewrite zlen_app; change (zlen [v mod 10]) with 1; lia|]. intros _ H. apply app_eq_nil in H as [_ H]. discriminate.
Qed.
Lemma b64_digits_spec n : forall v acc, 0 <= v < 64 ^ Z.of_nat n ->
  exists ds, b64_digits n v acc = map enc64 ds ++ acc /\ Forall (fun d => 0 <= d < 64) ds /\ value 64 ds = v /\ zlen ds = Z.of_nat n.
Proof.
  induction n as [|n IH]; intros v acc Hv.
  - exists []. cbn in *. repeat split; try constructor; lia.
  - cbn [b64_digits]. assert (Hp : 64 ^ Z.of_nat (S n) = 64 * 64 ^ Z.of_nat n) by (rewrite Nat2Z.inj_succ, Z.pow_succ_r by lia; lia).
    destruct (IH (v / 64) (enc64 (v mod 64) :: acc)) as (ds & E & HF & Hval & Hl).
    { split; [apply Z.div_pos; lia|]. apply Z.div_lt_upper_bound; lia. }
    exists (ds ++ [v mod 64]). rewrite E, map_app, <- app_assoc. split; [reflexivity|]. split; [apply Forall_app; split; [assumption|]; constructor; [|constructor]; apply Z.mod_pos_bound; lia|].
    split.
    { unfold value in *. rewrite fold_left_app. cbn [fold_left]. rewrite Hval. rewrite (Z.div_mod v 64) at 3 by lia. lia. }
    rewrite zlen_app. change (zlen [v mod 64]) with 1. lia.
Qed.
Lemma digit64_enc d : 0 <= d < 64 -> digit64 (enc64 d) = Some d.
Proof.
  intro H. assert (E : existsb (fun k => Z.of_nat k =? d) (seq 0 64) = true).
  { apply existsb_exists. exists (Z.to_nat d). split; [apply in_seq; lia|lia]. }
  assert (E2 : forallb (fun k => match digit64 (enc64 (Z.of_nat k)) with Some x => x =? Z.of_nat k | None => false end) (seq 0 64) = true)
    by (vm_compute; reflexivity).
  apply existsb_exists in E as (k & Hk & E). rewrite forallb_forall in E2. specialize (E2 k Hk). apply Z.eqb_eq in E. subst d.
  destruct (digit64 (enc64 (Z.of_nat k))); [|discriminate]. f_equal. lia.
Qed.
Lemma fold_ge r ds acc : 1 < r -> 0 <= acc -> Forall (fun d => 0 <= d < r) ds -> acc <= fold_left (fun n d => n * r + d) ds acc.
Proof. intros; apply value_go; assumption. Qed.
Lemma off10_digits ds : forall x rest, 0 <= x -> Forall (fun d => 0 <= d < 10) ds -> fold_left (fun n d => n * 10 + d) ds x < 2 ^ 32 ->
  off10 (map (fun d => 48 + d) ds ++ rest) x = off10 rest (fold_left (fun n d => n * 10 + d) ds x).
Proof.
  induction ds as [|d ds IH]; intros x rest Hx HF Hb; cbn [map app off10 fold_left] in *; [reflexivity|].
  pose proof (Forall_inv HF) as Hd. pose proof (Forall_inv_tail HF) as HF'. cbn beta in Hd.
  pose proof (fold_ge 10 ds (x * 10 + d) ltac:(lia) ltac:(lia) HF') as Hg.
  destruct (Z.leb_spec 48 (48 + d)); [|lia]. destruct (Z.leb_spec (48 + d) 57); [|lia]. cbn [andb].
  unfold pmul, padd. destruct (Z.ltb_spec (x * 10) (2 ^ 32)); [|lia]. cbn [bind]. replace (48 + d - 48) with d by lia.
  destruct (Z.ltb_spec (x * 10 + d) (2 ^ 32)); [|lia]. cbn [bind]. apply IH; try assumption; lia.
Qed.
Lemma off64_digits ds : forall x, Forall (fun d => 0 <= d < 64) ds ->
  off64 (map enc64 ds) x = Ok (fold_left (fun n d => n * 64 + d) ds x).
Proof.
  induction ds as [|d ds IH]; intros x HF; cbn [map off64 fold_left]; [reflexivity|].
  rewrite digit64_enc by exact (Forall_inv HF). apply IH. exact (Forall_inv_tail HF).
Qed.
Lemma off10_zeros n x : off10 (zeros n) x = Ok x.
Proof. unfold zeros. destruct (Z.to_nat n); reflexivity. Qed.
Lemma bytes_ok_enc64 ds : Forall (fun d => 0 <= d < 64) ds -> bytes_ok (map enc64 ds).
Proof.
  intro H. apply Forall_map. eapply Forall_impl; [|exact H]. intros d Hd. cbn beta in Hd. unfold enc64, byte_ok.
  destruct (Z.leb_spec d 25); [lia|]. destruct (Z.leb_spec d 51); [lia|]. destruct (Z.leb_spec d 61); [lia|]. destruct (Z.eqb_spec d 62); lia.
Qed.
Lemma sec_name_field_spec o : 0 <= o < 2 ^ 32 ->
  zlen (sec_name_field o) = 8 /\ bytes_ok (sec_name_field o) /\
  forall s, c_name s = sec_name_field o -> coff_name_offset s = Ok (Some o).
Proof.
  intro Ho. unfold sec_name_field. destruct (Z.leb_spec o 9999999) as [Hs|Hs].
  - set (d := if o =? 0 then [48] else dec_digits 7 o []).
    assert (Hd : exists ds, d = map (fun d => 48 + d) ds /\ Forall (fun d => 0 <= d < 10) ds /\ value 10 ds = o /\ 0 < zlen ds <= 7).
    { subst d. destruct (Z.eqb_spec o 0) as [->|Hn].
      - exists [0]. ex.
      - destruct (dec_digits_spec 7 o [] ltac:(cbn; lia)) as (ds & E & HF & Hv & Hl & Hne). exists ds. rewrite E, app_nil_r.
        split; [reflexivity|]. split; [assumption|]. split; [assumption|]. specialize (Hne Hn). destruct ds; [congruence|]. rewrite zlen_cons in *. pose proof (zlen_nonneg ds).
        change (Z.of_nat 7) with 7 in Hl. lia. }
    clearbody d. destruct Hd as (ds & -> & HF & Hv & Hl).
    assert (Hz : zlen (map (fun d => 48 + d) ds) = zlen ds) by (unfold zlen; rewrite map_length; reflexivity).
    split; [|split].
    + rewrite zlen_cons, zlen_app, zlen_zeros, Hz by lia. lia.
    + constructor; [unfold byte_ok; lia|]. apply Forall_app. split; [|apply bytes_ok_zeros]. apply Forall_map. eapply Forall_impl; [|exact HF]. intros d Hd; cbn beta in Hd; unfold byte_ok; lia.
    + intros s Es. unfold coff_name_offset. rewrite Es.
      destruct ds as [|d0 ds]; [change (zlen (@nil Z)) with 0 in Hl; lia|]. pose proof (Forall_inv HF) as Hd0. cbn beta in Hd0.
      set (l := map (fun d => 48 + d) (d0 :: ds) ++ zeros (7 - zlen (map (fun d => 48 + d) (d0 :: ds)))).
      assert (H0 : zget (47 :: l) 1 = Some (48 + d0)) by (unfold l; rewrite zget_S by lia; apply zget_0).
      rewrite zget_0, H0. change (zdrop 1 (47 :: l)) with l. clear H0. subst l.
      cbn [unwrap bind]. change (negb (47 =? 47)) with false. cbv iota.
      destruct (Z.eqb_spec (48 + d0) 47); [lia|].
      unfold value in Hv. rewrite off10_digits by (try assumption; try lia; rewrite Hv; lia). rewrite Hv, off10_zeros. reflexivity.
  - destruct (b64_digits_spec 6 o [] ltac:(cbn; lia)) as (ds & E & HF & Hv & Hl). rewrite app_nil_r in E. rewrite E.
    assert (Hz : zlen (map enc64 ds) = 6) by (unfold zlen in *; rewrite map_length; lia).
    split; [|split].
    + rewrite !zlen_cons, Hz. lia.
    + constructor; [unfold byte_ok; lia|]. constructor; [unfold byte_ok; lia|]. apply bytes_ok_enc64; assumption.
    + intros s Es. unfold coff_name_offset. rewrite Es.
      rewrite zget_0, zget_S, zget_0 by lia.
      cbn [unwrap bind]. change (negb (47 =? 47)) with false. change (47 =? 47) with true. cbv iota.
      change (zdrop 2 (47 :: 47 :: map enc64 ds)) with (map enc64 ds). rewrite off64_digits by assumption. unfold value in Hv. rewrite Hv. cbn [bind].
      destruct (Z.ltb_spec o (2 ^ 32)); [reflexivity|lia].
Qed.
