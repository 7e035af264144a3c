From Verif Require Import Core_proofs Str_proofs Util_proofs.
From Verif Require Export Rel_spec.

(** * RELR *)
Definition ks (n : nat) := map Z.of_nat (seq 1 n).
Lemma ks_S n : ks (S n) = 1 :: map Z.succ (ks n).
Proof.
  unfold ks. cbn [seq map]. f_equal. rewrite <- seq_shift, !map_map. apply map_ext. intro. lia.
Qed.
Definition ditems (w : Z) (count : nat) (offset bits : Z) : list Z :=
  map (fun k => (offset + k * w) mod 2 ^ (8 * w)) (filter (Z.testbit bits) (ks count)).

Lemma filter_map_comm {A B} (f : A -> B) p l : filter p (map f l) = map f (filter (fun x => p (f x)) l).
Proof. induction l as [|x l IH]; [reflexivity|]. cbn. destruct (p (f x)); cbn; rewrite IH; reflexivity. Qed.
Lemma ditems_S w n offset bits : 0 < w ->
  ditems w (S n) offset bits =
  (if Z.testbit bits 1 then [(offset + w) mod 2 ^ (8 * w)] else []) ++ ditems w n ((offset + w) mod 2 ^ (8 * w)) (Z.shiftr bits 1).
Proof.
  intro Hw. assert (0 < 2 ^ (8 * w)) by (apply Z.pow_pos_nonneg; lia).
  unfold ditems. rewrite ks_S. cbn [filter].
  assert (E : map (fun k => (offset + k * w) mod 2 ^ (8 * w)) (filter (Z.testbit bits) (map Z.succ (ks n))) =
              map (fun k => ((offset + w) mod 2 ^ (8 * w) + k * w) mod 2 ^ (8 * w)) (filter (Z.testbit (Z.shiftr bits 1)) (ks n))).
  { rewrite filter_map_comm, map_map.
    rewrite (filter_ext_in _ (Z.testbit (Z.shiftr bits 1))).
    - apply map_ext. intro k. rewrite Zplus_mod_idemp_l. f_equal. lia.
    - intros k Hk. unfold ks in Hk. apply in_map_iff in Hk as (m & <- & Hm). apply in_seq in Hm.
      rewrite Z.shiftr_spec by lia. f_equal; lia. }
  destruct (Z.testbit bits 1); cbn [map app]; rewrite E; [|reflexivity]. do 2 f_equal. lia.
Qed.

Lemma relr_while_spec w : 0 < w -> forall count offset bits, 0 <= offset < 2 ^ (8 * w) ->
  match ditems w count offset bits with
  | [] => exists b, relr_while w count offset bits = (None, (offset + Z.of_nat count * w) mod 2 ^ (8 * w), b, O)
  | x :: l => exists o b c, relr_while w count offset bits = (Some x, o, b, c) /\ ditems w c o b = l /\
      0 <= o < 2 ^ (8 * w) /\ (o + Z.of_nat c * w) mod 2 ^ (8 * w) = (offset + Z.of_nat count * w) mod 2 ^ (8 * w)
  end.
Proof.
  intro Hw. assert (HM : 0 < 2 ^ (8 * w)) by (apply Z.pow_pos_nonneg; lia).
  induction count as [|n IH]; intros offset bits Ho.
  - change (ditems w 0 offset bits) with (@nil Z). exists bits. cbn [relr_while]. change (Z.of_nat 0 * w) with 0.
    rewrite Z.add_0_r, Z.mod_small by lia. reflexivity.
  - rewrite ditems_S by assumption. cbn [relr_while]. unfold relr_bit. unfold wrap_u.
    rewrite land_1. assert (Eb : (Z.shiftr bits 1 mod 2 =? 0) = negb (Z.testbit bits 1)).
    { rewrite <- land_1. pose proof (land_bit (Z.shiftr bits 1) 0 ltac:(lia)) as E. change (Z.shiftl 1 0) with 1 in E. rewrite E.
      rewrite Z.shiftr_spec by lia. reflexivity. }
    rewrite Eb. set (o1 := (offset + w) mod 2 ^ (8 * w)).
    assert (Ho1 : 0 <= o1 < 2 ^ (8 * w)) by (apply Z.mod_pos_bound; lia).
    assert (Eo : (o1 + Z.of_nat n * w) mod 2 ^ (8 * w) = (offset + Z.of_nat (S n) * w) mod 2 ^ (8 * w)).
    { unfold o1. rewrite Zplus_mod_idemp_l. f_equal. lia. }
    destruct (Z.testbit bits 1); cbn [negb app].
    + exists o1, (Z.shiftr bits 1), n. auto.
    + specialize (IH o1 (Z.shiftr bits 1) Ho1). destruct (ditems w n o1 (Z.shiftr bits 1)) as [|x l].
      * destruct IH as [b Hb]. exists b. rewrite Hb, Eo. reflexivity.
      * destruct IH as (o & b & c & E1 & E2 & E3 & E4). exists o, b, c. split; [exact E1|]. split; [exact E2|]. split; [exact E3|]. congruence.
Qed.

Definition relr_rem w it := ditems w (ri_count it) (ri_offset it) (ri_bits it) ++
  relr_decode w ((ri_offset it + Z.of_nat (ri_count it) * w) mod 2 ^ (8 * w)) (ri_iter it).
Definition relr_inv w it := 0 <= ri_offset it < 2 ^ (8 * w) /\ Forall (fun x => 0 <= x < 2 ^ (8 * w)) (ri_iter it).

Lemma even_land x : (Z.land x 1 =? 0) = Z.even x.
Proof.
  rewrite land_1. pose proof (Zmod_even x) as E. rewrite E. destruct (Z.even x); reflexivity.
Qed.

Lemma relr_loop_spec w : 0 < w -> forall iter offset bits count,
  let it := {| ri_offset := offset; ri_bits := bits; ri_count := count; ri_iter := iter |} in
  relr_inv w it ->
  match relr_rem w it with
  | [] => exists it', relr_loop w iter offset bits count = (None, it') /\ relr_rem w it' = [] /\ relr_inv w it'
  | x :: l => exists it', relr_loop w iter offset bits count = (Some x, it') /\ relr_rem w it' = l /\ relr_inv w it'
  end.
Proof.
  intros Hw. assert (HM : 0 < 2 ^ (8 * w)) by (apply Z.pow_pos_nonneg; lia).
  induction iter as [|x iter IH]; intros offset bits count it [Ho Hi]; cbn [ri_offset ri_iter it] in *;
    unfold relr_rem; cbn [ri_offset ri_bits ri_count ri_iter it]; cbn [relr_loop];
    pose proof (relr_while_spec w Hw count offset bits Ho) as HW; destruct (ditems w count offset bits) as [|y l].
  - destruct HW as [b Eb]. rewrite Eb. cbn [app relr_decode]. eexists. split; [reflexivity|]. split; [reflexivity|].
    split; [|constructor]. cbn [ri_offset]. apply Z.mod_pos_bound. lia.
  - destruct HW as (o & b & c & E1 & E2 & E3 & E4). rewrite E1. cbn [app]. eexists. split; [reflexivity|].
    cbn [ri_offset ri_bits ri_count ri_iter relr_decode]. rewrite E2. split; [reflexivity|]. split; [exact E3|constructor].
  - destruct HW as [b Eb]. rewrite Eb. cbn [app relr_decode]. rewrite even_land.
    inversion Hi as [|? ? Hx Hi']; subst. destruct (Z.even x).
    + eexists. split; [reflexivity|]. cbn [ri_offset ri_bits ri_count ri_iter]. cbn [ditems ks seq map filter app]. change (Z.of_nat 0 * w) with 0.
      rewrite Z.add_0_r, Z.mod_small by assumption. split; [reflexivity|]. split; assumption.
    + set (o := (offset + Z.of_nat count * w) mod 2 ^ (8 * w)).
      assert (Ho' : 0 <= o < 2 ^ (8 * w)) by (apply Z.mod_pos_bound; lia).
      specialize (IH o x (relr_count w)). cbv zeta in IH. specialize (IH (conj Ho' Hi')).
      unfold relr_rem in IH. cbn [ri_offset ri_bits ri_count ri_iter] in IH.
      unfold relr_count in IH at 2. rewrite Z2Nat.id in IH by lia. exact IH.
  - destruct HW as (o & b & c & E1 & E2 & E3 & E4). rewrite E1. cbn [app]. eexists. split; [reflexivity|].
    cbn [ri_offset ri_bits ri_count ri_iter]. rewrite E2, E4. split; [reflexivity|]. split; [exact E3|exact Hi].
Qed.
Lemma relr_runs w : 0 < w -> forall l it, relr_inv w it -> relr_rem w it = l ->
  exists it', runs (relr_next w) it l false it' /\ relr_rem w it' = [] /\ relr_inv w it'.
Proof.
  intro Hw. induction l as [|x l IH]; intros [o b c it] Hinv Hr; pose proof (relr_loop_spec w Hw it o b c Hinv) as HL; rewrite Hr in HL;
    destruct HL as (it' & E & Hr' & Hinv').
  - exists it'. split; [|auto]. apply runs_done. unfold relr_next. cbn [ri_iter ri_offset ri_bits ri_count]. rewrite E. reflexivity.
  - destruct (IH it' Hinv' Hr') as (it'' & HR & H1 & H2). exists it''. split; [|auto].
    eapply runs_more; [|exact HR]. unfold relr_next. cbn [ri_iter ri_offset ri_bits ri_count]. rewrite E. reflexivity.
Qed.
Theorem relr_correct : forall w words, w = 4 \/ w = 8 -> Forall (fun x => 0 <= x < 2 ^ (8 * w)) words ->
  exists it', runs (relr_next w) (relr_new words) (relr_decode w 0 words) false it' /\
              exists it'', relr_next w it' = (Ok None, it'').
Proof.
  intros w words Hw Hi. assert (0 < w) by lia.
  destruct (relr_runs w H (relr_decode w 0 words) (relr_new words)) as (it' & HR & H1 & H2).
  - split; [cbn [ri_offset relr_new]; split; [lia|apply Z.pow_pos_nonneg; lia]|exact Hi].
  - unfold relr_rem, relr_new. cbn [ri_iter ri_offset ri_bits ri_count ditems ks seq map filter app]. change (0 + Z.of_nat 0 * w) with 0.
    rewrite Z.mod_0_l by (apply Z.pow_nonzero; lia). reflexivity.
  - exists it'. split; [exact HR|]. destruct it' as [o b c it]. pose proof (relr_loop_spec w H it o b c H2) as HL. rewrite H1 in HL.
    destruct HL as (it'' & E & _). exists it''. unfold relr_next. cbn [ri_iter ri_offset ri_bits ri_count]. rewrite E. reflexivity.
Qed.
Lemma runs_det {S A} (next : S -> out (option A) * S) st l e st1 : runs next st l e st1 ->
  forall l' e' st1', runs next st l' e' st1' -> l = l' /\ e = e' /\ st1 = st1'.
Proof.
  induction 1 as [st st' E|st st' E|st st1 st' x l e E R IH]; intros l' e' st1' H'; inversion H' as [? ? E'|? ? E'|? ? ? ? ? ? E' R']; subst;
    rewrite E in E'; inversion E'; subst; auto.
  destruct (IH _ _ _ R') as (-> & -> & ->). auto.
Qed.

(** * CREL *)
Definition crel_ok (c : crel) : Prop :=
  0 <= cr_offset c < 2 ^ 64 /\ 0 <= cr_sym c < 2 ^ 32 /\ 0 <= cr_type c < 2 ^ 32 /\ - 2 ^ 63 <= cr_addend c < 2 ^ 63.
Lemma wrap_s_bound x : - 2 ^ 63 <= wrap_s 64 x < 2 ^ 63.
Proof. unfold wrap_s. pose proof (Z.mod_pos_bound (x + 2 ^ (64 - 1)) (2 ^ 64)). change (2 ^ (64 - 1)) with (2 ^ 63) in *. lia. Qed.
Lemma crel_entry_ok rela shift prev b cur : crel_entry rela shift prev b cur -> crel_ok cur.
Proof.
  intros (enc & w & b1 & d1 & b2 & d2 & b3 & d3 & _ & _ & _ & _ & _ & _ & _ & E1 & E2 & E3 & E4).
  unfold crel_ok. rewrite E1, E2, E3, E4. split; [apply Z.mod_pos_bound; lia|]. split; [apply Z.mod_pos_bound; lia|].
  split; [apply Z.mod_pos_bound; lia|]. apply wrap_s_bound.
Qed.
Definition it_ok (it : crel_it) : Prop :=
  bytes_ok (ci_data it) /\ crel_ok (ci_state it) /\ 0 <= ci_shift it < 4 /\ ci_flag_bits it = (if ci_is_rela it then 3 else 2) /\ 0 <= ci_count it.

(** the first byte and the rest of the first number *)
Lemma lor_wrap low v k : 0 <= k <= 64 -> 0 <= low < 2 ^ k -> 
  Z.lor low (wrap_u 64 (Z.shiftl v k)) = (low + v * 2 ^ k) mod 2 ^ 64.
Proof.
  intros Hk Hl. unfold wrap_u. rewrite Z.shiftl_mul_pow2 by lia.
  assert (E : (v * 2 ^ k) mod 2 ^ 64 = (v mod 2 ^ (64 - k)) * 2 ^ k).
  { replace (2 ^ 64) with (2 ^ (64 - k) * 2 ^ k) by (rewrite <- Z.pow_add_r by lia; f_equal; lia).
    apply Z.mul_mod_distr_r; apply Z.pow_nonzero; lia. }
  rewrite E. rewrite lor_mul_add by lia.
  assert (0 <= v mod 2 ^ (64 - k) < 2 ^ (64 - k)) by (apply Z.mod_pos_bound, Z.pow_pos_nonneg; lia).
  assert (Ep : 2 ^ (64 - k) * 2 ^ k = 2 ^ 64) by (rewrite <- Z.pow_add_r by lia; f_equal; lia).
  rewrite <- Zplus_mod_idemp_r. rewrite E. rewrite (Z.mod_small (low + _)); [reflexivity|]. nia.
Qed.
Lemma bit_flag w byte fb i : 0 <= i < fb -> fb <= 7 -> w mod 2 ^ 7 = byte mod 2 ^ 7 ->
  negb (Z.land (Z.land byte (2 ^ fb - 1)) (2 ^ i) =? 0) = Z.testbit w i.
Proof.
  intros Hi Hfb E. rewrite <- (Z.shiftl_1_l i), land_bit, negb_involutive by lia.
  rewrite land_ones_mod by lia. rewrite Z.mod_pow2_bits_low by lia.
  rewrite <- (Z.mod_pow2_bits_low w 7) by lia. rewrite <- (Z.mod_pow2_bits_low byte 7) by lia. congruence.
Qed.

Ltac bsimp := cbn [bs on_data ci_with ci_st fst snd ci_data ci_count ci_flag_bits ci_shift ci_is_rela ci_state cr_offset cr_sym cr_type cr_addend].

(** The optional deltas, as one lemma. *)
Definition opt_read (present : bool) (it : crel_it) (upd : Z -> crel -> crel) : out unit * crel_it :=
  if present then do d, it <- on_data it (read_sleb128 (ci_data it)) ;; (Ok tt, ci_st it (upd d (ci_state it))) else (Ok tt, it).
Lemma opt_read_complete present it upd b d rest : bytes_ok (ci_data it) -> ci_data it = b ++ rest -> opt_delta present b d ->
  (present = false -> upd 0 (ci_state it) = ci_state it) ->
  opt_read present it upd = (Ok tt, ci_with it rest (upd d (ci_state it))).
Proof.
  intros Hb Hd Ho Hu. unfold opt_read, opt_delta in *. destruct present.
  - destruct Ho as (O1 & O2 & O3).
    assert (E : read_sleb128 (ci_data it) = (Ok d, rest)) by (apply read_sleb128_iff; [assumption|]; exists b; auto).
    rewrite E. reflexivity.
  - destruct Ho as [-> ->]. cbn [app] in Hd. rewrite Hu by reflexivity. destruct it. cbn in *. subst. reflexivity.
Qed.
Lemma opt_read_sound present it upd r it' : bytes_ok (ci_data it) -> (present = false -> upd 0 (ci_state it) = ci_state it) ->
  opt_read present it upd = (r, it') -> r <> Panic /\
  (r = Ok tt -> exists b d, opt_delta present b d /\ ci_data it = b ++ ci_data it' /\ it' = ci_with it (ci_data it') (upd d (ci_state it))).
Proof.
  intros Hb Hu. unfold opt_read. destruct present.
  - pose proof (read_sleb128_no_panic (ci_data it) Hb) as Hp.
    destruct (read_sleb128 (ci_data it)) as [[d| |] rest] eqn:E; bsimp; intro H; inversion H; subst; cbn [fst] in Hp;
      [|split; [congruence|discriminate]|congruence].
    split; [congruence|]. intros _. apply read_sleb128_iff in E; [|assumption]. destruct E as (enc & E1 & E2 & E3 & E4).
    exists enc, d. cbn [ci_data ci_with ci_st]. split; [split; auto|]. split; [assumption|reflexivity].
  - intro H; inversion H; subst. split; [discriminate|]. intros _. exists [], 0. split; [split; reflexivity|]. split; [reflexivity|].
    rewrite Hu by reflexivity. destruct it'; reflexivity.
Qed.
Definition upd_sym d st := {| cr_offset := cr_offset st; cr_sym := wrap_u 32 (cr_sym st + wrap_u 32 d); cr_type := cr_type st; cr_addend := cr_addend st |}.
Definition upd_type d st := {| cr_offset := cr_offset st; cr_sym := cr_sym st; cr_type := wrap_u 32 (cr_type st + wrap_u 32 d); cr_addend := cr_addend st |}.
Definition upd_addend d st := {| cr_offset := cr_offset st; cr_sym := cr_sym st; cr_type := cr_type st; cr_addend := wrap_s 64 (cr_addend st + d) |}.
Definition upd_offset delta shift st := {| cr_offset := wrap_u 64 (cr_offset st + wrap_u 64 (Z.shiftl delta shift)); cr_sym := cr_sym st; cr_type := cr_type st; cr_addend := cr_addend st |}.
Lemma wrap_u_id n x : 0 <= x < 2 ^ n -> wrap_u n x = x.
Proof. apply Z.mod_small. Qed.
Lemma wrap_s_id x : - 2 ^ 63 <= x < 2 ^ 63 -> wrap_s 64 x = x.
Proof. intro. apply wrap_s_small; [lia|]. exact H. Qed.
Lemma upd0 st : crel_ok st -> upd_sym 0 st = st /\ upd_type 0 st = st /\ upd_addend 0 st = st.
Proof.
  intros (H1 & H2 & H3 & H4). unfold upd_sym, upd_type, upd_addend. change (wrap_u 32 0) with 0. rewrite !Z.add_0_r.
  rewrite !wrap_u_id, wrap_s_id by assumption. destruct st; auto.
Qed.

(** The offset/flags number. *)
Definition first_read (it : crel_it) : out (Z * Z) * crel_it :=
  do b, it <- on_data it (b_read (ci_data it) 1) ;;
  let byte := read_u Little b in
  let flags := Z.land byte (2 ^ ci_flag_bits it - 1) in
  let delta := Z.shiftr (Z.land byte 127) (ci_flag_bits it) in
  do delta, it <- (if negb (Z.land byte 128 =? 0) then
                     do hi, it <- on_data it (read_uleb128 (ci_data it)) ;;
                     (Ok (Z.lor delta (wrap_u 64 (Z.shiftl hi (7 - ci_flag_bits it)))), it)
                   else (Ok delta, it)) ;;
  (Ok (flags, delta), it).
Lemma bs_assoc {A B C S} (m : out A * S) (k1 : A -> S -> out B * S) (k2 : B -> S -> out C * S) :
  bs (bs m k1) k2 = bs m (fun x s => bs (k1 x s) k2).
Proof. destruct m as [[a| |] s]; reflexivity. Qed.
Lemma crel_parse_eq it : crel_parse it =
  do fd, it <- first_read it ;;
  let it := ci_st it (upd_offset (snd fd) (ci_shift it) (ci_state it)) in
  do _u, it <- opt_read (negb (Z.land (fst fd) 1 =? 0)) it upd_sym ;;
  do _u, it <- opt_read (negb (Z.land (fst fd) 2 =? 0)) it upd_type ;;
  do _u, it <- opt_read (ci_is_rela it && negb (Z.land (fst fd) 4 =? 0)) it upd_addend ;;
  match psub (ci_count it) 1 with
  | Ok c => (Ok (ci_state it), {| ci_data := ci_data it; ci_count := c; ci_flag_bits := ci_flag_bits it;
                          ci_shift := ci_shift it; ci_is_rela := ci_is_rela it; ci_state := ci_state it |})
  | _ => (Panic, it)
  end.
Proof.
  unfold crel_parse, first_read. rewrite bs_assoc. destruct (on_data it (b_read (ci_data it) 1)) as [[b| |] it1]; [|reflexivity..].
  cbn [bs]. cbv zeta. rewrite bs_assoc. f_equal.
Qed.
Lemma b_read_1 s : b_read s 1 = match s with [] => (Err, []) | x :: tl => (Ok [x], tl) end.
Proof.
  unfold b_read, from_bytes. rewrite get_from_eq. destruct s as [|x tl]; [reflexivity|].
  rewrite zlen_cons. pose proof (zlen_nonneg tl). destruct (Z.leb_spec 0 1); [|lia]. destruct (Z.leb_spec 1 (1 + zlen tl)); [|lia]. reflexivity.
Qed.
Lemma read_u_1 x : read_u Little [x] = x.
Proof. cbn. lia. Qed.
(** What [first_read] does on a leading number, and conversely. *)
Definition fr_result (fb w : Z) (fd : Z * Z) : Prop :=
  (forall i, 0 <= i < fb -> negb (Z.land (fst fd) (2 ^ i) =? 0) = Z.testbit w i) /\ snd fd = (w / 2 ^ fb) mod 2 ^ 64.
Lemma fr_combine fb byte v : 2 <= fb <= 3 -> 128 <= byte < 256 -> 0 <= v ->
  fr_result fb (byte - 128 + 128 * v)
    (Z.land byte (2 ^ fb - 1), Z.lor (Z.shiftr (Z.land byte 127) fb) (wrap_u 64 (Z.shiftl v (7 - fb)))).
Proof.
  intros Hfb Hb Hv. split; cbn [fst snd].
  - intros i Hi. apply bit_flag; [lia|lia|]. change (2 ^ 7) with 128.
    replace (byte - 128 + 128 * v) with (byte + (v - 1) * 128) by lia. apply Z.mod_add. lia.
  - rewrite lor_wrap; [|lia|].
    + f_equal. rewrite Z.shiftr_div_pow2 by lia. change 127 with (2 ^ 7 - 1). rewrite land_ones_mod by lia. change (2 ^ 7) with 128.
      replace (byte mod 128) with (byte - 128) by (apply Z.mod_unique with 1; lia).
      replace (128 * v) with (v * 2 ^ (7 - fb) * 2 ^ fb).
      * rewrite Z.div_add by (apply Z.pow_nonzero; lia). reflexivity.
      * rewrite <- Z.mul_assoc, <- Z.pow_add_r by lia. replace (7 - fb + fb) with 7 by lia. change (2 ^ 7) with 128. lia.
    + rewrite Z.shiftr_div_pow2 by lia. change 127 with (2 ^ 7 - 1). rewrite land_ones_mod by lia.
      assert (0 <= byte mod 2 ^ 7 < 2 ^ 7) by (apply Z.mod_pos_bound; lia).
      split; [apply Z.div_pos; [lia|apply Z.pow_pos_nonneg; lia]|]. apply Z.div_lt_upper_bound; [apply Z.pow_pos_nonneg; lia|].
      rewrite <- Z.pow_add_r by lia. replace (fb + (7 - fb)) with 7 by lia. lia.
Qed.
Lemma fr_single fb byte : 2 <= fb <= 3 -> 0 <= byte < 128 ->
  fr_result fb byte (Z.land byte (2 ^ fb - 1), Z.shiftr (Z.land byte 127) fb).
Proof.
  intros Hfb Hb. split; cbn [fst snd].
  - intros i Hi. apply bit_flag; [lia|lia|reflexivity].
  - rewrite Z.shiftr_div_pow2 by lia. change 127 with (2 ^ 7 - 1). rewrite land_ones_mod by lia. rewrite (Z.mod_small byte) by lia.
    symmetry. apply Z.mod_small. split; [apply Z.div_pos; [lia|apply Z.pow_pos_nonneg; lia]|].
    apply Z.le_lt_trans with byte; [apply Z.div_le_upper_bound; [apply Z.pow_pos_nonneg; lia|]|lia].
    assert (1 <= 2 ^ fb) by (apply (Z.pow_le_mono_r 2 0 fb); lia). nia.
Qed.
Lemma first_read_complete it enc w rest : bytes_ok (ci_data it) -> 2 <= ci_flag_bits it <= 3 -> ci_data it = enc ++ rest ->
  uleb_denotes enc w -> zlen enc <= 11 -> w / 2 ^ 7 < 2 ^ 64 ->
  exists fd, first_read it = (Ok fd, ci_with it rest (ci_state it)) /\ fr_result (ci_flag_bits it) w fd.
Proof.
  intros Hb Hfb Hd Hu Hl Hw. unfold first_read. rewrite b_read_1, Hd.
  destruct Hu as [b Hb1|b l v Hb1 Hu]; cbn [app on_data bs]; bsimp; rewrite read_u_1.
  - assert (E : Z.land b 128 =? 0 = true) by (rewrite land128 by (unfold byte_ok; lia); lia). rewrite E. cbn [negb].
    eexists. split; [reflexivity|]. apply fr_single; assumption.
  - assert (E : Z.land b 128 =? 0 = false) by (rewrite land128 by (unfold byte_ok; lia); lia). rewrite E. cbn [negb].
    pose proof (uleb_denotes_nonneg _ _ Hu). rewrite zlen_cons in Hl.
    assert (Hv : (b - 128 + 128 * v) / 2 ^ 7 = v).
    { change (2 ^ 7) with 128. rewrite (Z.mul_comm 128), Z.div_add by lia. rewrite Z.div_small by lia. lia. }
    assert (Er : read_uleb128 (l ++ rest) = (Ok v, rest)).
    { apply read_uleb128_iff; [|exists l; repeat split; auto; lia]. rewrite Hd in Hb. cbn [app] in Hb. apply Forall_inv_tail in Hb. exact Hb. }
    rewrite Er. bsimp. eexists. split; [reflexivity|]. apply fr_combine; assumption.
Qed.
Lemma first_read_sound it r it' : bytes_ok (ci_data it) -> 2 <= ci_flag_bits it <= 3 ->
  first_read it = (r, it') -> r <> Panic /\
  forall fd, r = Ok fd -> exists enc w, ci_data it = enc ++ ci_data it' /\ it' = ci_with it (ci_data it') (ci_state it) /\
    uleb_denotes enc w /\ zlen enc <= 11 /\ w / 2 ^ 7 < 2 ^ 64 /\ fr_result (ci_flag_bits it) w fd.
Proof.
  intros Hb Hfb. unfold first_read. rewrite b_read_1. destruct (ci_data it) as [|b tl] eqn:Ed; bsimp.
  { intro H; inversion H; subst. split; discriminate. }
  rewrite read_u_1. pose proof (Forall_inv Hb) as Hb1. pose proof (Forall_inv_tail Hb) as Hb2. fold (bytes_ok tl) in Hb2.
  rewrite land128 by assumption. unfold byte_ok in Hb1. destruct (Z.ltb_spec b 128); cbn [negb].
  - intro H1; inversion H1; subst. split; [discriminate|]. intros fd Hfd; inversion Hfd; subst. exists [b], b. cbn [ci_data ci_with].
    split; [reflexivity|]. split; [reflexivity|]. split; [constructor; lia|]. split; [reflexivity + (cbn; lia)|].
    split; [apply Z.div_lt_upper_bound; lia|]. apply fr_single; [assumption|lia].
  - pose proof (read_uleb128_no_panic tl Hb2) as Hp.
    destruct (read_uleb128 tl) as [[v| |] rest] eqn:E; bsimp; intro H1; inversion H1; subst; cbn [fst] in Hp; [|split; discriminate|congruence].
    split; [discriminate|]. intros fd Hfd; inversion Hfd; subst. apply read_uleb128_iff in E; [|assumption].
    destruct E as (enc & E1 & E2 & E3 & E4). exists (b :: enc), (b - 128 + 128 * v). cbn [ci_data ci_with].
    pose proof (uleb_denotes_nonneg _ _ E2). split; [cbn [app]; congruence|]. split; [reflexivity|].
    split; [constructor; [lia|assumption]|]. split; [rewrite zlen_cons; lia|].
    split; [change (2 ^ 7) with 128; apply Z.div_lt_upper_bound; lia|]. apply fr_combine; lia.
Qed.

Definition ci_after (it : crel_it) (rest : bytes) (c : crel) : crel_it :=
  {| ci_data := rest; ci_count := ci_count it - 1; ci_flag_bits := ci_flag_bits it; ci_shift := ci_shift it; ci_is_rela := ci_is_rela it; ci_state := c |}.
Definition upd_all delta shift d1 d2 d3 st := upd_addend d3 (upd_type d2 (upd_sym d1 (upd_offset delta shift st))).
Lemma upd_all_eq prev cur w fb shift d1 d2 d3 delta : 0 <= fb -> 0 <= shift -> crel_ok prev -> delta = (w / 2 ^ fb) mod 2 ^ 64 ->
  cr_offset cur = (cr_offset prev + w / 2 ^ fb * 2 ^ shift) mod 2 ^ 64 ->
  cr_sym cur = (cr_sym prev + d1) mod 2 ^ 32 -> cr_type cur = (cr_type prev + d2) mod 2 ^ 32 ->
  cr_addend cur = wrap_s 64 (cr_addend prev + d3) -> upd_all delta shift d1 d2 d3 prev = cur.
Proof.
  intros Hfb Hs _ -> E1 E2 E3 E4. destruct cur as [o s t a]; cbn [cr_offset cr_sym cr_type cr_addend] in *. subst.
  unfold upd_all, upd_addend, upd_type, upd_sym, upd_offset. cbn [cr_offset cr_sym cr_type cr_addend]. unfold wrap_u.
  rewrite Z.shiftl_mul_pow2 by lia. rewrite !Zplus_mod_idemp_r. f_equal.
  rewrite <- (Zplus_mod_idemp_r (_ mod _ * _)). rewrite Zmult_mod_idemp_l. rewrite Zplus_mod_idemp_r. reflexivity.
Qed.
Lemma crel_ok_upds prev delta shift d1 d2 : crel_ok prev ->
  crel_ok (upd_offset delta shift prev) /\ crel_ok (upd_sym d1 (upd_offset delta shift prev)) /\
  crel_ok (upd_type d2 (upd_sym d1 (upd_offset delta shift prev))).
Proof.
  intros (H1 & H2 & H3 & H4). unfold upd_offset, upd_sym, upd_type, crel_ok. cbn [cr_offset cr_sym cr_type cr_addend]. unfold wrap_u.
  repeat split; try (apply Z.mod_pos_bound; lia); try lia.
Qed.

Lemma crel_parse_complete it b c rest : it_ok it -> 0 < ci_count it -> ci_data it = b ++ rest ->
  crel_entry (ci_is_rela it) (ci_shift it) (ci_state it) b c -> crel_parse it = (Ok c, ci_after it rest c).
Proof.
  intros (Hb & Hst & Hsh & Hfb & Hc) Hpos Hd (enc & w & b1 & d1 & b2 & d2 & b3 & d3 & Eb & Hu & Hl & Hw & O1 & O2 & O3 & E1 & E2 & E3 & E4).
  assert (Hfb2 : 2 <= ci_flag_bits it <= 3) by (rewrite Hfb; destruct (ci_is_rela it); lia).
  rewrite Eb, <- !app_assoc in Hd.
  destruct (first_read_complete it enc w _ Hb Hfb2 Hd Hu Hl Hw) as (fd & Ef & Hfl & Hde).
  assert (Hbb : bytes_ok b1 /\ bytes_ok b2 /\ bytes_ok b3 /\ bytes_ok rest).
  { rewrite Hd in Hb. rewrite !bytes_ok_app in Hb. tauto. }
  destruct Hbb as (B1 & B2 & B3 & B4).
  destruct (crel_ok_upds (ci_state it) (snd fd) (ci_shift it) d1 d2 Hst) as (K1 & K2 & K3).
  rewrite crel_parse_eq, Ef. cbn [bs]. cbv zeta. bsimp.
  pose proof (Hfl 0 ltac:(lia)) as F0. change (2 ^ 0) with 1 in F0. pose proof (Hfl 1 ltac:(lia)) as F1. change (2 ^ 1) with 2 in F1.
  rewrite F0, F1.
  rewrite (opt_read_complete _ _ _ b1 d1 (b2 ++ b3 ++ rest)); [|bsimp; rewrite !bytes_ok_app; auto|reflexivity|assumption|intros _; apply (upd0 _ K1)].
  cbn [bs]. bsimp.
  rewrite (opt_read_complete _ _ _ b2 d2 (b3 ++ rest)); [|bsimp; rewrite !bytes_ok_app; auto|reflexivity|assumption|intros _; apply (upd0 _ K2)].
  cbn [bs]. bsimp.
  assert (F2 : ci_is_rela it && negb (Z.land (fst fd) 4 =? 0) = ci_is_rela it && Z.testbit w 2).
  { destruct (ci_is_rela it); [|reflexivity]. cbn [andb]. apply (Hfl 2). lia. }
  rewrite F2.
  rewrite (opt_read_complete _ _ _ b3 d3 rest); [|bsimp; rewrite !bytes_ok_app; auto|reflexivity|assumption|intros _; apply (upd0 _ K3)].
  cbn [bs]. bsimp. unfold psub. destruct (Z.leb_spec 1 (ci_count it)); [|lia].
  fold (upd_all (snd fd) (ci_shift it) d1 d2 d3 (ci_state it)).
  rewrite (upd_all_eq (ci_state it) c w (ci_flag_bits it)); try assumption; try lia; [reflexivity|].
  rewrite Hfb. exact E1.
Qed.

Lemma crel_parse_sound it r it' : it_ok it -> 0 < ci_count it -> crel_parse it = (r, it') -> r <> Panic /\
  forall c, r = Ok c -> exists b rest, ci_data it = b ++ rest /\ crel_entry (ci_is_rela it) (ci_shift it) (ci_state it) b c /\
     it' = ci_after it rest c.
Proof.
  intros (Hb & Hst & Hsh & Hfb & Hc) Hpos.
  assert (Hfb2 : 2 <= ci_flag_bits it <= 3) by (rewrite Hfb; destruct (ci_is_rela it); lia).
  rewrite crel_parse_eq. destruct (first_read it) as [rf it1] eqn:Ef.
  destruct (first_read_sound it rf it1 Hb Hfb2 Ef) as [Pf Sf].
  destruct rf as [fd| |]; cbn [bs]; [|intro H; inversion H; subst; split; discriminate|congruence].
  destruct (Sf fd eq_refl) as (enc & w & Ed & Ei1 & Hu & Hl & Hw & Hfl & Hde). cbv zeta. clear Sf Pf Ef.
  set (rest1 := ci_data it1) in *. rewrite Ei1. bsimp. clear Ei1. clearbody rest1. clear it1.
  assert (B1 : bytes_ok rest1) by (rewrite Ed in Hb; apply bytes_ok_app in Hb; tauto).
  pose proof (Hfl 0 ltac:(lia)) as F0. change (2 ^ 0) with 1 in F0. pose proof (Hfl 1 ltac:(lia)) as F1. change (2 ^ 1) with 2 in F1.
  rewrite F0, F1.
  match goal with |- bs ?m _ = _ -> _ => destruct m as [r1 it1] eqn:E1 end.
  apply opt_read_sound in E1; [|exact B1|intros _; bsimp; apply upd0, (crel_ok_upds _ _ _ 0 0 Hst)].
  destruct E1 as [P1 S1]. destruct r1 as [[]| |]; cbn [bs]; [|intro H; inversion H; subst; split; discriminate|congruence].
  destruct (S1 eq_refl) as (b1 & d1 & O1 & Ed1 & Ei1). revert Ed1 Ei1. bsimp. generalize (ci_data it1). intros rest2 Ed1 ->. clear S1 P1. bsimp.
  assert (B2 : bytes_ok rest2) by (rewrite Ed1 in B1; apply bytes_ok_app in B1; tauto).
  match goal with |- bs ?m _ = _ -> _ => destruct m as [r2 it2] eqn:E2 end.
  apply opt_read_sound in E2; [|exact B2|intros _; bsimp; apply upd0, (crel_ok_upds _ _ _ d1 0 Hst)].
  destruct E2 as [P2 S2]. destruct r2 as [[]| |]; cbn [bs]; [|intro H; inversion H; subst; split; discriminate|congruence].
  destruct (S2 eq_refl) as (b2 & d2 & O2 & Ed2 & Ei2). revert Ed2 Ei2. bsimp. generalize (ci_data it2). intros rest3 Ed2 ->. clear S2 P2. bsimp.
  assert (B3 : bytes_ok rest3) by (rewrite Ed2 in B2; apply bytes_ok_app in B2; tauto).
  assert (F2 : ci_is_rela it && negb (Z.land (fst fd) 4 =? 0) = ci_is_rela it && Z.testbit w 2).
  { destruct (ci_is_rela it); [|reflexivity]. cbn [andb]. apply (Hfl 2). lia. }
  rewrite F2.
  match goal with |- bs ?m _ = _ -> _ => destruct m as [r3 it3] eqn:E3 end.
  apply opt_read_sound in E3; [|exact B3|intros _; bsimp; apply upd0, (crel_ok_upds _ _ _ d1 d2 Hst)].
  destruct E3 as [P3 S3]. destruct r3 as [[]| |]; cbn [bs]; [|intro H; inversion H; subst; split; discriminate|congruence].
  destruct (S3 eq_refl) as (b3 & d3 & O3 & Ed3 & Ei3). revert Ed3 Ei3. bsimp. generalize (ci_data it3). intros rest4 Ed3 ->. clear S3 P3. bsimp.
  unfold psub. destruct (Z.leb_spec 1 (ci_count it)); [|lia].
  intro HH; inversion HH; subst r it'. split; [discriminate|]. intros c Hcc; inversion Hcc.
  fold (upd_all (snd fd) (ci_shift it) d1 d2 d3 (ci_state it)).
  exists (enc ++ b1 ++ b2 ++ b3), rest4. split; [rewrite <- !app_assoc; congruence|]. split; [|reflexivity].
  exists enc, w, b1, d1, b2, d2, b3, d3.
  split; [reflexivity|]. split; [assumption|]. split; [assumption|]. split; [assumption|].
  split; [assumption|]. split; [assumption|]. split; [assumption|].
  unfold upd_all, upd_addend, upd_type, upd_sym, upd_offset. cbn [cr_offset cr_sym cr_type cr_addend]. unfold wrap_u.
  rewrite Z.shiftl_mul_pow2 by lia. rewrite !Zplus_mod_idemp_r. rewrite Hde, Hfb. split; [|auto].
  rewrite <- (Zplus_mod_idemp_r (_ mod _ * _)). rewrite Zmult_mod_idemp_l. rewrite Zplus_mod_idemp_r. reflexivity.
Qed.

Lemma it_ok_after it rest c b : it_ok it -> 0 < ci_count it -> ci_data it = b ++ rest -> crel_ok c -> it_ok (ci_after it rest c).
Proof.
  intros (Hb & Hst & Hsh & Hfb & Hc) Hpos Hd Hok. unfold it_ok, ci_after. cbn [ci_data ci_state ci_shift ci_flag_bits ci_is_rela ci_count].
  split; [rewrite Hd in Hb; apply bytes_ok_app in Hb; tauto|]. split; [assumption|]. split; [assumption|]. split; [assumption|]. lia.
Qed.

Lemma crel_new_ok data it : bytes_ok data -> crel_new data = Ok it ->
  it_ok it /\ ci_state it = crel_default /\ exists enc, data = enc ++ ci_data it /\ crel_header enc (ci_count it) (ci_is_rela it) (ci_shift it).
Proof.
  intros Hb. unfold crel_new. destruct (read_uleb128 data) as [[h| |] rest] eqn:E; try discriminate.
  intro H; inversion H; subst. clear H. cbn [ci_data ci_state ci_shift ci_flag_bits ci_is_rela ci_count].
  apply read_uleb128_iff in E; [|assumption]. destruct E as (enc & E1 & E2 & E3 & E4). pose proof (uleb_denotes_nonneg _ _ E2) as Hh.
  assert (Hsh : 0 <= Z.land h 3 < 4) by (pose proof (land_le h 3); lia).
  assert (Hc0 : 0 <= Z.shiftr h 3) by (apply Z.shiftr_nonneg; lia).
  assert (Er : h = Z.shiftr h 3 * 8 + (if negb (Z.land h 4 =? 0) then 4 else 0) + Z.land h 3).
  { change 4 with (Z.shiftl 1 2) at 1. rewrite land_bit, negb_involutive by lia. rewrite Z.shiftr_div_pow2 by lia. change (2 ^ 3) with 8.
    change 3 with (2 ^ 2 - 1). rewrite land_ones_mod by lia. change (2 ^ 2) with 4.
    rewrite Z.testbit_eqb by lia. change (2 ^ 2) with 4.
    pose proof (Z.div_mod h 8 ltac:(lia)). pose proof (Z.div_mod h 4 ltac:(lia)). pose proof (Z.mod_pos_bound h 4 ltac:(lia)).
    pose proof (Z.div_mod (h / 4) 2 ltac:(lia)) as Hd2. pose proof (Z.mod_pos_bound (h / 4) 2 ltac:(lia)).
    rewrite Z.div_div in Hd2 by lia. change (4 * 2) with 8 in Hd2.
    destruct (Z.eqb_spec ((h / 4) mod 2) 1); lia. }
  split.
  - split; [cbn [ci_data]; rewrite E1 in Hb; apply bytes_ok_app in Hb; tauto|].
    split; [cbn; unfold crel_ok; cbn; lia|]. split; [assumption|]. split; [cbn [ci_flag_bits ci_is_rela]; destruct (negb _); reflexivity|assumption].
  - split; [reflexivity|]. exists enc. split; [assumption|]. split; [assumption|]. split; [assumption|]. rewrite <- Er. auto.
Qed.
Lemma crel_new_complete enc count rela shift rest : bytes_ok rest -> crel_header enc count rela shift ->
  crel_new (enc ++ rest) = Ok {| ci_data := rest; ci_count := count; ci_flag_bits := if rela then 3 else 2; ci_shift := shift; ci_is_rela := rela; ci_state := crel_default |}.
Proof.
  intros Hr (H1 & H2 & H3 & H4 & H5). unfold crel_new.
  assert (E : read_uleb128 (enc ++ rest) = (Ok (count * 8 + (if rela then 4 else 0) + shift), rest)).
  { apply read_uleb128_iff; [apply bytes_ok_app; split; [eapply uleb_denotes_bytes_ok; eauto|assumption]|]. exists enc. auto. }
  rewrite E. set (h := count * 8 + (if rela then 4 else 0) + shift).
  assert (E3 : Z.shiftr h 3 = count).
  { rewrite Z.shiftr_div_pow2 by lia. symmetry. apply Z.div_unique with ((if rela then 4 else 0) + shift); [destruct rela; lia|]. unfold h. change (2 ^ 3) with 8. lia. }
  assert (E4 : negb (Z.land h 4 =? 0) = rela).
  { change 4 with (Z.shiftl 1 2). rewrite land_bit, negb_involutive by lia. rewrite Z.testbit_eqb by lia. change (2 ^ 2) with 4.
    assert (Eh : h / 4 = count * 2 + (if rela then 1 else 0)).
    { symmetry. apply Z.div_unique with shift; [lia|]. unfold h. destruct rela; lia. }
    rewrite Eh. rewrite (Z.add_comm (count * 2)), Z.mod_add by lia. destruct rela; reflexivity. }
  assert (E5 : Z.land h 3 = shift).
  { change 3 with (2 ^ 2 - 1). rewrite land_ones_mod by lia. change (2 ^ 2) with 4. symmetry.
    apply Z.mod_unique with (count * 2 + (if rela then 1 else 0)); [lia|]. unfold h. destruct rela; lia. }
  rewrite E3, E4, E5. destruct rela; reflexivity.
Qed.

(** every stream of well-formed entries is decoded exactly *)
Lemma crel_runs_complete : forall l it b rest, it_ok it -> ci_count it = zlen l -> ci_data it = b ++ rest ->
  crel_entries (ci_is_rela it) (ci_shift it) (ci_state it) b l ->
  exists it', runs crel_next it l false it' /\ ci_data it' = rest.
Proof.
  induction l as [|c l IH]; intros it b rest Hok Hn Hd He.
  - inversion He; subst. exists it. split; [|assumption]. apply runs_done. unfold crel_next. rewrite Hn. reflexivity.
  - inversion He as [|prev b1 cur bs1 l1 He1 He2]; subst. rewrite zlen_cons in Hn. pose proof (zlen_nonneg l).
    rewrite <- app_assoc in Hd. assert (Hp : 0 < ci_count it) by lia.
    pose proof (crel_parse_complete it b1 c (bs1 ++ rest) Hok Hp Hd He1) as Ep.
    destruct (IH (ci_after it (bs1 ++ rest) c) bs1 rest) as (it' & R & Er).
    + eapply it_ok_after; eauto. eapply crel_entry_ok; eauto.
    + cbn [ci_after ci_count]. lia.
    + reflexivity.
    + exact He2.
    + exists it'. split; [|assumption]. eapply runs_more; [|exact R]. unfold crel_next. destruct (Z.eqb_spec (ci_count it) 0); [lia|].
      rewrite Ep. reflexivity.
Qed.
Theorem crel_decodes : forall henc count rela shift b l rest, bytes_ok (b ++ rest) -> crel_header henc count rela shift ->
  crel_entries rela shift crel_default b l -> count = zlen l ->
  exists it, crel_new (henc ++ b ++ rest) = Ok it /\ crel_len it = zlen l /\ ci_is_rela it = rela /\
  exists it', runs crel_next it l false it'.
Proof.
  intros henc count rela shift b l rest Hb Hh He Hc. rewrite (crel_new_complete _ _ _ _ _ Hb Hh).
  eexists. split; [reflexivity|]. split; [exact Hc|]. split; [reflexivity|].
  match goal with |- exists it', runs _ ?i _ _ _ => destruct (crel_runs_complete l i b rest) as (it' & R & _) end; eauto.
  destruct Hh as (H1 & H2 & _). split; [exact Hb|]. split; [unfold crel_ok; cbn; lia|]. split; [exact H2|]. split; [reflexivity|exact H1].
Qed.
(** on arbitrary data *)
Lemma crel_runs_sound : forall n it, it_ok it -> ci_count it = Z.of_nat n ->
  exists l e it' b rest, runs crel_next it l e it' /\ ci_data it = b ++ rest /\
    crel_entries (ci_is_rela it) (ci_shift it) (ci_state it) b l /\ zlen l <= ci_count it /\
    (e = false -> zlen l = ci_count it) /\
    (e = true -> zlen l < ci_count it /\ forall x tl c, rest = x ++ tl -> ~ crel_entry (ci_is_rela it) (ci_shift it) (last l (ci_state it)) x c) /\
    crel_next it' = (Ok None, it').
Proof.
  induction n as [|n IH]; intros it Hok Hn.
  - exists [], false, it, [], (ci_data it). assert (En : crel_next it = (Ok None, it)) by (unfold crel_next; rewrite Hn; reflexivity).
    split; [apply runs_done; assumption|]. split; [reflexivity|]. split; [constructor|]. split; [rewrite Hn; cbn; lia|].
    split; [intros _; rewrite Hn; reflexivity|]. split; [discriminate|assumption].
  - assert (Hp : 0 < ci_count it) by lia.
    destruct (crel_parse it) as [r it1] eqn:Ep. destruct (crel_parse_sound it r it1 Hok Hp Ep) as [Pp Sp].
    destruct r as [c| |]; [|clear Sp|congruence].
    + destruct (Sp c eq_refl) as (b1 & rest1 & Ed & He & ->).
      assert (Hok1 : it_ok (ci_after it rest1 c)) by (eapply it_ok_after; eauto; eapply crel_entry_ok; eauto).
      destruct (IH (ci_after it rest1 c) Hok1) as (l & e & it' & b & rest & R & Ed1 & He1 & L1 & L2 & L3 & L4); [cbn [ci_after ci_count]; lia|].
      cbn [ci_after ci_data ci_is_rela ci_shift ci_state ci_count] in *.
      exists (c :: l), e, it', (b1 ++ b), rest. rewrite zlen_cons.
      split; [eapply runs_more; [|exact R]; unfold crel_next; destruct (Z.eqb_spec (ci_count it) 0); [lia|]; rewrite Ep; reflexivity|].
      split; [rewrite <- app_assoc; congruence|]. split; [econstructor; eauto|]. split; [lia|]. split; [intro He0; specialize (L2 He0); lia|].
      split; [|assumption]. intro He0. destruct (L3 He0) as [L5 L6]. split; [lia|]. intros x tl c' Hx. 
      replace (last (c :: l) (ci_state it)) with (last l c); [apply (L6 x tl c' Hx)|].
      destruct l as [|y l']; [reflexivity|]. cbn [last]. clear. revert y. induction l' as [|z l' IH']; intro y; [reflexivity|]. cbn [last] in *. apply (IH' z).
    + exists [], true. eexists. exists [], (ci_data it). split.
      { apply runs_err. unfold crel_next. destruct (Z.eqb_spec (ci_count it) 0); [lia|]. rewrite Ep. reflexivity. }
      split; [reflexivity|]. split; [constructor|]. split; [change (zlen (@nil crel)) with 0; lia|]. split; [discriminate|].
      split; [|reflexivity]. intros _. split; [change (zlen (@nil crel)) with 0; lia|]. cbn [last]. intros x tl c Hx Hent.
      rewrite (crel_parse_complete it x c tl Hok Hp Hx Hent) in Ep. discriminate.
Qed.
Theorem crel_total : forall data, bytes_ok data ->
  crel_new data <> Panic /\
  forall it, crel_new data = Ok it -> exists henc, crel_header henc (crel_len it) (ci_is_rela it) (ci_shift it) /\
  exists l e it' b rest, runs crel_next it l e it' /\ data = henc ++ b ++ rest /\
    crel_entries (ci_is_rela it) (ci_shift it) crel_default b l /\ zlen l <= crel_len it /\
    (e = false -> zlen l = crel_len it) /\
    (e = true -> zlen l < crel_len it /\ forall x tl c, rest = x ++ tl -> ~ crel_entry (ci_is_rela it) (ci_shift it) (last l crel_default) x c) /\
    crel_next it' = (Ok None, it').
Proof.
  intros data Hb. split.
  - unfold crel_new. pose proof (read_uleb128_no_panic data Hb) as Hp. destruct (read_uleb128 data) as [[h| |] rest]; cbn in Hp; congruence.
  - intros it E. destruct (crel_new_ok data it Hb E) as (Hok & Hst & enc & Ed & Hh). exists enc. split; [exact Hh|].
    destruct (crel_runs_sound (Z.to_nat (ci_count it)) it Hok) as (l & e & it' & b & rest & R & Ed1 & He1 & L1 & L2 & L3 & L4).
    { destruct Hok as (_ & _ & _ & _ & H). lia. }
    rewrite Hst in *. exists l, e, it', b, rest. split; [exact R|]. split; [congruence|]. repeat split; auto; apply L3; auto.
Qed.
