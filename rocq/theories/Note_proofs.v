From Verif Require Import Note_spec Core_proofs Str_proofs Util_proofs Hash_proofs Rel_proofs.

Definition al_ok (al : Z) := al = 4 \/ al = 8.
Lemma al_pow al : al_ok al -> exists k, 0 <= k <= 3 /\ al = 2 ^ k.
Proof. intros [->| ->]; [exists 2|exists 3]; split; try lia; reflexivity. Qed.
Lemma align_al al o : al_ok al -> 0 <= o < 2 ^ 63 -> align 64 o al = Ok (align_up o al).
Proof.
  intros H Ho. destruct (al_pow al H) as (k & Hk & ->). apply align_Ok; [lia|].
  assert (2 ^ k <= 2 ^ 3) by (apply Z.pow_le_mono_r; lia). change (2 ^ 3) with 8 in *. lia.
Qed.
Lemma align_up_bounds al o : al_ok al -> o <= align_up o al < o + 8.
Proof. intros H. destruct (align_up_spec o al) as [_ ?]; destruct H; lia. Qed.
Lemma padding_up al n pad : al_ok al -> padding al n pad -> n + zlen pad = align_up n al.
Proof.
  intros H [Hd Hl]. apply align_up_unique; [destruct H; lia|exact Hd|]. pose proof (zlen_nonneg pad). lia.
Qed.
Lemma up_padding al n pad : al_ok al -> n + zlen pad = align_up n al -> padding al n pad.
Proof.
  intros H E. destruct (align_up_spec n al) as [H1 H2]; [destruct H; lia|]. split; [rewrite E; exact H1|lia].
Qed.

(** Closed form of [note_parse] *)
Lemma note_parse_eq e al data : bytes_ok data -> al_ok al ->
  let nsz := fld e 0 4 (zslice 0 12 data) in let dsz := fld e 4 4 (zslice 0 12 data) in
  let o1 := align_up (12 + nsz) al in let o2 := align_up (o1 + dsz) al in
  note_parse e al data =
  if (12 <=? zlen data) && (12 + nsz <=? zlen data) && (o1 + dsz <=? zlen data) then
    (Ok {| nt_header := zslice 0 12 data; nt_name := zslice 12 nsz data; nt_desc := zslice o1 dsz data |},
     if o2 <=? zlen data then zdrop o2 data else [])
  else (Err, data).
Proof.
  intros Hb Hal nsz dsz o1 o2. unfold note_parse. rewrite b_read_at_eq by lia. change (0 + 12) with 12.
  assert (Hbs : bytes_ok (zslice 0 12 data)) by (apply bytes_ok_zslice; exact Hb).
  pose proof (fld_bound e 0 4 _ Hbs) as B1. pose proof (fld_bound e 4 4 _ Hbs) as B2. fold nsz in B1. fold dsz in B2. change (8 * 4) with 32 in *.
  destruct (12 <=? zlen data); cbn [bind andb]; [|reflexivity]. fold nsz dsz.
  rewrite b_read_bytes_at_eq by lia.
  destruct (Z.leb_spec (12 + nsz) (zlen data)); cbn [bind andb]; [|reflexivity].
  unfold padd at 1. destruct (Z.ltb_spec (12 + nsz) (2 ^ 64)); [|lia]. cbn [bind].
  rewrite align_al by (assumption || lia). cbn [bind]. fold o1. pose proof (align_up_bounds al (12 + nsz) Hal) as B3. fold o1 in B3.
  rewrite b_read_bytes_at_eq by lia. destruct (Z.leb_spec (o1 + dsz) (zlen data)); cbn [bind andb]; [|reflexivity].
  unfold padd. destruct (Z.ltb_spec (o1 + dsz) (2 ^ 64)); [|lia]. cbn [bind]. rewrite align_al by (assumption || lia). cbn [bind]. fold o2.
  pose proof (align_up_bounds al (o1 + dsz) Hal) as B4. fold o2 in B4. rewrite b_skip_eq by lia. destruct (o2 <=? zlen data); reflexivity.
Qed.
Lemma body_bytes e al n b data tail : bytes_ok data -> al_ok al -> note_body e al n b -> data = b ++ tail ->
  zslice 0 12 data = write_u e 4 (zlen (v_name n)) ++ write_u e 4 (zlen (v_desc n)) ++ write_u e 4 (v_type n) /\
  fld e 0 4 (zslice 0 12 data) = zlen (v_name n) /\ fld e 4 4 (zslice 0 12 data) = zlen (v_desc n) /\
  fld e 8 4 (zslice 0 12 data) = v_type n /\
  zslice 12 (zlen (v_name n)) data = v_name n /\
  zslice (align_up (12 + zlen (v_name n)) al) (zlen (v_desc n)) data = v_desc n /\
  align_up (12 + zlen (v_name n)) al + zlen (v_desc n) = zlen b.
Proof.
  intros Hb Hal (H1 & H2 & H3 & pad & Hp & ->) ->.
  pose proof (padding_up _ _ _ Hal Hp) as Ep. pose proof (zlen_nonneg (v_name n)). pose proof (zlen_nonneg (v_desc n)).
  set (w1 := write_u e 4 (zlen (v_name n))). set (w2 := write_u e 4 (zlen (v_desc n))). set (w3 := write_u e 4 (v_type n)).
  assert (L1 : zlen w1 = 4) by apply zlen_write_u. assert (L2 : zlen w2 = 4) by apply zlen_write_u. assert (L3 : zlen w3 = 4) by apply zlen_write_u.
  assert (E : zslice 0 12 ((w1 ++ w2 ++ w3 ++ v_name n ++ pad ++ v_desc n) ++ tail) = w1 ++ w2 ++ w3).
  { replace ((w1 ++ w2 ++ w3 ++ v_name n ++ pad ++ v_desc n) ++ tail) with ([] ++ (w1 ++ w2 ++ w3) ++ (v_name n ++ pad ++ v_desc n ++ tail))
      by (rewrite <- !app_assoc; reflexivity). apply zslice_app_eq; [reflexivity|]. zl. }
  rewrite E. split; [reflexivity|]. change 4 with (Z.of_nat 4).
  split; [apply (fld_at e [] (zlen (v_name n)) (w2 ++ w3)); [reflexivity|change (8 * Z.of_nat 4) with 32; lia|reflexivity]|].
  split; [apply (fld_at e w1 (zlen (v_desc n)) w3); [lia|change (8 * Z.of_nat 4) with 32; lia|reflexivity]|].
  split; [apply (fld_at e (w1 ++ w2) (v_type n) []); [zl|change (8 * Z.of_nat 4) with 32; lia|rewrite app_nil_r, <- app_assoc; reflexivity]|].
  split.
  { replace ((w1 ++ w2 ++ w3 ++ v_name n ++ pad ++ v_desc n) ++ tail) with ((w1 ++ w2 ++ w3) ++ v_name n ++ (pad ++ v_desc n ++ tail))
      by (rewrite <- !app_assoc; reflexivity). apply zslice_app_eq; [zl|reflexivity]. }
  rewrite <- Ep. split.
  { replace ((w1 ++ w2 ++ w3 ++ v_name n ++ pad ++ v_desc n) ++ tail) with ((w1 ++ w2 ++ w3 ++ v_name n ++ pad) ++ v_desc n ++ tail)
      by (rewrite <- !app_assoc; reflexivity). apply zslice_app_eq; [zl|reflexivity]. }
  zl.
Qed.
Definition good_note (e : endian) (m : note) : Prop :=
  n_namesz e m = zlen (nt_name m) /\ n_descsz e m = zlen (nt_desc m).
Lemma note_parse_complete e al n b data tail : bytes_ok data -> al_ok al -> note_body e al n b -> data = b ++ tail ->
  exists m, view e m = n /\ good_note e m /\
  note_parse e al data = (Ok m, if align_up (zlen b) al <=? zlen data then zdrop (align_up (zlen b) al) data else []).
Proof.
  intros Hb Hal Hn Hd. pose proof (note_parse_eq e al data Hb Hal) as E. cbv zeta in E.
  destruct (body_bytes e al n b data tail Hb Hal Hn Hd) as (E1 & E2 & E3 & E4 & E5 & E6 & E7).
  rewrite E2, E3, E5, E6, E7 in E. eexists. split; [|split; [|rewrite E]].
  3:{ assert (0 <= zlen tail) by apply zlen_nonneg. assert (zlen data = zlen b + zlen tail) by (subst; apply zlen_app).
      pose proof (zlen_nonneg (v_name n)). pose proof (zlen_nonneg (v_desc n)). pose proof (align_up_bounds al (12 + zlen (v_name n)) Hal).
      destruct (Z.leb_spec 12 (zlen data)); [|lia]. destruct (Z.leb_spec (12 + zlen (v_name n)) (zlen data)); [|lia].
      destruct (Z.leb_spec (zlen b) (zlen data)); [|lia]. cbn [andb]. reflexivity. }
  - unfold view, n_type. cbn [nt_header nt_name nt_desc]. rewrite E4. destruct n; reflexivity.
  - unfold good_note, n_namesz, n_descsz. cbn [nt_header nt_name nt_desc]. rewrite E2, E3. auto.
Qed.
Lemma note_parse_sound e al data r rest : bytes_ok data -> al_ok al -> note_parse e al data = (r, rest) ->
  match r with
  | Ok m => good_note e m /\ exists b, note_body e al (view e m) b /\ zlen b >= 12 /\
      ((exists pad, padding al (zlen b) pad /\ data = b ++ pad ++ rest) \/
       (rest = [] /\ exists short more, more <> [] /\ padding al (zlen b) (short ++ more) /\ data = b ++ short))
  | Err => forall n b tail, data = b ++ tail -> ~ note_body e al n b
  | Panic => False
  end.
Proof.
  intros Hb Hal E. pose proof (note_parse_eq e al data Hb Hal) as E'. cbv zeta in E'. rewrite E in E'. clear E.
  set (hd := zslice 0 12 data) in *. set (nsz := fld e 0 4 hd) in *. set (dsz := fld e 4 4 hd) in *.
  assert (Hbs : bytes_ok hd) by (apply bytes_ok_zslice; exact Hb).
  pose proof (fld_bound e 0 4 _ Hbs) as B1. pose proof (fld_bound e 4 4 _ Hbs) as B2. pose proof (fld_bound e 8 4 _ Hbs) as B0. fold nsz in B1. fold dsz in B2. change (8 * 4) with 32 in *.
  pose proof (align_up_bounds al (12 + nsz) Hal) as B3. set (o1 := align_up (12 + nsz) al) in *.
  pose proof (align_up_bounds al (o1 + dsz) Hal) as B4. set (o2 := align_up (o1 + dsz) al) in *.
  destruct ((12 <=? zlen data) && (12 + nsz <=? zlen data) && (o1 + dsz <=? zlen data)) eqn:C; inversion E'; subst r rest.
  - assert (Lh : zlen hd = 12) by (apply zlen_zslice; lia).
    set (b := ztake (o1 + dsz) data). assert (Lb : zlen b = o1 + dsz) by (apply zlen_ztake; lia).
    assert (Ln : zlen (zslice 12 nsz data) = nsz) by (apply zlen_zslice; lia).
    assert (Ld : zlen (zslice o1 dsz data) = dsz) by (apply zlen_zslice; lia).
    split; [unfold good_note, n_namesz, n_descsz; cbn [nt_header nt_name nt_desc]; fold nsz dsz; lia|].
    exists b. split; [|split; [lia|]].
    + unfold note_body, view, n_type. cbn [nt_header nt_name nt_desc v_name v_desc v_type].
      rewrite Ln, Ld. split; [lia|]. split; [lia|]. split; [lia|].
      exists (zslice (12 + nsz) (o1 - (12 + nsz)) data). split.
      { apply up_padding; [assumption|]. rewrite zlen_zslice by lia. fold o1. lia. }
      assert (Eh : write_u e 4 nsz ++ write_u e 4 dsz ++ write_u e 4 (fld e 8 4 hd) = hd).
      { unfold nsz, dsz, fld. rewrite !write_read_n; try (apply bytes_ok_zslice; assumption); try (rewrite zlen_zslice; lia).
        rewrite (zslice_0_drop hd 4) at 4. f_equal. rewrite (zdrop_zslice hd 4 4) by lia. f_equal. rewrite (zdrop_zslice hd (4 + 4) 4) by lia.
        rewrite (zdrop_all _ hd) by lia. rewrite app_nil_r. reflexivity. }
      rewrite !app_assoc. rewrite <- (app_assoc (write_u e 4 nsz)), Eh. rewrite <- !app_assoc.
      assert (Ed : data = hd ++ zslice 12 nsz data ++ zslice (12 + nsz) (o1 - (12 + nsz)) data ++ zslice o1 dsz data ++ zdrop (o1 + dsz) data).
      { rewrite (zslice_0_drop data 12) at 1. f_equal. rewrite (zdrop_zslice data 12 nsz) by lia. f_equal.
        rewrite (zdrop_zslice data (12 + nsz) (o1 - (12 + nsz))) by lia. f_equal. replace (12 + nsz + (o1 - (12 + nsz))) with o1 by lia.
        apply zdrop_zslice; lia. }
      unfold b. rewrite Ed at 1. rewrite !app_assoc. apply ztake_app_eq. zl_norm. rewrite (zlen_zslice (12 + nsz)) by lia. lia.
    + rewrite Lb. destruct (Z.leb_spec o2 (zlen data)).
      * left. exists (zslice (o1 + dsz) (o2 - (o1 + dsz)) data). split.
        { apply up_padding; [assumption|]. rewrite zlen_zslice by lia. fold o2. lia. }
        unfold b. rewrite <- (ztake_zdrop (o1 + dsz) data) at 1. f_equal.
        rewrite (zdrop_zslice data (o1 + dsz) (o2 - (o1 + dsz))) by lia. f_equal. f_equal. lia.
      * right. split; [reflexivity|]. exists (zdrop (o1 + dsz) data), (zeros (o2 - zlen data)).
        assert (zlen (zeros (o2 - zlen data)) = o2 - zlen data) by (apply zlen_zeros; lia).
        split; [intro Hn; rewrite Hn in *; change (zlen (@nil Z)) with 0 in *; lia|]. split.
        { apply up_padding; [assumption|]. rewrite zlen_app, zlen_zdrop by lia. fold o2. lia. }
        symmetry. apply ztake_zdrop.
  - intros n b tail Hd Hn. destruct (note_parse_complete e al n b data tail Hb Hal Hn Hd) as (m & _ & _ & E).
    pose proof (note_parse_eq e al data Hb Hal) as E''. cbv zeta in E''. fold hd nsz dsz o1 o2 in E''. rewrite C in E''. congruence.
Qed.
Lemma note_body_pos e al n b : note_body e al n b -> 12 <= zlen b.
Proof.
  intros (_ & _ & _ & pad & _ & ->). pose proof (zlen_nonneg (v_name n)). pose proof (zlen_nonneg (v_desc n)). pose proof (zlen_nonneg pad).
  zl_norm. rewrite !zlen_write_u. lia.
Qed.
Lemma note_next_parse e al data : data <> [] -> note_next e al data =
  match note_parse e al data with (Ok n, data) => (Ok (Some n), data) | (Err, _) => (Err, []) | (Panic, data) => (Panic, data) end.
Proof. destruct data; [congruence|reflexivity]. Qed.
Lemma zdrop_after (b pad rest : bytes) o : o = zlen b + zlen pad -> zdrop o (b ++ pad ++ rest) = rest.
Proof. intros ->. rewrite app_assoc. apply zdrop_app_eq. zl. Qed.

Lemma notes_decode_then e al : al_ok al -> forall l post data, bytes_ok data -> notes_then e al post l data ->
  exists ms, map (view e) ms = l /\ Forall (good_note e) ms /\
    forall l2 er st, runs (note_next e al) post l2 er st -> runs (note_next e al) data (ms ++ l2) er st.
Proof.
  intros Hal l post data Hb H. induction H as [|n b pad l data Hn Hp Hl IH].
  - exists []. split; [reflexivity|]. split; [constructor|auto].
  - assert (Hb2 : bytes_ok data) by (apply bytes_ok_app in Hb as [_ Hb]; apply bytes_ok_app in Hb; tauto).
    destruct (IH Hb2) as (ms & <- & Hg & HR). 
    destruct (note_parse_complete e al n b _ (pad ++ data) Hb Hal Hn eq_refl) as (m & <- & Hgm & E).
    exists (m :: ms). split; [reflexivity|]. split; [constructor; assumption|]. intros l2 er st R. cbn [app].
    rewrite <- (padding_up _ _ _ Hal Hp) in E. rewrite zdrop_after in E by reflexivity. pose proof (zlen_nonneg data).
    destruct (Z.leb_spec (zlen b + zlen pad) (zlen (b ++ pad ++ data))); [|zl_norm_in H0; lia].
    eapply runs_more; [|apply HR, R]. rewrite note_next_parse, E; [reflexivity|].
    pose proof (note_body_pos _ _ _ _ Hn). intro Hnil. apply (f_equal (@zlen Z)) in Hnil. rewrite !zlen_app in Hnil. change (zlen (@nil Z)) with 0 in Hnil.
    pose proof (zlen_nonneg pad). lia.
Qed.
Theorem notes_decoded : forall e al l data, al_ok al -> bytes_ok data -> notes_data e al l data ->
  exists ms, runs (note_next e al) data ms false [] /\ map (view e) ms = l /\ Forall (good_note e) ms.
Proof.
  intros e al l data Hal Hb [H|(l' & n & b & short & more & -> & Hn & Hp & Hm & H)].
  - destruct (notes_decode_then e al Hal l [] data Hb H) as (ms & <- & Hg & HR). exists ms.
    split; [|auto]. rewrite <- (app_nil_r ms). apply HR. apply runs_done. reflexivity.
  - destruct (notes_decode_then e al Hal l' (b ++ short) data Hb H) as (ms & <- & Hg & HR).
    assert (Hb2 : bytes_ok (b ++ short)).
    { clear -H Hb. induction H as [|? ? ? ? ? ? ? ? IH]; [assumption|]. apply IH. apply bytes_ok_app in Hb as [_ Hb]; apply bytes_ok_app in Hb; tauto. }
    destruct (note_parse_complete e al n b _ short Hb2 Hal Hn eq_refl) as (m & <- & Hgm & E).
    exists (ms ++ [m]). split; [|split; [rewrite map_app; reflexivity|apply Forall_app; split; [assumption|repeat constructor; apply Hgm]]].
    apply HR. apply (runs_more _ _ []); [|apply runs_done; reflexivity]. rewrite note_next_parse, E.
    2:{ pose proof (note_body_pos _ _ _ _ Hn). intro Hnil. apply (f_equal (@zlen Z)) in Hnil. rewrite !zlen_app in Hnil. change (zlen (@nil Z)) with 0 in Hnil.
        pose proof (zlen_nonneg short). lia. }
    rewrite <- (padding_up _ _ _ Hal Hp). rewrite !zlen_app.
    assert (0 < zlen more) by (destruct more; [congruence|rewrite zlen_cons; pose proof (zlen_nonneg more); lia]).
    destruct (Z.leb_spec (zlen b + (zlen short + zlen more)) (zlen b + zlen short)); [lia|]. reflexivity.
Qed.
Theorem notes_total : forall e al data, al_ok al -> bytes_ok data ->
  exists ms er, runs (note_next e al) data ms er [] /\ Forall (good_note e) ms /\
    if er then exists post, notes_then e al post (map (view e) ms) data /\ post <> [] /\
                 forall n b tail, post = b ++ tail -> ~ note_body e al n b
    else notes_data e al (map (view e) ms) data.
Proof.
  intros e al data Hal. assert (Hl : (length data <= length data)%nat) by lia. revert Hl. generalize (length data) at 2. intro k. revert data.
  induction k as [|k IH]; intros data Hk Hb.
  - destruct data; [|cbn in Hk; lia]. exists [], false. split; [apply runs_done; reflexivity|]. split; [constructor|]. left. constructor.
  - destruct (list_eq_dec Z.eq_dec data []) as [->|Hne].
    { exists [], false. split; [apply runs_done; reflexivity|]. split; [constructor|]. left. constructor. }
    destruct (note_parse e al data) as [r rest] eqn:E. pose proof (note_parse_sound e al data r rest Hb Hal E) as S.
    pose proof (note_next_parse e al data Hne) as N. rewrite E in N.
    destruct r as [m| |]; [|exists [], true; split; [apply runs_err; exact N|split; [constructor|exists data; split; [constructor|auto]]]|contradiction].
    destruct S as (Hg & b & Hn & L & [(pad & Hp & Hd)|(-> & short & more & Hm & Hp & Hd)]).
    + assert (Hb2 : bytes_ok rest) by (rewrite Hd in Hb; apply bytes_ok_app in Hb as [_ Hb]; apply bytes_ok_app in Hb; tauto).
      destruct (IH rest) as (ms & er & R & Hgs & Hs); [rewrite Hd, !app_length in Hk; unfold zlen in L; lia|exact Hb2|].
      exists (m :: ms), er. split; [eapply runs_more; [exact N|exact R]|]. split; [constructor; assumption|]. rewrite Hd. cbn [map].
      destruct er.
      * destruct Hs as (post & H1 & H2 & H3). exists post. split; [|auto]. constructor; assumption.
      * destruct Hs as [H1|(l' & n & b' & sh & mo & E1 & E2 & E3 & E4 & E5)]; [left; constructor; assumption|right].
        exists (view e m :: l'), n, b', sh, mo. split; [rewrite E1; reflexivity|]. split; [assumption|]. split; [assumption|]. split; [assumption|]. constructor; assumption.
    + exists [m], false. split; [eapply runs_more; [exact N|apply runs_done; reflexivity]|]. split; [repeat constructor; apply Hg|]. right. exists [], (view e m), b, short, more.
      split; [reflexivity|]. split; [assumption|]. split; [assumption|]. split; [assumption|]. rewrite Hd. constructor.
Qed.
Theorem note_align_ok : forall al, 0 <= al -> note_align al = (if al <=? 4 then Ok 4 else if al =? 8 then Ok 8 else Err).
Proof. intros al H. unfold note_align. destruct (Z.leb_spec 0 al); [reflexivity|lia]. Qed.

(** name() *)
Lemma strip_zeros_spec l : exists k, l = zeros k ++ strip_zeros l /\ 0 <= k /\ forall x tl, strip_zeros l = x :: tl -> x <> 0.
Proof.
  induction l as [|x l IH]; [exists 0; split; [reflexivity|split; [lia|discriminate]]|].
  destruct (Z.eq_dec x 0) as [->|Hx].
  - destruct IH as (k & E & Hk & H). exists (k + 1). cbn [strip_zeros]. split; [|split; [lia|exact H]].
    unfold zeros in *. replace (Z.to_nat (k + 1)) with (S (Z.to_nat k)) by lia. cbn [repeat app]. congruence.
  - exists 0. replace (strip_zeros (x :: l)) with (x :: l) by (destruct x; [congruence|reflexivity|reflexivity]).
    split; [reflexivity|]. split; [lia|]. intros y tl E. congruence.
Qed.
Theorem note_name_spec : forall n, exists k, 0 <= k /\ nt_name n = note_name n ++ zeros k /\ forall pre x, note_name n = pre ++ [x] -> x <> 0.
Proof.
  intro n. unfold note_name. destruct (strip_zeros_spec (rev (nt_name n))) as (k & E & Hk & H). exists k. split; [exact Hk|]. split.
  - rewrite <- (rev_involutive (nt_name n)) at 1. rewrite E at 1. rewrite rev_app_distr. f_equal. unfold zeros. generalize (Z.to_nat k). clear. intro m.
    assert (Hc : forall a, repeat 0 m ++ 0 :: a = 0 :: repeat 0 m ++ a) by (induction m as [|m IH]; intro a; [reflexivity|cbn; f_equal; apply IH]).
    induction m as [|m IH]; [reflexivity|]. cbn [repeat rev]. rewrite IH. 2:{ intro a. specialize (Hc a). cbn in Hc. congruence. }
    specialize (Hc []). cbn [repeat app] in Hc. rewrite app_nil_r in Hc. congruence.
  - intros pre x Hx. apply (f_equal (@rev Z)) in Hx. rewrite rev_involutive, rev_app_distr in Hx. cbn in Hx. eapply H; exact Hx.
Qed.

(** * GNU properties *)
Lemma prop_parse_eq e al data : bytes_ok data -> al_ok al ->
  let dsz := fld e 4 4 data in let o := align_up (8 + dsz) al in
  prop_parse e al data =
  if (8 <=? zlen data) && (8 + dsz <=? zlen data) then
    if o <=? zlen data then (Ok {| pr_type := fld e 0 4 data; pr_data := zslice 8 dsz data |}, zdrop o data) else (Err, [])
  else (Err, data).
Proof.
  intros Hb Hal dsz o. unfold prop_parse. rewrite !b_read_at_eq by lia. change (0 + 4) with 4. change (4 + 4) with 8.
  pose proof (fld_bound e 4 4 _ Hb) as B2. fold dsz in B2. change (8 * 4) with 32 in *.
  destruct (Z.leb_spec 4 (zlen data)), (Z.leb_spec 8 (zlen data)); try lia; cbn [bind andb]; try reflexivity.
  change (read_u e (zslice 4 4 data)) with dsz.
  rewrite b_read_bytes_at_eq by lia.
  destruct (Z.leb_spec (8 + dsz) (zlen data)); cbn [bind andb]; [|reflexivity].
  unfold padd. destruct (Z.ltb_spec (8 + dsz) (2 ^ 64)); [|lia]. cbn [bind]. rewrite align_al by (assumption || lia). cbn [bind]. fold o.
  pose proof (align_up_bounds al (8 + dsz) Hal) as B4. fold o in B4. rewrite b_skip_eq by lia. destruct (o <=? zlen data); reflexivity.
Qed.
Lemma prop_parse_complete e al p b pad rest : bytes_ok (b ++ pad ++ rest) -> al_ok al -> prop_body e p b -> padding al (zlen b) pad ->
  prop_parse e al (b ++ pad ++ rest) = (Ok p, rest).
Proof.
  intros Hb Hal (H1 & H2 & ->) Hp. rewrite prop_parse_eq by assumption. cbv zeta.
  set (w1 := write_u e 4 (pr_type p)) in *. set (w2 := write_u e 4 (zlen (pr_data p))) in *.
  assert (L1 : zlen w1 = 4) by apply zlen_write_u. assert (L2 : zlen w2 = 4) by apply zlen_write_u.
  pose proof (padding_up _ _ _ Hal Hp) as Ep. rewrite !zlen_app, L1, L2 in Ep.
  set (data := (w1 ++ w2 ++ pr_data p) ++ pad ++ rest) in *.
  pose proof (zlen_nonneg (pr_data p)). pose proof (zlen_nonneg pad). pose proof (zlen_nonneg rest).
  assert (Ld : zlen data = 8 + zlen (pr_data p) + zlen pad + zlen rest) by (unfold data; zl).
  assert (E1 : fld e 4 4 data = zlen (pr_data p)).
  { change 4 with (Z.of_nat 4). apply (fld_at e w1 (zlen (pr_data p)) (pr_data p ++ pad ++ rest)); [lia|change (8 * Z.of_nat 4) with 32; lia|].
    unfold data. rewrite <- !app_assoc. reflexivity. }
  assert (E2 : fld e 0 4 data = pr_type p).
  { change 4 with (Z.of_nat 4). apply (fld_at e [] (pr_type p) (w2 ++ pr_data p ++ pad ++ rest)); [reflexivity|change (8 * Z.of_nat 4) with 32; lia|].
    unfold data. rewrite <- !app_assoc. reflexivity. }
  rewrite E1, E2. replace (8 + zlen (pr_data p)) with (4 + (4 + zlen (pr_data p))) by lia. rewrite <- Ep.
  destruct (Z.leb_spec 8 (zlen data)); [|lia]. destruct (Z.leb_spec (4 + (4 + zlen (pr_data p))) (zlen data)); [|lia].
  destruct (Z.leb_spec (4 + (4 + zlen (pr_data p)) + zlen pad) (zlen data)); [|lia]. cbn [andb].
  f_equal; [f_equal|].
  - replace (zslice 8 (zlen (pr_data p)) data) with (pr_data p); [destruct p; reflexivity|].
    unfold data. replace ((w1 ++ w2 ++ pr_data p) ++ pad ++ rest) with ((w1 ++ w2) ++ pr_data p ++ (pad ++ rest)) by (rewrite <- !app_assoc; reflexivity).
    symmetry. apply zslice_app_eq; [zl|reflexivity].
  - unfold data. apply zdrop_after. zl.
Qed.
Lemma prop_parse_sound e al data r rest : bytes_ok data -> al_ok al -> prop_parse e al data = (r, rest) ->
  match r with
  | Ok p => exists b pad, prop_body e p b /\ 8 <= zlen b /\ padding al (zlen b) pad /\ data = b ++ pad ++ rest
  | Err => forall p b pad tail, data = b ++ pad ++ tail -> prop_body e p b -> ~ padding al (zlen b) pad
  | Panic => False
  end.
Proof.
  intros Hb Hal E. destruct r as [p| |].
  - rewrite prop_parse_eq in E by assumption. cbv zeta in E.
    pose proof (fld_bound e 4 4 _ Hb) as B2. pose proof (fld_bound e 0 4 _ Hb) as B0. set (dsz := fld e 4 4 data) in *. change (8 * 4) with 32 in *.
    pose proof (align_up_bounds al (8 + dsz) Hal) as B4. set (o := align_up (8 + dsz) al) in *.
    destruct ((8 <=? zlen data) && (8 + dsz <=? zlen data)) eqn:C; [|discriminate].
    destruct (Z.leb_spec o (zlen data)); inversion E; subst p rest.
    exists (ztake (8 + dsz) data), (zslice (8 + dsz) (o - (8 + dsz)) data). rewrite zlen_ztake by lia. split; [|split; [lia|split]].
    + unfold prop_body. cbn [pr_type pr_data]. rewrite zlen_zslice by lia. split; [lia|]. split; [lia|].
      unfold fld at 1. rewrite write_read_n by (try (apply bytes_ok_zslice; assumption); rewrite zlen_zslice; lia).
      unfold dsz at 2, fld. rewrite write_read_n by (try (apply bytes_ok_zslice; assumption); rewrite zlen_zslice; lia).
      rewrite (zslice_0_drop data 4) at 1. rewrite (zdrop_zslice data 4 4) by lia. rewrite (zdrop_zslice data (4 + 4) dsz) by lia.
      rewrite !app_assoc. apply ztake_app_eq. zl_norm. rewrite !zlen_zslice by lia. lia.
    + apply up_padding; [assumption|]. rewrite zlen_zslice by lia. fold o. lia.
    + rewrite <- (ztake_zdrop (8 + dsz) data) at 1. f_equal.
      rewrite (zdrop_zslice data (8 + dsz) (o - (8 + dsz))) by lia. f_equal. f_equal. lia.
  - intros p b pad tail Hd Hp1 Hp2. subst data. rewrite (prop_parse_complete e al p b pad tail Hb Hal Hp1 Hp2) in E. discriminate.
  - rewrite prop_parse_eq in E by assumption. cbv zeta in E.
    destruct (_ && _); [destruct (_ <=? _)|]; discriminate.
Qed.
Lemma prop_next_parse e al data : data <> [] -> prop_next e al data =
  match prop_parse e al data with (Ok n, data) => (Ok (Some n), data) | (Err, _) => (Err, []) | (Panic, data) => (Panic, data) end.
Proof. destruct data; [congruence|reflexivity]. Qed.
Theorem props_decoded : forall e al l data, al_ok al -> bytes_ok data -> props_then e al [] l data ->
  runs (prop_next e al) data l false [].
Proof.
  intros e al l data Hal Hb H. induction H as [|p b pad l data Hn Hp Hl IH]; [apply runs_done; reflexivity|].
  assert (Hb2 : bytes_ok data) by (apply bytes_ok_app in Hb as [_ Hb]; apply bytes_ok_app in Hb; tauto).
  eapply runs_more; [|apply IH, Hb2]. rewrite prop_next_parse, (prop_parse_complete e al p b pad data); auto.
  destruct Hn as (_ & _ & ->). intro Hnil. apply (f_equal (@zlen Z)) in Hnil. rewrite !zlen_app, !zlen_write_u in Hnil. change (zlen (@nil Z)) with 0 in Hnil.
  pose proof (zlen_nonneg pad). pose proof (zlen_nonneg (pr_data p)). pose proof (zlen_nonneg data). lia.
Qed.
Theorem props_total : forall e al data, al_ok al -> bytes_ok data ->
  exists l er post, runs (prop_next e al) data l er [] /\ props_then e al post l data /\
    if er then post <> [] /\ forall p b pad tail, post = b ++ pad ++ tail -> prop_body e p b -> ~ padding al (zlen b) pad
    else post = [].
Proof.
  intros e al data Hal. assert (Hl : (length data <= length data)%nat) by lia. revert Hl. generalize (length data) at 2. intro k. revert data.
  induction k as [|k IH]; intros data Hk Hb.
  - destruct data; [|cbn in Hk; lia]. exists [], false, []. split; [apply runs_done; reflexivity|]. split; [constructor|reflexivity].
  - destruct (list_eq_dec Z.eq_dec data []) as [->|Hne].
    { exists [], false, []. split; [apply runs_done; reflexivity|]. split; [constructor|reflexivity]. }
    destruct (prop_parse e al data) as [r rest] eqn:E. pose proof (prop_parse_sound e al data r rest Hb Hal E) as S.
    pose proof (prop_next_parse e al data Hne) as N. rewrite E in N.
    destruct r as [p| |]; [|exists [], true, data; split; [apply runs_err; exact N|split; [constructor|auto]]|contradiction].
    destruct S as (b & pad & Hn & L & Hp & Hd).
    assert (Hb2 : bytes_ok rest) by (rewrite Hd in Hb; apply bytes_ok_app in Hb as [_ Hb]; apply bytes_ok_app in Hb; tauto).
    destruct (IH rest) as (l & er & post & R & H1 & H2); [rewrite Hd, !app_length in Hk; unfold zlen in L; lia|exact Hb2|].
    exists (p :: l), er, post. split; [eapply runs_more; [exact N|exact R]|]. split; [|exact H2]. rewrite Hd. constructor; assumption.
Qed.
