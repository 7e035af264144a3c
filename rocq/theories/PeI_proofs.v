(** Proofs about the imports of PE images. *)
From Verif Require Import Core_proofs Util_proofs File_proofs Str_proofs Map_proofs Pod_proofs Iter_proofs Ar_proofs ArSym_proofs Rel_proofs ElfR_proofs Kind_proofs CoffW_proofs CoffI_proofs.
From Verif Require Import Pe_spec Pe_proofs PeX_proofs.

Lemma zslice_join {A} o n m (l : list A) : 0 <= o -> 0 <= n -> 0 <= m -> o + n <= zlen l -> zslice o n l ++ zslice (o + n) m l = zslice o (n + m) l.
Proof.
  intros Ho Hn Hm Hl. unfold zslice. pose proof (ztake_zdrop n (zdrop o l)) as E. rewrite <- E at 2. rewrite zdrop_zdrop by lia. replace (n + o) with (o + n) by lia.
  rewrite ztake_app_ge by (rewrite zlen_ztake; [lia|]; rewrite zlen_zdrop; lia). rewrite zlen_ztake by (rewrite zlen_zdrop; lia). f_equal. f_equal. lia.
Qed.
(** * Null terminated lists *)
(** what is needed of an item type *)
Record item_type {A} (enc : A -> bytes) (ok null : A -> Prop) (size : Z) (of : bytes -> A) (is_null : A -> bool) : Prop := {
  ity_size : 0 < size < 2 ^ 32;
  ity_len : forall x, ok x -> zlen (enc x) = size;
  ity_of : forall x, ok x -> of (enc x) = x;
  ity_enc : forall b, zlen b = size -> bytes_ok b -> enc (of b) = b /\ ok (of b);
  ity_null : forall x, ok x -> is_null x = true <-> null x }.
Section items.
Context {A : Type} (enc : A -> bytes) (ok null : A -> Prop) (size : Z) (of : bytes -> A) (is_null : A -> bool) (I : item_type enc ok null size of is_null).
Local Notation next := (null_next size of is_null).
Lemma ended_total d : bytes_ok d -> exists l cut, ended enc ok null size d l cut.
Proof.
  remember (length d) as n eqn:En. revert d En. induction n as [n IH] using lt_wf_ind. intros d En Hd. destruct (Z.ltb_spec (zlen d) size) as [L|L].
  - exists [], true. split; [constructor|]. exists d. auto.
  - pose proof (ity_size _ _ _ _ _ _ I) as Hs. destruct (ity_enc _ _ _ _ _ _ I (ztake size d)) as [E Ho]; [apply zlen_ztake; lia|apply bytes_ok_ztake; exact Hd|].
    assert (Es : d = enc (of (ztake size d)) ++ zdrop size d) by (rewrite E; symmetry; apply ztake_zdrop).
    destruct (is_null (of (ztake size d))) eqn:En'.
    + apply (ity_null _ _ _ _ _ _ I) in En'; [|exact Ho]. exists [], false. split; [constructor|]. exists d. split; [reflexivity|]. exists (of (ztake size d)), (zdrop size d). auto.
    + destruct (IH (length (zdrop size d))) with (d := zdrop size d) as (l & cut & Hf & rest & Er & Hc); [|reflexivity|apply bytes_ok_zdrop; exact Hd|].
      { assert (zlen (zdrop size d) < zlen d) by (rewrite zlen_zdrop by lia; lia). unfold zlen in *. lia. }
      exists (of (ztake size d) :: l), cut. split; [constructor; [split; [exact Ho|]|exact Hf]|].
      * intro Hn. apply (ity_null _ _ _ _ _ _ I) in Hn; [congruence|exact Ho].
      * exists rest. cbn [map concat]. rewrite <- app_assoc. rewrite <- Er. auto.
Qed.
Lemma next_cut d : ended enc ok null size d [] true -> exists d', next (d, false) = (Err, (d', true)).
Proof.
  intros (_ & rest & -> & Hc). cbn [map concat app] in *. pose proof (ity_size _ _ _ _ _ _ I). cbn [null_next]. destruct (b_read rest size) as [r d'] eqn:E. apply b_read_spec in E as [(b & -> & Hb & _)|(-> & _)]; [lia|eauto].
Qed.
Lemma next_end d : ended enc ok null size d [] false -> exists d', next (d, false) = (Ok None, (d', true)).
Proof.
  intros (_ & rest & -> & z & tl & -> & Ho & Hn). cbn [map concat app null_next]. pose proof (ity_size _ _ _ _ _ _ I). pose proof (ity_len _ _ _ _ _ _ I z Ho). rewrite b_read_app by lia. rewrite (ity_of _ _ _ _ _ _ I z Ho). apply (ity_null _ _ _ _ _ _ I) in Hn; [|exact Ho]. rewrite Hn. eauto.
Qed.
Lemma next_item d x l cut : ended enc ok null size d (x :: l) cut -> exists d', next (d, false) = (Ok (Some x), (d', false)) /\ ended enc ok null size d' l cut /\ (length d' < length d)%nat.
Proof.
  intros (Hf & rest & -> & Hc). cbn [map concat null_next]. pose proof (ity_size _ _ _ _ _ _ I). destruct (Forall_inv Hf) as [Ho Hn]. pose proof (ity_len _ _ _ _ _ _ I x Ho) as Hz. rewrite <- app_assoc, b_read_app by lia.
  rewrite (ity_of _ _ _ _ _ _ I x Ho). destruct (is_null x) eqn:En; [apply (ity_null _ _ _ _ _ _ I) in En; [contradiction|exact Ho]|]. eexists. split; [reflexivity|]. split.
  - split; [exact (Forall_inv_tail Hf)|]. exists rest. auto.
  - rewrite !app_length. unfold zlen in Hz. lia.
Qed.
End items.
Lemma next_null {A} size (of : bytes -> A) is_null d : null_next size of is_null (d, true) = (Ok None, (d, true)).
Proof. reflexivity. Qed.

Lemma idesc_type : item_type desc_enc desc_ok desc_null 20 idesc_of idesc_null.
Proof.
  constructor.
  - lia.
  - intros x _. unfold desc_enc. rewrite !zlen_app, !zlen_word. reflexivity.
  - intros x (H1 & H2 & H3 & H4 & H5). unfold desc_enc, idesc_of, word, u32_ok in *. destruct x as [a b c d e]. cbn [id_original id_time id_chain id_name id_first] in *. f_equal; fld_norm; reflexivity.
  - intros b Hb Ho. unfold desc_enc, desc_ok, idesc_of. cbn [id_original id_time id_chain id_name id_first].
    assert (X : forall o, 0 <= o -> o + 4 <= 20 -> word (fld Little o 4 b) = zslice o 4 b /\ u32_ok (fld Little o 4 b)).
    { intros o H1 H2. destruct (proj2 (holds_le4 b o (fld Little o 4 b) Ho H1 ltac:(lia)) eq_refl) as [Hh Hu]. split; [|exact Hu]. apply holds_slice in Hh. rewrite zlen_word in Hh. symmetry. exact Hh. }
    destruct (X 0 ltac:(lia) ltac:(lia)) as [E0 U0]. destruct (X 4 ltac:(lia) ltac:(lia)) as [E1 U1]. destruct (X 8 ltac:(lia) ltac:(lia)) as [E2 U2]. destruct (X 12 ltac:(lia) ltac:(lia)) as [E3 U3]. destruct (X 16 ltac:(lia) ltac:(lia)) as [E4 U4].
    split; [|auto]. rewrite E0, E1, E2, E3, E4.
    assert (Y : forall o n m, 0 <= o -> 0 <= n -> 0 <= m -> o + n + m <= 20 -> zslice o n b ++ zslice (o + n) m b = zslice o (n + m) b).
    { intros. apply zslice_join; lia. }
    pose proof (Y 12 4 4 ltac:(lia) ltac:(lia) ltac:(lia) ltac:(lia)) as Y1. pose proof (Y 8 4 8 ltac:(lia) ltac:(lia) ltac:(lia) ltac:(lia)) as Y2. pose proof (Y 4 4 12 ltac:(lia) ltac:(lia) ltac:(lia) ltac:(lia)) as Y3. pose proof (Y 0 4 16 ltac:(lia) ltac:(lia) ltac:(lia) ltac:(lia)) as Y4.
    cbn [Z.add Pos.add Pos.succ] in Y1, Y2, Y3, Y4. rewrite Y1, Y2, Y3, Y4. apply zslice_all. lia.
  - intros [a b c d e] _. unfold idesc_null, desc_null. cbn [id_original id_time id_chain id_name id_first]. rewrite !andb_true_iff, !Z.eqb_eq. split; [intros ((((-> & ->) & ->) & ->) & ->); reflexivity|]. intros [= -> -> -> -> ->]. auto.
Qed.
Lemma ddesc_type : item_type u32s (fun d => zlen d = 8 /\ Forall u32_ok d) (fun d => d = [0; 0; 0; 0; 0; 0; 0; 0]) 32 ddesc_of ddesc_null.
Proof.
  constructor.
  - lia.
  - intros x [H _]. rewrite zlen_u32s. lia.
  - intros x [H Hu]. unfold ddesc_of. destruct x as [|a [|b [|c [|d [|e [|f [|g [|h [|]]]]]]]]]; try (unfold zlen in H; cbn [length] in H; lia).
    repeat match goal with H : Forall _ (_ :: _) |- _ => inversion H; clear H; subst end. unfold u32s, word, u32_ok in *. cbn [map concat]. rewrite app_nil_r. cbn [Z.mul Pos.mul]. repeat (apply f_equal2; [fld_norm; reflexivity|]). reflexivity.
  - intros b Hb Ho. unfold ddesc_of. cbn [map Z.mul Pos.mul].
    assert (X : forall o, 0 <= o -> o + 4 <= 32 -> word (fld Little o 4 b) = zslice o 4 b /\ u32_ok (fld Little o 4 b)).
    { intros o H1 H2. destruct (proj2 (holds_le4 b o (fld Little o 4 b) Ho H1 ltac:(lia)) eq_refl) as [Hh Hu]. split; [|exact Hu]. apply holds_slice in Hh. rewrite zlen_word in Hh. symmetry. exact Hh. }
    split.
    + unfold u32s. cbn [map concat]. rewrite !(fun o H1 H2 => proj1 (X o H1 H2)) by lia. rewrite app_nil_r.
      assert (Y : forall o m, 0 <= o -> 0 <= m -> o + 4 + m <= 32 -> zslice o 4 b ++ zslice (o + 4) m b = zslice o (4 + m) b). { intros. apply zslice_join; lia. }
      pose proof (Y 24 4 ltac:(lia) ltac:(lia) ltac:(lia)) as Y1. pose proof (Y 20 8 ltac:(lia) ltac:(lia) ltac:(lia)) as Y2. pose proof (Y 16 12 ltac:(lia) ltac:(lia) ltac:(lia)) as Y3. pose proof (Y 12 16 ltac:(lia) ltac:(lia) ltac:(lia)) as Y4.
      pose proof (Y 8 20 ltac:(lia) ltac:(lia) ltac:(lia)) as Y5. pose proof (Y 4 24 ltac:(lia) ltac:(lia) ltac:(lia)) as Y6. pose proof (Y 0 28 ltac:(lia) ltac:(lia) ltac:(lia)) as Y7.
      cbn [Z.add Pos.add Pos.succ] in Y1, Y2, Y3, Y4, Y5, Y6, Y7. rewrite Y1, Y2, Y3, Y4, Y5, Y6, Y7. apply zslice_all. lia.
    + split; [reflexivity|]. repeat (constructor; [apply X; lia|]). constructor.
  - intros x [H _]. unfold ddesc_null. split.
    + intro E. destruct x as [|a [|b [|c [|d [|e [|f [|g [|h [|]]]]]]]]]; try (unfold zlen in H; cbn [length] in H; lia). cbn [forallb] in E. rewrite !andb_true_iff, !Z.eqb_eq in E. destruct E as (-> & -> & -> & -> & -> & -> & -> & -> & _). reflexivity.
    + intros ->. reflexivity.
Qed.
Lemma thunk_size_eq is64 : thunk_size is64 = Z.of_nat (thunk_width is64).
Proof. destruct is64; reflexivity. Qed.
Lemma thunk_address_eq x : 0 <= x -> thunk_address x = x mod 2 ^ 31.
Proof.
  intro H. unfold thunk_address, wrap_u. change 2147483647 with (Z.ones 31). rewrite Z.land_ones by lia. rewrite <- Znumtheory.Zmod_div_mod; try lia. exists 2. reflexivity.
Qed.
Lemma thunk_type is64 : item_type (write_u Little (thunk_width is64)) (fun x => 0 <= x < 2 ^ (8 * Z.of_nat (thunk_width is64))) (fun x => x mod 2 ^ 31 = 0) (thunk_size is64) (read_u Little) (fun x => thunk_address x =? 0).
Proof.
  constructor.
  - destruct is64; cbn; lia.
  - intros x _. rewrite zlen_write_u, thunk_size_eq. reflexivity.
  - intros x H. apply read_write_u_small. exact H.
  - intros b Hb Ho. rewrite thunk_size_eq in Hb. split.
    + replace (thunk_width is64) with (length b) by (unfold zlen in Hb; lia). apply write_read_u. exact Ho.
    + rewrite <- Hb. apply read_u_bound. exact Ho.
  - intros x H. rewrite thunk_address_eq by lia. apply Z.eqb_eq.
Qed.

(** * Names *)
Lemma at_address_eq D sva va : at_address D sva va = if (va - sva) mod 2 ^ 32 <=? zlen D then Ok (zdrop ((va - sva) mod 2 ^ 32) D, false) else Err.
Proof. unfold at_address, wrap_u. pose proof (mod_u32 (va - sva)). rewrite b_skip_eq by lia. destruct (_ <=? _); reflexivity. Qed.
Lemma read_name_iff N nva p n : b_read_string_at N (wrap_u 32 (p - nva)) = Ok n <-> string_at N ((p - nva) mod 2 ^ 32) n.
Proof. apply string_at_iff. apply mod_u32. Qed.
Lemma hint_name_iff N nva a h n : bytes_ok N -> hint_name N nva a = Ok (h, n) <->
  u16_ok h /\ holds N ((a - nva) mod 2 ^ 32) (half h) /\ string_at N ((a - nva) mod 2 ^ 32 + 2) n /\ n <> [].
Proof.
  intro HN. unfold hint_name, wrap_u. pose proof (mod_u32 (a - nva)) as Ho. set (o := (a - nva) mod 2 ^ 32) in *. clearbody o. rewrite b_skip_eq by lia. destruct (Z.leb_spec o (zlen N)) as [L|L].
  2: { split; [discriminate|]. intros (_ & Hh & _). apply holds_bounds in Hh. rewrite zlen_half in Hh. lia. }
  destruct (b_read (zdrop o N) 2) as [r d] eqn:E. apply b_read_spec in E as [(hb & -> & Hl & Hz & E)|(-> & Hl & _)].
  - rewrite zlen_zdrop in Hl by lia. assert (Hd : d = zdrop (o + 2) N). { replace (o + 2) with (2 + o) by lia. rewrite <- zdrop_zdrop by lia. rewrite E. symmetry. apply zdrop_app_eq. lia. }
    assert (Hh : holds N o hb). { exists (ztake o N), d. rewrite <- E. split; [symmetry; apply ztake_zdrop|apply zlen_ztake; lia]. }
    pose proof (holds_bytes_ok _ _ _ HN Hh) as Hb.
    assert (S : forall n, fst (b_read_string d) = Ok n <-> string_at N (o + 2) n).
    { intro m. rewrite <- string_at_iff by lia. unfold b_read_string_at. rewrite b_skip_eq by lia. rewrite Hd. destruct (Z.leb_spec (o + 2) (zlen N)); [reflexivity|lia]. }
    assert (Hq : forall h, u16_ok h -> holds N o (half h) <-> h = read_u Little hb).
    { intros h' Hu. split.
      - intro H. apply holds_slice in H, Hh. rewrite zlen_half in H. rewrite Hz, H in Hh. rewrite <- Hh. unfold half. rewrite read_write_u_small; [reflexivity|exact Hu].
      - intros ->. unfold half. replace 2%nat with (length hb) by (unfold zlen in Hz; lia). rewrite write_read_u by exact Hb. exact Hh. }
    assert (Hu : u16_ok (read_u Little hb)) by (pose proof (read_u_bound Little hb Hb) as B; rewrite Hz in B; exact B).
    destruct (b_read_string d) as [[m| |] d'] eqn:Es; cbn [fst] in S.
    + split.
      * intro X. assert (m <> [] /\ h = read_u Little hb /\ n = m) as (Hm & -> & ->) by (destruct m; [discriminate|]; split; [discriminate|]; split; congruence). split; [exact Hu|]. split; [apply Hq; auto|]. split; [apply S; reflexivity|exact Hm].
      * intros (Hu' & Hh' & Hs & Hn). apply Hq in Hh'; [|exact Hu']. subst h. apply S in Hs. assert (m = n) by congruence. subst m. destruct n; [contradiction|reflexivity].
    + split; [discriminate|]. intros (_ & _ & Hs & _). apply S in Hs. discriminate.
    + exfalso. apply (b_read_string_np d). rewrite Es. reflexivity.
  - split; [discriminate|]. intros (_ & Hh & _). apply holds_bounds in Hh. rewrite zlen_half in Hh. rewrite zlen_zdrop in Hl by lia. lia.
Qed.
Lemma hint_name_np N nva a : hint_name N nva a <> Panic.
Proof.
  unfold hint_name. pose proof (mod_u32 (a - nva)) as Ho. fold (wrap_u 32 (a - nva)) in Ho. rewrite b_skip_eq by lia. destruct (_ <=? _); [|discriminate]. destruct (b_read _ 2) as [r d] eqn:E. apply b_read_spec in E as [(hb & -> & _)|(-> & _)]; [|discriminate].
  pose proof (b_read_string_np d). destruct (b_read_string d) as [[m| |] d']; cbn [fst] in *; [destruct m; discriminate|discriminate|contradiction].
Qed.
Lemma thunk_import_iff is64 N nva x i : bytes_ok N -> 0 <= x < 2 ^ (8 * Z.of_nat (thunk_width is64)) -> thunk_import is64 N nva x = Ok i <-> import_of is64 N nva x i.
Proof.
  intros HN Hx. unfold thunk_import, import_of.
  assert (Eo : thunk_is_ordinal is64 x = (2 ^ (8 * Z.of_nat (thunk_width is64) - 1) <=? x)).
  { unfold thunk_is_ordinal. destruct is64; cbn [thunk_width] in *; cbn [Z.of_nat Pos.of_succ_nat Pos.succ Z.mul Pos.mul Z.sub Z.pos_sub Pos.pred_double Z.add Z.opp] in *.
    - change (2 ^ 63) with (Z.shiftl 1 63) at 1. rewrite land_bit, negb_involutive by lia. destruct (Z.leb_spec (2 ^ 63) x); destruct (Z.testbit x 63) eqn:Et; try reflexivity; exfalso.
      + assert (x / 2 ^ 63 = 1) by (symmetry; apply Z.div_unique with (r := x - 2 ^ 63); lia). rewrite Z.testbit_odd, Z.shiftr_div_pow2 in Et by lia. rewrite H0 in Et. discriminate.
      + rewrite Z.testbit_odd, Z.shiftr_div_pow2, Z.div_small in Et by lia. discriminate.
    - change (2 ^ 31) with (Z.shiftl 1 31) at 1. rewrite land_bit, negb_involutive by lia. destruct (Z.leb_spec (2 ^ 31) x); destruct (Z.testbit x 31) eqn:Et; try reflexivity; exfalso.
      + assert (x / 2 ^ 31 = 1) by (symmetry; apply Z.div_unique with (r := x - 2 ^ 31); lia). rewrite Z.testbit_odd, Z.shiftr_div_pow2 in Et by lia. rewrite H0 in Et. discriminate.
      + rewrite Z.testbit_odd, Z.shiftr_div_pow2, Z.div_small in Et by lia. discriminate. }
  rewrite Eo. destruct (Z.leb_spec (2 ^ (8 * Z.of_nat (thunk_width is64) - 1)) x) as [L|L].
  - unfold thunk_ordinal, wrap_u. change (2 ^ 16) with 65536. split; [intros [= <-]; left; auto|]. intros [[_ ->]|[? _]]; [reflexivity|lia].
  - rewrite thunk_address_eq by lia. split.
    + intro E. destruct (hint_name N nva (x mod 2 ^ 31)) as [[h n]| |] eqn:Eh; try discriminate. cbn [bind] in E. right. split; [exact L|]. apply hint_name_iff in Eh as (H1 & H2 & H3 & H4); [|exact HN]. exists h, n. cbv zeta. repeat (split; [assumption|]). congruence.
    + intros [[? _]|(_ & h & n & H1 & H2 & H3 & H4 & ->)]; [lia|]. rewrite (proj2 (hint_name_iff N nva (x mod 2 ^ 31) h n HN)) by auto. reflexivity.
Qed.
Lemma thunk_import_np is64 N nva x : thunk_import is64 N nva x <> Panic.
Proof. unfold thunk_import. destruct (thunk_is_ordinal is64 x); [discriminate|]. pose proof (hint_name_np N nva (thunk_address x)). destruct (hint_name _ _ _) as [[h n]| |]; cbn [bind]; congruence. Qed.

(** * The iterators *)
Lemma null_next_shorter {A} size (of : bytes -> A) is_null it x it' : 0 < size -> null_next size of is_null it = (Ok (Some x), it') -> (length (fst it') < length (fst it))%nat.
Proof.
  intros Hs. destruct it as [d nl]. cbn [null_next]. destruct nl; [discriminate|]. destruct (b_read d size) as [r d'] eqn:E. apply b_read_spec in E as [(b & -> & Hl & Hz & ->)|(-> & _)]; [|discriminate].
  destruct (is_null (of b)); intro H; [discriminate|]. assert (it' = (d', false)) as -> by congruence. cbn [fst]. rewrite app_length. unfold zlen in Hz. lia.
Qed.
Definition left_of (d : option nullit) : nat := match d with Some (b, _) => length b | None => 0%nat end.
Lemma stage2_fuel is64 n st f f' : (left_of (ii_ddescs st) <= n)%nat -> (n < f)%nat -> (n < f')%nat -> imp_stage2 f is64 st = imp_stage2 f' is64 st.
Proof.
  revert st f f'. induction n as [n IH] using lt_wf_ind. intros st f f' Hm Hf Hf'. destruct f as [|f]; [lia|]. destruct f' as [|f']; [lia|]. cbn [imp_stage2]. destruct (ii_dtable st) as [t|]; [|reflexivity].
  assert (Hd : forall st', ii_ddescs st' = ii_ddescs st ->
    match ii_ddescs st' with
    | None => (Ok None, {| ii_table := ii_table st'; ii_descs := ii_descs st'; ii_dtable := None; ii_ddescs := None; ii_thunks := None; ii_lib := ii_lib st' |})
    | Some it => let '(r, it') := ddesc_next it in
        match r with
        | Ok (Some d) => if Z.land (dd_field d 0) 1 =? 0 then (@Err (option rimport), {| ii_table := ii_table st'; ii_descs := ii_descs st'; ii_dtable := Some t; ii_ddescs := Some it'; ii_thunks := None; ii_lib := ii_lib st' |}) else
            match delay_name t (dd_field d 1) with
            | Ok n => match delay_thunks t (dd_field d 4) with
              | Ok th => imp_stage2 f is64 {| ii_table := ii_table st'; ii_descs := ii_descs st'; ii_dtable := Some t; ii_ddescs := Some it'; ii_thunks := Some th; ii_lib := n |}
              | Err => (Err, {| ii_table := ii_table st'; ii_descs := ii_descs st'; ii_dtable := Some t; ii_ddescs := Some it'; ii_thunks := None; ii_lib := n |})
              | Panic => (Panic, {| ii_table := ii_table st'; ii_descs := ii_descs st'; ii_dtable := Some t; ii_ddescs := Some it'; ii_thunks := None; ii_lib := n |})
              end
            | Err => (Err, {| ii_table := ii_table st'; ii_descs := ii_descs st'; ii_dtable := Some t; ii_ddescs := Some it'; ii_thunks := None; ii_lib := ii_lib st' |})
            | Panic => (Panic, {| ii_table := ii_table st'; ii_descs := ii_descs st'; ii_dtable := Some t; ii_ddescs := Some it'; ii_thunks := None; ii_lib := ii_lib st' |})
            end
        | Ok None => (Ok None, {| ii_table := ii_table st'; ii_descs := ii_descs st'; ii_dtable := None; ii_ddescs := None; ii_thunks := None; ii_lib := ii_lib st' |})
        | Err => (Err, {| ii_table := ii_table st'; ii_descs := ii_descs st'; ii_dtable := Some t; ii_ddescs := Some it'; ii_thunks := None; ii_lib := ii_lib st' |})
        | Panic => (Panic, {| ii_table := ii_table st'; ii_descs := ii_descs st'; ii_dtable := Some t; ii_ddescs := Some it'; ii_thunks := None; ii_lib := ii_lib st' |})
        end
    end = 
    match ii_ddescs st' with
    | None => (Ok None, {| ii_table := ii_table st'; ii_descs := ii_descs st'; ii_dtable := None; ii_ddescs := None; ii_thunks := None; ii_lib := ii_lib st' |})
    | Some it => let '(r, it') := ddesc_next it in
        match r with
        | Ok (Some d) => if Z.land (dd_field d 0) 1 =? 0 then (@Err (option rimport), {| ii_table := ii_table st'; ii_descs := ii_descs st'; ii_dtable := Some t; ii_ddescs := Some it'; ii_thunks := None; ii_lib := ii_lib st' |}) else
            match delay_name t (dd_field d 1) with
            | Ok n => match delay_thunks t (dd_field d 4) with
              | Ok th => imp_stage2 f' is64 {| ii_table := ii_table st'; ii_descs := ii_descs st'; ii_dtable := Some t; ii_ddescs := Some it'; ii_thunks := Some th; ii_lib := n |}
              | Err => (Err, {| ii_table := ii_table st'; ii_descs := ii_descs st'; ii_dtable := Some t; ii_ddescs := Some it'; ii_thunks := None; ii_lib := n |})
              | Panic => (Panic, {| ii_table := ii_table st'; ii_descs := ii_descs st'; ii_dtable := Some t; ii_ddescs := Some it'; ii_thunks := None; ii_lib := n |})
              end
            | Err => (Err, {| ii_table := ii_table st'; ii_descs := ii_descs st'; ii_dtable := Some t; ii_ddescs := Some it'; ii_thunks := None; ii_lib := ii_lib st' |})
            | Panic => (Panic, {| ii_table := ii_table st'; ii_descs := ii_descs st'; ii_dtable := Some t; ii_ddescs := Some it'; ii_thunks := None; ii_lib := ii_lib st' |})
            end
        | Ok None => (Ok None, {| ii_table := ii_table st'; ii_descs := ii_descs st'; ii_dtable := None; ii_ddescs := None; ii_thunks := None; ii_lib := ii_lib st' |})
        | Err => (Err, {| ii_table := ii_table st'; ii_descs := ii_descs st'; ii_dtable := Some t; ii_ddescs := Some it'; ii_thunks := None; ii_lib := ii_lib st' |})
        | Panic => (Panic, {| ii_table := ii_table st'; ii_descs := ii_descs st'; ii_dtable := Some t; ii_ddescs := Some it'; ii_thunks := None; ii_lib := ii_lib st' |})
        end
    end).
  { intros st' E. rewrite E. destruct (ii_ddescs st) as [it|]; [|reflexivity]. destruct (ddesc_next it) as [[[d|]| |] it'] eqn:En; try reflexivity. destruct (_ =? 0); [reflexivity|]. destruct (delay_name _ _); try reflexivity. destruct (delay_thunks _ _); try reflexivity.
    apply null_next_shorter in En; [|lia]. destruct it as [b nl], it' as [b' nl']. cbn [fst left_of] in *. apply (IH (length b')); cbn [ii_ddescs left_of]; lia. }
  destruct (ii_thunks st) as [th|]; [|apply Hd; reflexivity]. destruct (thunk_next is64 th) as [[[x|]| |] th']; try reflexivity. apply Hd. reflexivity.
Qed.
Lemma stage1_fuel is64 f2 n st f f' : (left_of (ii_descs st) <= n)%nat -> (n < f)%nat -> (n < f')%nat -> imp_stage1 f f2 is64 st = imp_stage1 f' f2 is64 st.
Proof.
  revert st f f'. induction n as [n IH] using lt_wf_ind. intros st f f' Hm Hf Hf'. destruct f as [|f]; [lia|]. destruct f' as [|f']; [lia|]. cbn [imp_stage1]. destruct (ii_table st) as [t|]; [|reflexivity].
  destruct (ii_thunks st) as [th|].
  - destruct (thunk_next is64 th) as [[[x|]| |] th']; try reflexivity. cbn [ii_table ii_descs ii_dtable ii_ddescs ii_thunks ii_lib].
    destruct (ii_descs st) as [it|]; [|reflexivity]. destruct (idesc_next it) as [[[d|]| |] it'] eqn:En; try reflexivity. destruct (import_name _ _); try reflexivity. destruct (import_thunks _ _); try reflexivity.
    apply null_next_shorter in En; [|lia]. destruct it as [b nl], it' as [b' nl']. cbn [fst left_of] in *. apply (IH (length b')); cbn [ii_descs left_of]; lia.
  - destruct (ii_descs st) as [it|]; [|reflexivity]. destruct (idesc_next it) as [[[d|]| |] it'] eqn:En; try reflexivity. destruct (import_name _ _); try reflexivity. destruct (import_thunks _ _); try reflexivity.
    apply null_next_shorter in En; [|lia]. destruct it as [b nl], it' as [b' nl']. cbn [fst left_of] in *. apply (IH (length b')); cbn [ii_descs left_of]; lia.
Qed.
Lemma left_lt d : (left_of d < descs_left d)%nat.
Proof. destruct d as [[b nl]|]; cbn [left_of descs_left]; lia. Qed.
(** a step of the iterator *)
Definition mk_it t d dt dd th lib : impit := {| ii_table := t; ii_descs := d; ii_dtable := dt; ii_ddescs := dd; ii_thunks := th; ii_lib := lib |}.
Lemma imp_stage1_next is64 f f2 t d dt dd th lib : (left_of d < f)%nat -> f2 = descs_left dd -> imp_stage1 f f2 is64 (mk_it t d dt dd th lib) = imp_next is64 (mk_it t d dt dd th lib).
Proof. intros Hf ->. unfold imp_next. apply (stage1_fuel is64 _ (left_of d)); cbn [ii_descs mk_it]; [lia|exact Hf|apply left_lt]. Qed.
Lemma imp_stage2_next is64 f dt dd th lib : (left_of dd < f)%nat -> imp_stage2 f is64 (mk_it None None dt dd th lib) = imp_next is64 (mk_it None None dt dd th lib).
Proof. intro Hf. unfold imp_next. cbn [descs_left imp_stage1 mk_it ii_table ii_descs ii_ddescs]. apply (stage2_fuel is64 (left_of dd)); cbn [ii_ddescs]; [apply le_n|exact Hf|apply left_lt]. Qed.
Section stage1.
Context (is64 : bool) (t : imptab) (dt : option dimptab) (dd : option nullit).
Local Notation st d th lib := (mk_it (Some t) d dt dd th lib).
Lemma s1_thunk_end d th th' lib : thunk_next is64 th = (Ok None, th') -> imp_next is64 (st d (Some th) lib) = imp_next is64 (st d None lib).
Proof.
  intro E. unfold imp_next. change (ii_descs (st d (Some th) lib)) with d. change (ii_descs (st d None lib)) with d. cbn [ii_ddescs mk_it].
  pose proof (left_lt d). destruct (descs_left d) as [|f]; [lia|]. cbn [imp_stage1 mk_it ii_table ii_descs ii_dtable ii_ddescs ii_thunks ii_lib]. rewrite E. reflexivity.
Qed.
Lemma s1_thunk d th x th' lib : thunk_next is64 th = (Ok (Some x), th') ->
  imp_next is64 (st d (Some th) lib) = (i <- import_import is64 t x ;; Ok (Some (lib, as_nameord i, false)), st d (Some th') lib).
Proof.
  intro E. unfold imp_next. change (ii_descs (st d (Some th) lib)) with d. cbn [ii_ddescs mk_it].
  pose proof (left_lt d). destruct (descs_left d) as [|f]; [lia|]. cbn [imp_stage1 mk_it ii_table ii_descs ii_dtable ii_ddescs ii_thunks ii_lib]. rewrite E. reflexivity.
Qed.
Lemma s1_thunk_err d th th' lib : thunk_next is64 th = (Err, th') -> imp_next is64 (st d (Some th) lib) = (Err, st d (Some th') lib).
Proof.
  intro E. unfold imp_next. change (ii_descs (st d (Some th) lib)) with d. cbn [ii_ddescs mk_it].
  pose proof (left_lt d). destruct (descs_left d) as [|f]; [lia|]. cbn [imp_stage1 mk_it ii_table ii_descs ii_dtable ii_ddescs ii_thunks ii_lib]. rewrite E. reflexivity.
Qed.
Lemma s1_desc_end it it' lib : idesc_next it = (Ok None, it') -> imp_next is64 (st (Some it) None lib) = imp_next is64 (mk_it None None dt dd None lib).
Proof.
  intro E. rewrite <- (imp_stage2_next is64 (descs_left dd)) by apply left_lt. unfold imp_next. change (ii_descs (st (Some it) None lib)) with (Some it). cbn [ii_ddescs mk_it].
  pose proof (left_lt (Some it)). destruct (descs_left (Some it)) as [|f]; [lia|]. cbn [imp_stage1 mk_it ii_table ii_descs ii_dtable ii_ddescs ii_thunks ii_lib]. rewrite E. reflexivity.
Qed.
Lemma s1_desc_err it it' lib : idesc_next it = (Err, it') -> imp_next is64 (st (Some it) None lib) = (Err, st (Some it') None lib).
Proof.
  intro E. unfold imp_next. change (ii_descs (st (Some it) None lib)) with (Some it). cbn [ii_ddescs mk_it].
  pose proof (left_lt (Some it)). destruct (descs_left (Some it)) as [|f]; [lia|]. cbn [imp_stage1 mk_it ii_table ii_descs ii_dtable ii_ddescs ii_thunks ii_lib]. rewrite E. reflexivity.
Qed.
Lemma s1_desc it d it' lib : idesc_next it = (Ok (Some d), it') -> imp_next is64 (st (Some it) None lib) =
  match import_name t (id_name d) with
  | Ok n => match import_thunks t (desc_thunks d) with Ok th => imp_next is64 (st (Some it') (Some th) n) | Err => (Err, st (Some it') None n) | Panic => (Panic, st (Some it') None n) end
  | Err => (Err, st (Some it') None lib) | Panic => (Panic, st (Some it') None lib) end.
Proof.
  intro E. unfold imp_next at 1. change (ii_descs (st (Some it) None lib)) with (Some it). cbn [ii_ddescs mk_it].
  assert (Hl : (S (left_of (Some it')) < descs_left (Some it))%nat). { pose proof (null_next_shorter 20 idesc_of idesc_null it d it' ltac:(lia) E) as H. destruct it as [a b], it' as [a' b']. cbn [left_of descs_left fst] in *. lia. }
  destruct (descs_left (Some it)) as [|f]; [lia|]. cbn [imp_stage1 mk_it ii_table ii_descs ii_dtable ii_ddescs ii_thunks ii_lib]. rewrite E. destruct (import_name t (id_name d)) as [n| |]; try reflexivity. unfold desc_thunks. destruct (import_thunks t _) as [th| |]; try reflexivity.
  apply (imp_stage1_next is64 f (descs_left dd)); [lia|reflexivity].
Qed.
End stage1.
Section stage2.
Context (is64 : bool) (t : dimptab).
Local Notation st d th lib := (mk_it None None (Some t) d th lib).
Lemma s2_thunk_end d th th' lib : thunk_next is64 th = (Ok None, th') -> imp_next is64 (st d (Some th) lib) = imp_next is64 (st d None lib).
Proof.
  intro E. unfold imp_next. cbn [mk_it ii_table ii_descs ii_dtable ii_ddescs ii_thunks ii_lib]. change (descs_left None) with 2%nat. cbn [imp_stage1 ii_table].
  pose proof (left_lt d). destruct (descs_left d) as [|f]; [lia|]. cbn [imp_stage2 mk_it ii_table ii_descs ii_dtable ii_ddescs ii_thunks ii_lib]. rewrite E. reflexivity.
Qed.
Lemma s2_thunk d th x th' lib : thunk_next is64 th = (Ok (Some x), th') ->
  imp_next is64 (st d (Some th) lib) = (i <- delay_import is64 t x ;; Ok (Some (lib, as_nameord i, true)), st d (Some th') lib).
Proof.
  intro E. unfold imp_next. cbn [mk_it ii_table ii_descs ii_dtable ii_ddescs ii_thunks ii_lib]. change (descs_left None) with 2%nat. cbn [imp_stage1 ii_table].
  pose proof (left_lt d). destruct (descs_left d) as [|f]; [lia|]. cbn [imp_stage2 mk_it ii_table ii_descs ii_dtable ii_ddescs ii_thunks ii_lib]. rewrite E. reflexivity.
Qed.
Lemma s2_thunk_err d th th' lib : thunk_next is64 th = (Err, th') -> imp_next is64 (st d (Some th) lib) = (Err, st d (Some th') lib).
Proof.
  intro E. unfold imp_next. cbn [mk_it ii_table ii_descs ii_dtable ii_ddescs ii_thunks ii_lib]. change (descs_left None) with 2%nat. cbn [imp_stage1 ii_table].
  pose proof (left_lt d). destruct (descs_left d) as [|f]; [lia|]. cbn [imp_stage2 mk_it ii_table ii_descs ii_dtable ii_ddescs ii_thunks ii_lib]. rewrite E. reflexivity.
Qed.
Lemma s2_desc_end it it' lib : ddesc_next it = (Ok None, it') -> exists st', imp_next is64 (st (Some it) None lib) = (Ok None, st').
Proof.
  intro E. unfold imp_next. cbn [mk_it ii_table ii_descs ii_dtable ii_ddescs ii_thunks ii_lib]. change (descs_left None) with 2%nat. cbn [imp_stage1 ii_table].
  pose proof (left_lt (Some it)). destruct (descs_left (Some it)) as [|f]; [lia|]. cbn [imp_stage2 mk_it ii_table ii_descs ii_dtable ii_ddescs ii_thunks ii_lib]. rewrite E. eauto.
Qed.
Lemma s2_desc_err it it' lib : ddesc_next it = (Err, it') -> imp_next is64 (st (Some it) None lib) = (Err, st (Some it') None lib).
Proof.
  intro E. unfold imp_next. cbn [mk_it ii_table ii_descs ii_dtable ii_ddescs ii_thunks ii_lib]. change (descs_left None) with 2%nat. cbn [imp_stage1 ii_table].
  pose proof (left_lt (Some it)). destruct (descs_left (Some it)) as [|f]; [lia|]. cbn [imp_stage2 mk_it ii_table ii_descs ii_dtable ii_ddescs ii_thunks ii_lib]. rewrite E. reflexivity.
Qed.
Lemma s2_desc it d it' lib : ddesc_next it = (Ok (Some d), it') -> imp_next is64 (st (Some it) None lib) =
  if Z.land (dd_field d 0) 1 =? 0 then (Err, st (Some it') None lib) else
  match delay_name t (dd_field d 1) with
  | Ok n => match delay_thunks t (dd_field d 4) with Ok th => imp_next is64 (st (Some it') (Some th) n) | Err => (Err, st (Some it') None n) | Panic => (Panic, st (Some it') None n) end
  | Err => (Err, st (Some it') None lib) | Panic => (Panic, st (Some it') None lib) end.
Proof.
  intro E. unfold imp_next at 1.
  assert (Hl : (S (left_of (Some it')) < descs_left (Some it))%nat). { pose proof (null_next_shorter 32 ddesc_of ddesc_null it d it' ltac:(lia) E) as H. destruct it as [a b], it' as [a' b']. cbn [left_of descs_left fst] in *. lia. }
  change (ii_ddescs (st (Some it) None lib)) with (Some it). cbn [mk_it ii_descs]. change (descs_left None) with 2%nat. cbn [imp_stage1 ii_table].
  destruct (descs_left (Some it)) as [|f]; [lia|]. cbn [imp_stage2 mk_it ii_table ii_descs ii_dtable ii_ddescs ii_thunks ii_lib]. rewrite E. destruct (_ =? 0); [reflexivity|]. destruct (delay_name _ _) as [n| |]; try reflexivity. destruct (delay_thunks _ _) as [th| |]; try reflexivity.
  apply (imp_stage2_next is64 f). lia.
Qed.
End stage2.
Lemma thunks_end_eq is64 : thunks_end is64 = ended (write_u Little (thunk_width is64)) (fun x => 0 <= x < 2 ^ (8 * Z.of_nat (thunk_width is64))) (fun x => x mod 2 ^ 31 = 0) (thunk_size is64).
Proof. destruct is64; reflexivity. Qed.
Lemma thunks_results {S} (next : S -> out (option rimport) * S) (mk : option nullit -> S) is64 delay N nva lib :
  bytes_ok N ->
  (forall th th', thunk_next is64 th = (Ok None, th') -> next (mk (Some th)) = next (mk None)) ->
  (forall th x th', thunk_next is64 th = (Ok (Some x), th') -> next (mk (Some th)) = (i <- thunk_import is64 N nva x ;; Ok (Some (lib, as_nameord i, delay)), mk (Some th'))) ->
  (forall th th', thunk_next is64 th = (Err, th') -> next (mk (Some th)) = (Err, mk (Some th'))) ->
  forall l D cut R, thunks_end is64 D l cut -> results next (mk None) R ->
  exists L, Forall2 (fun x => outcome (fun r : rimport => exists i, import_of is64 N nva x i /\ r = (lib, as_nameord i, delay))) l L /\ results next (mk (Some (D, false))) ((L ++ cut_result cut) ++ R).
Proof.
  intros HN H0 H1 H2 l. rewrite thunks_end_eq. induction l as [|x l IH]; intros D cut R HE HR.
  - exists []. split; [constructor|]. destruct cut; cbn [app cut_result].
    + apply (next_cut _ _ _ _ _ _ (thunk_type is64)) in HE as (d' & E). eapply res_err; [apply H2; exact E|]. eapply results_same; [|exact HR]. eapply H0. reflexivity.
    + apply (next_end _ _ _ _ _ _ (thunk_type is64)) in HE as (d' & E). eapply results_same; [|exact HR]. eapply H0. exact E.
  - assert (Hx : 0 <= x < 2 ^ (8 * Z.of_nat (thunk_width is64))) by (destruct HE as [HF _]; exact (proj1 (Forall_inv HF))).
    apply (next_item _ _ _ _ _ _ (thunk_type is64)) in HE as (d' & E & HE & _). destruct (IH d' cut R HE HR) as (L & HL & HR').
    destruct (results_step next (mk (Some (D, false))) (mk (Some (d', false))) (i <- thunk_import is64 N nva x ;; Ok (Some (lib, as_nameord i, delay))) ((L ++ cut_result cut) ++ R)
      (fun r : rimport => exists i, import_of is64 N nva x i /\ r = (lib, as_nameord i, delay))) as (r & Hr1 & Hr2).
    + apply H1. exact E.
    + pose proof (thunk_import_np is64 N nva x). destruct (thunk_import is64 N nva x); cbn [bind]; congruence.
    + destruct (thunk_import is64 N nva x); cbn [bind]; congruence.
    + intro r. split.
      * intro X. destruct (thunk_import is64 N nva x) as [i| |] eqn:Ei; try discriminate. cbn [bind] in X. exists i. split; [apply thunk_import_iff; assumption|congruence].
      * intros (i & Hi & ->). apply thunk_import_iff in Hi; [|assumption|assumption]. rewrite Hi. reflexivity.
    + exact HR'.
    + exists (r :: L). split; [constructor; assumption|exact Hr2].
Qed.
(** the results of the descriptors, then those of what follows *)
Lemma table_runs is64 t dt dd : bytes_ok (it_data t) -> bytes_ok (it_ndata t) -> forall l D cut lib, descs_end D l cut ->
  forall R, (forall lib, results (imp_next is64) (mk_it None None dt dd None lib) R) ->
  exists LL, Forall2 (fun d => library_results is64 false (it_data t) (it_sva t) (it_ndata t) (it_nva t) (id_name d) (desc_thunks d)) l LL /\
    results (imp_next is64) (mk_it (Some t) (Some (D, false)) dt dd None lib) ((concat LL ++ cut_result cut) ++ R).
Proof.
  intros HD HN l. induction l as [|d l IH]; intros D cut lib HE R HR.
  - exists []. split; [constructor|]. destruct cut; cbn [app cut_result concat].
    + apply (next_cut _ _ _ _ _ _ idesc_type) in HE as (d' & E). eapply res_err; [apply s1_desc_err; exact E|]. eapply results_same; [|apply HR]. eapply s1_desc_end. reflexivity.
    + apply (next_end _ _ _ _ _ _ idesc_type) in HE as (d' & E). eapply results_same; [|apply HR]. eapply s1_desc_end. exact E.
  - apply (next_item _ _ _ _ _ _ idesc_type) in HE as (d' & E & HE & _). pose proof (s1_desc is64 t dt dd _ _ _ lib E) as Hs.
    destruct (import_name t (id_name d)) as [n| |] eqn:En.
    + apply read_name_iff in En. unfold import_thunks in Hs. rewrite at_address_eq in Hs. destruct (Z.leb_spec ((desc_thunks d - it_sva t) mod 2 ^ 32) (zlen (it_data t))) as [Hle|Hgt].
      * destruct (IH d' cut n HE R HR) as (LL & HLL & HRR).
        destruct (ended_total _ _ _ _ _ _ (thunk_type is64) (zdrop ((desc_thunks d - it_sva t) mod 2 ^ 32) (it_data t))) as (ths & tc & Hth); [apply bytes_ok_zdrop; exact HD|]. rewrite <- thunks_end_eq in Hth.
        destruct (thunks_results (imp_next is64) (fun th => mk_it (Some t) (Some (d', false)) dt dd th n) is64 false (it_ndata t) (it_nva t) n HN
          ltac:(intros; eapply s1_thunk_end; eassumption) ltac:(intros; eapply s1_thunk; eassumption) ltac:(intros; eapply s1_thunk_err; eassumption) ths _ tc _ Hth HRR) as (L & HL & HRL).
        exists ((L ++ cut_result tc) :: LL). split; [constructor; [|exact HLL]; eapply lr_thunks; eassumption|]. cbn [concat]. rewrite <- (app_assoc (L ++ _)), <- (app_assoc (L ++ _)).
        eapply results_same; [exact Hs|]. rewrite app_assoc in HRL. rewrite <- !app_assoc in *. exact HRL.
      * destruct (IH d' cut n HE R HR) as (LL & HLL & HRR). exists ([None] :: LL). split; [constructor; [|exact HLL]; eapply lr_no_thunks; eassumption|]. cbn [concat app]. eapply res_err; [exact Hs|exact HRR].
    + destruct (IH d' cut lib HE R HR) as (LL & HLL & HRR). exists ([None] :: LL). split; [constructor; [|exact HLL]; apply lr_no_name; intros n Hn; apply read_name_iff in Hn; unfold import_name in En; congruence|].
      cbn [concat app]. eapply res_err; [exact Hs|exact HRR].
    + exfalso. exact (b_read_string_at_np _ _ En).
Qed.
Lemma land1_odd x : (Z.land x 1 =? 0) = negb (Z.odd x).
Proof. change 1 with (Z.ones 1). rewrite Z.land_ones by lia. change (2 ^ 1) with 2. rewrite Zmod_odd. destruct (Z.odd x); reflexivity. Qed.
Lemma dd_field_nth d i : 0 <= i -> dd_field d i = nth_word d (Z.to_nat i).
Proof.
  intro Hi. unfold dd_field, nth_word. destruct (zget d i) as [x|] eqn:E.
  - symmetry. apply nth_error_nth. unfold zget in E. destruct (_ && _); [exact E|discriminate].
  - apply zget_None in E. symmetry. apply nth_overflow. unfold zlen in E. lia.
Qed.
Lemma delay_runs is64 t : bytes_ok (dt_data t) -> forall l D cut, ddescs_end D l cut ->
  exists LL, Forall2 (fun d M => if Z.odd (nth_word d 0) then library_results is64 true (dt_data t) (dt_sva t) (dt_data t) (dt_sva t) (nth_word d 1) (nth_word d 4) M else M = [None]) l LL /\
    forall lib, results (imp_next is64) (mk_it None None (Some t) (Some (D, false)) None lib) (concat LL ++ cut_result cut).
Proof.
  intros HD l. induction l as [|d l IH]; intros D cut HE.
  - exists []. split; [constructor|]. intro lib. destruct cut; cbn [app cut_result concat].
    + apply (next_cut _ _ _ _ _ _ ddesc_type) in HE as (d' & E). eapply res_err; [apply s2_desc_err; exact E|]. destruct (s2_desc_end is64 t (d', true) (d', true) lib eq_refl) as (st' & E'). eapply res_end. exact E'.
    + apply (next_end _ _ _ _ _ _ ddesc_type) in HE as (d' & E). destruct (s2_desc_end is64 t _ _ lib E) as (st' & E'). eapply res_end. exact E'.
  - apply (next_item _ _ _ _ _ _ ddesc_type) in HE as (d' & E & HE & _). pose proof (fun lib => s2_desc is64 t _ _ _ lib E) as Hs. rewrite !dd_field_nth in Hs by lia. change (Z.to_nat 0) with 0%nat in Hs. change (Z.to_nat 1) with 1%nat in Hs. change (Z.to_nat 4) with 4%nat in Hs.
    rewrite land1_odd in Hs. destruct (Z.odd (nth_word d 0)) eqn:Eodd; cbn [negb] in Hs.
    2: { destruct (IH d' cut HE) as (LL & HLL & HRR). exists ([None] :: LL). split; [constructor; [|exact HLL]; rewrite Eodd; reflexivity|]. cbn [concat app]. intro lib. eapply res_err; [apply Hs|apply HRR]. }
    destruct (delay_name t (nth_word d 1)) as [n| |] eqn:En.
    + apply read_name_iff in En. unfold delay_thunks in Hs. rewrite at_address_eq in Hs. destruct (Z.leb_spec ((nth_word d 4 - dt_sva t) mod 2 ^ 32) (zlen (dt_data t))) as [Hle|Hgt].
      * destruct (IH d' cut HE) as (LL & HLL & HRR).
        destruct (ended_total _ _ _ _ _ _ (thunk_type is64) (zdrop ((nth_word d 4 - dt_sva t) mod 2 ^ 32) (dt_data t))) as (ths & tc & Hth); [apply bytes_ok_zdrop; exact HD|]. rewrite <- thunks_end_eq in Hth.
        destruct (thunks_results (imp_next is64) (fun th => mk_it None None (Some t) (Some (d', false)) th n) is64 true (dt_data t) (dt_sva t) n HD
          ltac:(intros; eapply s2_thunk_end; eassumption) ltac:(intros; eapply s2_thunk; eassumption) ltac:(intros; eapply s2_thunk_err; eassumption) ths _ tc _ Hth (HRR n)) as (L & HL & HRL).
        exists ((L ++ cut_result tc) :: LL). split; [constructor; [rewrite Eodd; eapply lr_thunks; eassumption|exact HLL]|]. cbn [concat].
        intro lib. eapply results_same; [apply Hs|]. rewrite <- !app_assoc in *. exact HRL.
      * destruct (IH d' cut HE) as (LL & HLL & HRR). exists ([None] :: LL). split; [constructor; [rewrite Eodd; eapply lr_no_thunks; eassumption|exact HLL]|]. cbn [concat app]. intro lib. eapply res_err; [apply Hs|apply HRR].
    + destruct (IH d' cut HE) as (LL & HLL & HRR). exists ([None] :: LL). split; [constructor; [rewrite Eodd; apply lr_no_name; intros n Hn; apply read_name_iff in Hn; unfold delay_name in En; congruence|exact HLL]|].
      cbn [concat app]. intro lib. eapply res_err; [apply Hs|apply HRR].
    + exfalso. exact (b_read_string_at_np _ _ En).
Qed.
Definition tabs_ok (t : option imptab) (dt : option dimptab) : Prop :=
  match t with Some t => bytes_ok (it_data t) /\ bytes_ok (it_ndata t) | None => True end /\ match dt with Some t => bytes_ok (dt_data t) | None => True end.
Lemma imports_results is64 t dt st : tabs_ok t dt -> impit_new t dt = Ok st -> exists L M, table_results is64 t L /\ delay_results is64 dt M /\ results (imp_next is64) st (L ++ M).
Proof.
  intros [Ht Hd] E. unfold impit_new in E.
  assert (Hst : exists d dd, opt_out import_descriptors t = Ok d /\ opt_out delay_descriptors dt = Ok dd /\ st = mk_it t d dt dd None []).
  { destruct (opt_out import_descriptors t) as [d| |]; try discriminate. destruct (opt_out delay_descriptors dt) as [dd| |]; try discriminate. cbn [bind] in E. exists d, dd. split; [reflexivity|]. split; [reflexivity|]. injection E as <-. reflexivity. }
  destruct Hst as (d & dd & Ed & Edd & ->). clear E.
  assert (HM : exists M, delay_results is64 dt M /\ forall lib, results (imp_next is64) (mk_it None None dt dd None lib) M).
  { destruct dt as [dt|]; cbn [opt_out delay_results] in *.
    - unfold delay_descriptors in Edd. rewrite at_address_eq in Edd. destruct (Z.leb_spec ((dt_va dt - dt_sva dt) mod 2 ^ 32) (zlen (dt_data dt))); cbn [bind] in Edd; [|discriminate]. assert (dd = Some (zdrop ((dt_va dt - dt_sva dt) mod 2 ^ 32) (dt_data dt), false)) as -> by (symmetry; injection Edd as E'; exact E').
      destruct (ended_total _ _ _ _ _ _ ddesc_type (zdrop ((dt_va dt - dt_sva dt) mod 2 ^ 32) (dt_data dt))) as (l & cut & HE); [apply bytes_ok_zdrop; exact Hd|].
      destruct (delay_runs is64 dt Hd l _ cut HE) as (LL & HLL & HR). exists (concat LL ++ cut_result cut). split; [exists l, cut, LL; auto|exact HR].
    - exists []. split; [reflexivity|]. intro lib. assert (dd = None) as -> by congruence. eapply res_end. reflexivity. }
  destruct HM as (M & HM & HR). destruct t as [t|]; cbn [opt_out table_results] in *.
  - unfold import_descriptors in Ed. rewrite at_address_eq in Ed. destruct (Z.leb_spec ((it_va t - it_sva t) mod 2 ^ 32) (zlen (it_data t))); cbn [bind] in Ed; [|discriminate]. assert (d = Some (zdrop ((it_va t - it_sva t) mod 2 ^ 32) (it_data t), false)) as -> by (symmetry; injection Ed as E'; exact E').
    destruct (ended_total _ _ _ _ _ _ idesc_type (zdrop ((it_va t - it_sva t) mod 2 ^ 32) (it_data t))) as (l & cut & HE); [apply bytes_ok_zdrop; apply Ht|].
    destruct (table_runs is64 t dt dd (proj1 Ht) (proj2 Ht) l _ cut [] HE M HR) as (LL & HLL & HRR). exists (concat LL ++ cut_result cut), M. split; [exists l, cut, LL; auto|]. split; [exact HM|exact HRR].
  - exists [], M. split; [reflexivity|]. split; [exact HM|]. assert (d = None) as -> by congruence. apply HR.
Qed.

(** * Libraries *)
Lemma lib_delay_runs t d0 th lib : bytes_ok (dt_data t) -> forall l D cut, ddescs_end D l cut ->
  exists M, Forall2 (fun d => outcome (fun r => Z.odd (nth_word d 0) = true /\ exists n, string_at (dt_data t) ((nth_word d 1 - dt_sva t) mod 2 ^ 32) n /\ r = (n, true))) l M /\
    results lib_next (mk_it None d0 (Some t) (Some (D, false)) th lib) (M ++ cut_result cut).
Proof.
  intros HD l. induction l as [|d l IH]; intros D cut HE.
  - exists []. split; [constructor|]. destruct cut; cbn [app cut_result].
    + apply (next_cut _ _ _ _ _ _ ddesc_type) in HE as (d' & E). eapply (res_err _ _ (mk_it None d0 (Some t) (Some (d', true)) th lib)); [|eapply res_end; reflexivity].
      unfold lib_next, lib_stage2, ddesc_next in *. cbn [mk_it ii_table ii_descs ii_dtable ii_ddescs ii_thunks ii_lib]. rewrite E. reflexivity.
    + apply (next_end _ _ _ _ _ _ ddesc_type) in HE as (d' & E). eapply res_end. unfold lib_next, lib_stage2, ddesc_next in *. cbn [mk_it ii_table ii_descs ii_dtable ii_ddescs ii_thunks ii_lib]. rewrite E. reflexivity.
  - apply (next_item _ _ _ _ _ _ ddesc_type) in HE as (d' & E & HE & _). destruct (IH d' cut HE) as (M & HM & HR).
    destruct (results_step lib_next (mk_it None d0 (Some t) (Some (D, false)) th lib) (mk_it None d0 (Some t) (Some (d', false)) th lib)
      (if Z.odd (nth_word d 0) then n <- delay_name t (nth_word d 1) ;; Ok (Some (n, true)) else Err) (M ++ cut_result cut)
      (fun r => Z.odd (nth_word d 0) = true /\ exists n, string_at (dt_data t) ((nth_word d 1 - dt_sva t) mod 2 ^ 32) n /\ r = (n, true))) as (r & Hr1 & Hr2).
    + unfold lib_next, lib_stage2, ddesc_next in *. cbn [mk_it ii_table ii_descs ii_dtable ii_ddescs ii_thunks ii_lib]. rewrite E, land1_odd, !dd_field_nth by lia. change (Z.to_nat 0) with 0%nat. change (Z.to_nat 1) with 1%nat. destruct (Z.odd (nth_word d 0)); reflexivity.
    + destruct (Z.odd _); [|discriminate]. pose proof (b_read_string_at_np (dt_data t) (wrap_u 32 (nth_word d 1 - dt_sva t))). unfold delay_name. destruct (b_read_string_at _ _); cbn [bind]; congruence.
    + destruct (Z.odd _); [|discriminate]. destruct (delay_name _ _); cbn [bind]; congruence.
    + intro r. destruct (Z.odd (nth_word d 0)).
      * split.
        -- intro X. destruct (delay_name t (nth_word d 1)) as [n| |] eqn:En; try discriminate. cbn [bind] in X. split; [reflexivity|]. exists n. split; [apply read_name_iff; exact En|congruence].
        -- intros (_ & n & Hn & ->). apply read_name_iff in Hn. unfold delay_name. rewrite Hn. reflexivity.
      * split; [discriminate|]. intros [? _]. discriminate.
    + exact HR.
    + exists (r :: M). split; [constructor; assumption|exact Hr2].
Qed.
Lemma lib_table_runs t dt dd th lib : bytes_ok (it_data t) -> bytes_ok (it_ndata t) -> forall l D cut, descs_end D l cut ->
  forall R, results lib_next (mk_it None None dt dd th lib) R ->
  exists M, Forall2 (fun d => outcome (fun r => exists n, string_at (it_ndata t) ((id_name d - it_nva t) mod 2 ^ 32) n /\ r = (n, false))) l M /\
    results lib_next (mk_it (Some t) (Some (D, false)) dt dd th lib) ((M ++ cut_result cut) ++ R).
Proof.
  intros HD HN l. induction l as [|d l IH]; intros D cut HE R HR0.
  - exists []. split; [constructor|]. destruct cut; cbn [app cut_result].
    + apply (next_cut _ _ _ _ _ _ idesc_type) in HE as (d' & E). eapply (res_err _ _ (mk_it (Some t) (Some (d', true)) dt dd th lib)); [|eapply results_same; [|exact HR0]; reflexivity].
      unfold lib_next, idesc_next in *. cbn [mk_it ii_table ii_descs ii_dtable ii_ddescs ii_thunks ii_lib]. rewrite E. reflexivity.
    + apply (next_end _ _ _ _ _ _ idesc_type) in HE as (d' & E). eapply results_same; [|exact HR0]. unfold lib_next, idesc_next in *. cbn [mk_it ii_table ii_descs ii_dtable ii_ddescs ii_thunks ii_lib]. rewrite E. reflexivity.
  - apply (next_item _ _ _ _ _ _ idesc_type) in HE as (d' & E & HE & _). destruct (IH d' cut HE R HR0) as (M & HM & HR).
    destruct (results_step lib_next (mk_it (Some t) (Some (D, false)) dt dd th lib) (mk_it (Some t) (Some (d', false)) dt dd th lib)
      (n <- import_name t (id_name d) ;; Ok (Some (n, false))) ((M ++ cut_result cut) ++ R)
      (fun r => exists n, string_at (it_ndata t) ((id_name d - it_nva t) mod 2 ^ 32) n /\ r = (n, false))) as (r & Hr1 & Hr2).
    + unfold lib_next, idesc_next in *. cbn [mk_it ii_table ii_descs ii_dtable ii_ddescs ii_thunks ii_lib]. rewrite E. reflexivity.
    + pose proof (b_read_string_at_np (it_ndata t) (wrap_u 32 (id_name d - it_nva t))). unfold import_name. destruct (b_read_string_at _ _); cbn [bind]; congruence.
    + destruct (import_name _ _); cbn [bind]; congruence.
    + intro r. split.
      * intro X. destruct (import_name t (id_name d)) as [n| |] eqn:En; try discriminate. cbn [bind] in X. exists n. split; [apply read_name_iff; exact En|congruence].
      * intros (n & Hn & ->). apply read_name_iff in Hn. unfold import_name. rewrite Hn. reflexivity.
    + exact HR.
    + exists (r :: M). split; [constructor; assumption|exact Hr2].
Qed.
Lemma libraries_results t dt st : tabs_ok t dt -> impit_new t dt = Ok st -> exists L M, table_libraries t L /\ delay_libraries dt M /\ results lib_next st (L ++ M).
Proof.
  intros [Ht Hd] E. unfold impit_new in E.
  assert (Hst : exists d dd, opt_out import_descriptors t = Ok d /\ opt_out delay_descriptors dt = Ok dd /\ st = mk_it t d dt dd None []).
  { destruct (opt_out import_descriptors t) as [d| |]; try discriminate. destruct (opt_out delay_descriptors dt) as [dd| |]; try discriminate. cbn [bind] in E. exists d, dd. split; [reflexivity|]. split; [reflexivity|]. injection E as <-. reflexivity. }
  destruct Hst as (d & dd & Ed & Edd & ->). clear E.
  assert (HM : exists M, delay_libraries dt M /\ results lib_next (mk_it None None dt dd None []) M).
  { destruct dt as [dt|]; cbn [opt_out delay_libraries] in *.
    - unfold delay_descriptors in Edd. rewrite at_address_eq in Edd. destruct (Z.leb_spec ((dt_va dt - dt_sva dt) mod 2 ^ 32) (zlen (dt_data dt))); cbn [bind] in Edd; [|discriminate]. assert (dd = Some (zdrop ((dt_va dt - dt_sva dt) mod 2 ^ 32) (dt_data dt), false)) as -> by (symmetry; injection Edd as E'; exact E').
      destruct (ended_total _ _ _ _ _ _ ddesc_type (zdrop ((dt_va dt - dt_sva dt) mod 2 ^ 32) (dt_data dt))) as (l & cut & HE); [apply bytes_ok_zdrop; exact Hd|].
      destruct (lib_delay_runs dt None None [] Hd l _ cut HE) as (LL & HLL & HR). exists (LL ++ cut_result cut). split; [exists l, cut, LL; auto|exact HR].
    - exists []. split; [reflexivity|]. assert (dd = None) as -> by congruence. eapply res_end. reflexivity. }
  destruct HM as (M & HM & HR). destruct t as [t|]; cbn [opt_out table_libraries] in *.
  - unfold import_descriptors in Ed. rewrite at_address_eq in Ed. destruct (Z.leb_spec ((it_va t - it_sva t) mod 2 ^ 32) (zlen (it_data t))); cbn [bind] in Ed; [|discriminate]. assert (d = Some (zdrop ((it_va t - it_sva t) mod 2 ^ 32) (it_data t), false)) as -> by (symmetry; injection Ed as E'; exact E').
    destruct (ended_total _ _ _ _ _ _ idesc_type (zdrop ((it_va t - it_sva t) mod 2 ^ 32) (it_data t))) as (l & cut & HE); [apply bytes_ok_zdrop; apply Ht|].
    destruct (lib_table_runs t dt dd None [] (proj1 Ht) (proj2 Ht) l _ cut HE M HR) as (LL & HLL & HRR). exists (LL ++ cut_result cut), M. split; [exists l, cut, LL; auto|]. split; [exact HM|exact HRR].
  - exists [], M. split; [reflexivity|]. split; [exact HM|]. assert (d = None) as -> by congruence. exact HR.
Qed.
(** starting the iterators fails just if a table is not in its section *)
Lemma impit_new_ok t dt : (exists st, impit_new t dt = Ok st) <->
  match t with Some t => (it_va t - it_sva t) mod 2 ^ 32 <= zlen (it_data t) | None => True end /\ match dt with Some t => (dt_va t - dt_sva t) mod 2 ^ 32 <= zlen (dt_data t) | None => True end.
Proof.
  unfold impit_new, import_descriptors, delay_descriptors. destruct t as [t|], dt as [dt|]; cbn [opt_out]; rewrite ?at_address_eq;
  repeat match goal with |- context [?a <=? ?b] => destruct (Z.leb_spec a b); cbn [bind] end; split; try (intros (st & X); discriminate X); try (intros (st & X); split; trivial; lia); try (intros [? ?]; lia); try (intros _; cbn [bind]; eexists; reflexivity).
Qed.
Lemma impit_new_np t dt : impit_new t dt <> Panic.
Proof.
  unfold impit_new, import_descriptors, delay_descriptors. destruct t as [t|], dt as [dt|]; cbn [opt_out]; rewrite ?at_address_eq;
  repeat match goal with |- context [?a <=? ?b] => destruct (Z.leb_spec a b); cbn [bind] end; discriminate.
Qed.
