(** Universal binaries and short imports. *)
From Verif Require Import Core_proofs Util_proofs File_proofs Hash_proofs Pod_proofs.
From Verif Require Pe_proofs PeI_proofs Mach_proofs Ar_proofs.
From Verif Require Import Fkind_spec Fkind_proofs.

(** * Universal binaries *)
Lemma fat_dec is64 b : zlen b = fat_size is64 -> bytes_ok b -> fatarch_ok is64 (fat_of is64 b) /\ fatarch_enc is64 (fat_of is64 b) = b.
Proof.
  intros L B. split.
  - assert (Q : forall o n, 0 <= o -> 0 <= n -> o + n <= fat_size is64 -> 0 <= fld Big o n b < 2 ^ (8 * n)).
    { intros o n H1 H2 H3. unfold fld. pose proof (read_u_bound Big (zslice o n b) (bytes_ok_zslice _ _ _ B)) as K. rewrite zlen_zslice in K by lia. exact K. }
    unfold fatarch_ok, fat_of. destruct is64; cbn [fat_size] in Q; cbn [ft_cputype ft_cpusubtype ft_offset ft_size ft_align ft_reserved].
    + split; [apply (Q 0 4); lia|]. split; [apply (Q 4 4); lia|]. split; [apply (Q 24 4); lia|]. split; [apply (Q 8 8); lia|]. split; [apply (Q 16 8); lia|]. apply (Q 28 4); lia.
    + split; [apply (Q 0 4); lia|]. split; [apply (Q 4 4); lia|]. split; [apply (Q 16 4); lia|]. split; [apply (Q 8 4); lia|]. split; [apply (Q 12 4); lia|]. reflexivity.
  - unfold fatarch_enc, fat_of. destruct is64; cbn [fat_size] in L; cbn [ft_cputype ft_cpusubtype ft_offset ft_size ft_align ft_reserved]; unfold fld; Mach_proofs.pod_join; apply zslice_all; lia.
Qed.
Lemma fat_enc is64 a : fatarch_ok is64 a -> zlen (fatarch_enc is64 a) = fat_size is64 /\ fat_of is64 (fatarch_enc is64 a) = a.
Proof.
  intros (H1 & H2 & H3 & H). unfold u32_ok, u64_ok in *. unfold fatarch_enc, fat_of. destruct is64.
  - destruct H as (H4 & H5 & H6). unfold u32_ok, u64_ok in *. split; [rewrite !zlen_app, !zlen_write_u; reflexivity|]. fld_norm. destruct a; reflexivity.
  - destruct H as (H4 & H5 & H6). unfold u32_ok, u64_ok in *. split; [rewrite !zlen_app, !zlen_write_u; reflexivity|]. rewrite <- (app_nil_r (write_u Big 4 (ft_align a))). fld_norm. destruct a as [? ? ? ? ? r]. cbn [ft_reserved] in H6. subst r. reflexivity.
Qed.
Lemma fat_iff is64 F l : bytes_ok F -> zlen F < 2 ^ 63 -> fat_parse is64 F = Ok l <-> holds F 0 (fat_file is64 l) /\ Forall (fatarch_ok is64) l /\ u32_ok (zlen l).
Proof.
  intros B HF. unfold fat_parse, fat_file. rewrite Ar_proofs.rr_read_eq by lia. change (0 + 8) with 8.
  assert (A : forall k, 0 <= k -> match rr_read_slice F 8 (fat_size is64) k with (Ok l, _) => Ok (map (fat_of is64) l) | (Err, _) => Err | (Panic, _) => Panic end = Ok l <-> zlen l = k /\ Forall (fatarch_ok is64) l /\ (l <> [] -> holds F 8 (concat (map (fatarch_enc is64) l)))).
  { intros k Hk. rewrite <- (Mach_proofs.array_iff (fat_of is64) (fatarch_enc is64) (fatarch_ok is64) F 8 (fat_size is64) k l B ltac:(lia) ltac:(lia) ltac:(destruct is64; reflexivity) Hk (fat_dec is64) (fat_enc is64)).
    unfold rr_read_slice_at. destruct (rr_read_slice F 8 (fat_size is64) k) as [[x| |] o]; cbn [fst bind]; reflexivity. }
  destruct (Z.leb_spec 8 (zlen F)) as [L|L].
  - set (h := zslice 0 8 F). assert (Hh : holds F 0 h) by (unfold h; apply holds_iff; rewrite zlen_zslice by lia; repeat split; lia). assert (Bh : bytes_ok h) by (apply bytes_ok_zslice; exact B). assert (Lh : zlen h = 8) by (apply zlen_zslice; lia).
    assert (Eh : h = write_u Big 4 (fld Big 0 4 h) ++ write_u Big 4 (fld Big 4 4 h)) by (unfold fld; Mach_proofs.pod_join; symmetry; apply zslice_all; lia).
    assert (R : 0 <= fld Big 4 4 h < 2 ^ 32) by (unfold fld; pose proof (read_u_bound Big (zslice 4 4 h) (bytes_ok_zslice _ _ _ Bh)) as K; rewrite zlen_zslice in K by lia; exact K).
    split.
    + intro E. destruct (Z.eqb_spec (fld Big 0 4 h) (if is64 then 3405691583 else 3405691582)) as [M|]; cbn [negb] in E; [|discriminate]. apply A in E as (E1 & E2 & E3); [|lia].
      split; [|split; [exact E2|rewrite E1; exact R]]. rewrite app_assoc. apply holds_app. rewrite zlen_app, !zlen_write_u. change (0 + (Z.of_nat 4 + Z.of_nat 4)) with 8. split; [rewrite E1, <- M, <- Eh; exact Hh|].
      destruct l as [|a l]; [|apply E3; discriminate]. cbn [map concat]. exists (ztake 8 F), (zdrop 8 F). split; [rewrite app_nil_l, ztake_zdrop; reflexivity|apply zlen_ztake; lia].
    + intros (E1 & E2 & E3). unfold u32_ok in E3. rewrite app_assoc in E1. apply holds_app in E1 as (E1 & E4). rewrite zlen_app, !zlen_write_u in E4. change (0 + (Z.of_nat 4 + Z.of_nat 4)) with 8 in E4.
      assert (Q : h = write_u Big 4 (if is64 then 3405691583 else 3405691582) ++ write_u Big 4 (zlen l)). { apply holds_slice in E1. rewrite zlen_app, !zlen_write_u in E1. exact E1. }
      assert (M : fld Big 0 4 h = if is64 then 3405691583 else 3405691582). { rewrite Q. rewrite <- (app_nil_l (write_u Big 4 _ ++ _)). apply (fld_app Big [] _ 4); [reflexivity|destruct is64; split; reflexivity || lia]. }
      assert (M2 : fld Big 4 4 h = zlen l). { rewrite Q. rewrite <- (app_nil_r (write_u Big 4 (zlen l))). apply (fld_app Big _ _ 4); [rewrite zlen_write_u; reflexivity|exact E3]. }
      rewrite M, Z.eqb_refl. cbn [negb]. apply A; [lia|]. rewrite M2. auto.
  - split; [discriminate|]. intros (E & _). apply holds_bounds in E. rewrite !zlen_app, !zlen_write_u in E. pose proof (zlen_nonneg (concat (map (fatarch_enc is64) l))). lia.
Qed.
Lemma fat_np is64 F : fat_parse is64 F <> Panic.
Proof.
  unfold fat_parse. pose proof (rr_read_no_panic F 0 8) as P. destruct (rr_read F 0 8) as [[h| |] o]; cbn [fst] in P; try congruence. destruct (negb _); [discriminate|].
  pose proof (rr_read_slice_no_panic F o (fat_size is64) (fld Big 4 4 h)) as P2. destruct (rr_read_slice F o (fat_size is64) (fld Big 4 4 h)) as [[l| |] o2]; cbn [fst] in P2; congruence.
Qed.
(** * Short imports *)
Lemma type_bits w : 0 <= w < 2 ^ 16 -> im_itype w = w mod 4 /\ im_ntype w = w / 4 mod 8.
Proof. intros H. unfold im_itype, im_ntype. change 3 with (Z.ones 2). change 7 with (Z.ones 3). rewrite !Z.land_ones, Z.shiftr_div_pow2 by lia. split; reflexivity. Qed.
Lemma strip_iff s n : stripped s n <-> n = im_strip s.
Proof.
  split.
  - intros [b r [->|[->| ->]]|b r H1 H2 H3|]; cbn [im_strip]; try reflexivity. destruct (Z.eqb_spec b 63), (Z.eqb_spec b 64), (Z.eqb_spec b 95); try congruence. reflexivity.
  - intros ->. destruct s as [|b r]; cbn [im_strip]; [constructor|]. destruct (Z.eqb_spec b 63); [subst; constructor; auto|]. destruct (Z.eqb_spec b 64); [subst; constructor; auto|]. destruct (Z.eqb_spec b 95); [subst; constructor; auto|]. cbn [orb]. apply st_other; assumption.
Qed.
Lemma until_at_app a r : ~ In 64 a -> im_until_at (a ++ 64 :: r) = a.
Proof. intro H. induction a as [|x a IH]; [reflexivity|]. cbn [app im_until_at]. destruct (Z.eqb_spec x 64) as [->|]; [exfalso; apply H; left; reflexivity|]. rewrite IH; [reflexivity|]. intro K. apply H. right. exact K. Qed.
Lemma until_at_all a : ~ In 64 a -> im_until_at a = a.
Proof. intro H. induction a as [|x a IH]; [reflexivity|]. cbn [im_until_at]. destruct (Z.eqb_spec x 64) as [->|]; [exfalso; apply H; left; reflexivity|]. rewrite IH; [reflexivity|]. intro K. apply H. right. exact K. Qed.
Lemma until_at_iff n m : before_at n m <-> m = im_until_at n.
Proof.
  split.
  - intros [a r H|a H]; symmetry; [apply until_at_app|apply until_at_all]; exact H.
  - intros ->. assert (C : (exists r, n = im_until_at n ++ 64 :: r) \/ n = im_until_at n).
    { induction n as [|x n IH]; [right; reflexivity|]. cbn [im_until_at]. destruct (Z.eqb_spec x 64) as [->|]; [left; exists n; reflexivity|]. destruct IH as [(r & IH)|IH]; [left; exists r; cbn [app]; rewrite <- IH; reflexivity|right; rewrite <- IH; reflexivity]. }
    assert (N : ~ In 64 (im_until_at n)). { clear C. induction n as [|x n IH]; [intros []|]. cbn [im_until_at]. destruct (Z.eqb_spec x 64); [intros []|]. intros [K|K]; [congruence|exact (IH K)]. }
    destruct C as [(r & C)|C]; [rewrite C at 1; constructor; exact N|rewrite C at 1; apply ba_all; exact N].
Qed.
Definition imp_hdr (s : shortimport) : bytes :=
  write_u Little 2 0 ++ write_u Little 2 65535 ++ write_u Little 2 0 ++ write_u Little 2 (si_machine s) ++ write_u Little 4 (si_time s) ++ write_u Little 4 (zlen (shortimport_data s)) ++
  write_u Little 2 (si_ordinal s) ++ write_u Little 2 (si_type s + 4 * si_name_type s + 32 * si_reserved s).
Lemma imp_enc s : shortimport_enc s = imp_hdr s ++ shortimport_data s.
Proof. unfold shortimport_enc, imp_hdr. rewrite <- !app_assoc. reflexivity. Qed.
Lemma imp_hdr_len s : zlen (imp_hdr s) = 20.
Proof. unfold imp_hdr. rewrite !zlen_app, !zlen_write_u. reflexivity. Qed.
Lemma imported_iff s f : shortimport_ok s -> im_ordinal f = si_ordinal s ->
  imported s (im_name f) <-> (let n := si_name_type s in if n =? 0 then Ok None else if n =? 1 then Ok (Some (si_symbol s)) else if n =? 2 then Ok (Some (im_strip (si_symbol s)))
             else if n =? 3 then Ok (Some (im_until_at (im_strip (si_symbol s)))) else if n =? 4 then Ok (si_export s) else Err) = Ok (im_import f).
Proof.
  intros (_ & _ & _ & _ & Hn & _ & _ & _ & Hx) Ho. cbv zeta. unfold im_name. rewrite Ho. split.
  - intro I. destruct (im_import f) as [n|]; inversion I as [E|E|n' E S|n' m' E S B|x E S]; subst; rewrite E; cbn [Z.eqb Pos.eqb]; try reflexivity.
    + apply strip_iff in S. congruence.
    + apply strip_iff in S. apply until_at_iff in B. congruence.
    + congruence.
  - intro E. assert (C : si_name_type s = 0 \/ si_name_type s = 1 \/ si_name_type s = 2 \/ si_name_type s = 3 \/ si_name_type s = 4) by lia.
    destruct C as [C|[C|[C|[C|C]]]]; rewrite C in E; cbn [Z.eqb Pos.eqb] in E.
    + assert (im_import f = None) as -> by congruence. constructor. exact C.
    + assert (im_import f = Some (si_symbol s)) as -> by congruence. constructor. exact C.
    + assert (im_import f = Some (im_strip (si_symbol s))) as -> by congruence. apply ip_noprefix; [exact C|]. apply strip_iff. reflexivity.
    + assert (im_import f = Some (im_until_at (im_strip (si_symbol s)))) as -> by congruence. eapply ip_undecorate; [exact C|apply strip_iff; reflexivity|apply until_at_iff; reflexivity].
    + assert (Q : im_import f = si_export s) by congruence. destruct (si_export s) as [x|] eqn:Ex; [|lia]. rewrite Q. apply ip_export; [exact C|exact Ex].
Qed.
Lemma import_iff F f : bytes_ok F -> zlen F < 2 ^ 63 ->
  import_parse F = Ok f <-> exists s, shortimport_ok s /\ u32_ok (zlen (shortimport_data s)) /\ holds F 0 (shortimport_enc s) /\ shows_import s f.
Proof.
  intros B HF. unfold import_parse, im_header. rewrite Ar_proofs.rr_read_eq by lia. change (0 + 20) with 20. split.
  - destruct (Z.leb_spec 20 (zlen F)) as [L|L]; [|discriminate]. set (h := zslice 0 20 F). assert (Hh : holds F 0 h) by (unfold h; apply holds_iff; rewrite zlen_zslice by lia; repeat split; lia). assert (Bh : bytes_ok h) by (apply bytes_ok_zslice; exact B). assert (Lh : zlen h = 20) by (apply zlen_zslice; lia). clearbody h.
    assert (R : forall o n, 0 <= o -> 0 <= n -> o + n <= 20 -> 0 <= fld Little o n h < 2 ^ (8 * n)) by (intros o n K1 K2 K3; unfold fld; pose proof (read_u_bound Little (zslice o n h) (bytes_ok_zslice _ _ _ Bh)) as K; rewrite zlen_zslice in K by lia; exact K).
    intro E. destruct (Z.eqb_spec (fld Little 0 2 h) 0) as [M0|]; cbn [negb orb] in E; [|discriminate]. destruct (Z.eqb_spec (fld Little 2 2 h) 65535) as [M1|]; cbn [negb] in E; [|discriminate]. destruct (Z.eqb_spec (fld Little 4 2 h) 0) as [M2|]; cbn [negb bind] in E; [|discriminate].
    pose proof (R 18 2 ltac:(lia) ltac:(lia) ltac:(lia)) as Rw. pose proof (R 12 4 ltac:(lia) ltac:(lia) ltac:(lia)) as Rz. pose proof (R 6 2 ltac:(lia) ltac:(lia) ltac:(lia)) as Rm. pose proof (R 8 4 ltac:(lia) ltac:(lia) ltac:(lia)) as Rt. pose proof (R 16 2 ltac:(lia) ltac:(lia) ltac:(lia)) as Ro.
    assert (Eh : h = write_u Little 2 (fld Little 0 2 h) ++ write_u Little 2 (fld Little 2 2 h) ++ write_u Little 2 (fld Little 4 2 h) ++ write_u Little 2 (fld Little 6 2 h) ++ write_u Little 4 (fld Little 8 4 h) ++ write_u Little 4 (fld Little 12 4 h) ++ write_u Little 2 (fld Little 16 2 h) ++ write_u Little 2 (fld Little 18 2 h)) by (unfold fld; Mach_proofs.pod_join; symmetry; apply zslice_all; lia).
    rewrite M0, M1, M2 in Eh. unfold im_data in E. set (w := fld Little 18 2 h) in *. destruct (type_bits w Rw) as (T1 & T2). rewrite T1, T2 in E. rewrite Ar_proofs.rr_read_bytes_eq in E by lia.
    destruct (Z.leb_spec (20 + fld Little 12 4 h) (zlen F)) as [Ld|]; [|discriminate]. set (d := zslice 20 (fld Little 12 4 h) F) in *. assert (Zd : zlen d = fld Little 12 4 h) by (apply zlen_zslice; lia). assert (Hd : holds F 20 d) by (apply holds_iff; rewrite Zd; repeat split; lia). clearbody d.
    destruct (b_read_string d) as [r d1] eqn:E1. apply b_read_string_spec in E1 as [(sy & -> & Ed & N1)|(-> & _)]; cbn [bs fst bind] in E; [|discriminate].
    destruct (b_read_string d1) as [r d2] eqn:E2. apply b_read_string_spec in E2 as [(dl & -> & Ed1 & N2)|(-> & _)]; cbn [bs fst bind] in E; [|discriminate].
    assert (X : exists ex junk, (match ex with Some x => str0 x /\ w / 4 mod 8 = 4 | None => w / 4 mod 8 <> 4 end) /\ d2 = match ex with Some x => x ++ [0] | None => [] end ++ junk /\
      (kind <- (if w mod 4 =? 0 then Ok ItCode else if w mod 4 =? 1 then Ok ItData else if w mod 4 =? 2 then Ok ItConst else Err) ;;
       import <- (if w / 4 mod 8 =? 0 then Ok None else if w / 4 mod 8 =? 1 then Ok (Some sy) else if w / 4 mod 8 =? 2 then Ok (Some (im_strip sy))
             else if w / 4 mod 8 =? 3 then Ok (Some (im_until_at (im_strip sy))) else if w / 4 mod 8 =? 4 then Ok ex else Err) ;;
       Ok {| im_machine := fld Little 6 2 h; im_ordinal := fld Little 16 2 h; im_kind := kind; im_dll := dl; im_symbol := sy; im_import := import |}) = Ok f).
    { destruct (Z.eqb_spec (w / 4 mod 8) 4) as [N4|N4].
      - destruct (b_read_string d2) as [r d3] eqn:E3. apply b_read_string_spec in E3 as [(x & -> & Ed2 & N3)|(-> & _)]; cbn [bs fst bind] in E; [|discriminate]. exists (Some x), d3. split; [split; [exact N3|exact N4]|]. split; [rewrite <- app_assoc; exact Ed2|]. exact E.
      - exists None, d2. split; [exact N4|]. split; [reflexivity|]. exact E. }
    clear E. destruct X as (ex & junk & Hx & Ed2 & E).
    assert (K : exists kind, kind_number kind = w mod 4 /\ (if w mod 4 =? 0 then Ok ItCode else if w mod 4 =? 1 then Ok ItData else if w mod 4 =? 2 then Ok ItConst else Err) = Ok kind).
    { destruct (Z.eqb_spec (w mod 4) 0); [exists ItCode; auto|]. destruct (Z.eqb_spec (w mod 4) 1); [exists ItData; auto|]. destruct (Z.eqb_spec (w mod 4) 2); [exists ItConst; auto|]. discriminate. }
    destruct K as (kind & Kn & Ke). rewrite Ke in E. cbn [bind] in E.
    match type of E with bind ?m _ = _ => destruct m as [im| |] eqn:Ei; cbn [bind] in E; try discriminate end.
    assert (E' := E). clear E.
    set (s := {| si_machine := fld Little 6 2 h; si_time := fld Little 8 4 h; si_ordinal := fld Little 16 2 h; si_type := w mod 4; si_name_type := w / 4 mod 8; si_reserved := w / 32; si_symbol := sy; si_dll := dl; si_export := ex; si_junk := junk |}).
    assert (Sd : shortimport_data s = d) by (unfold shortimport_data, s; cbn [si_symbol si_dll si_export si_junk]; rewrite Ed, Ed1, Ed2; reflexivity).
    assert (Hw : w = w mod 4 + 4 * (w / 4 mod 8) + 32 * (w / 32)) by (Z.to_euclidean_division_equations; lia).
    assert (S5 : 0 <= w / 4 mod 8 < 5). { pose proof (Z.mod_pos_bound (w / 4) 8 ltac:(lia)). clear - Ei H. repeat match type of Ei with (if ?a =? ?b then _ else _) = _ => destruct (Z.eqb_spec a b); [lia|] end. discriminate. }
    assert (So : shortimport_ok s).
    { unfold shortimport_ok, s. cbn [si_machine si_time si_ordinal si_type si_name_type si_reserved si_symbol si_dll si_export]. split; [exact Rm|]. split; [exact Rt|]. split; [exact Ro|]. split; [rewrite <- Kn; destruct kind; cbn; lia|]. split; [exact S5|].
      split; [change (2 ^ (8 * 2)) with 65536 in Rw; Z.to_euclidean_division_equations; lia|]. split; [exact N1|]. split; [exact N2|exact Hx]. }
    exists s. split; [exact So|]. split; [rewrite Sd, Zd; exact Rz|]. split.
    + rewrite imp_enc, Sd. apply holds_app. rewrite imp_hdr_len. split; [|exact Hd]. unfold imp_hdr. rewrite Sd, Zd. unfold s. cbn [si_machine si_time si_ordinal si_type si_name_type si_reserved]. rewrite <- Hw. rewrite <- Eh. exact Hh.
    + assert (f = {| im_machine := fld Little 6 2 h; im_ordinal := fld Little 16 2 h; im_kind := kind; im_dll := dl; im_symbol := sy; im_import := im |}) as -> by congruence.
      unfold shows_import. cbn [im_machine im_ordinal im_kind im_dll im_symbol]. unfold s at 1 2 3 4 5. cbn [si_machine si_ordinal si_type si_dll si_symbol]. repeat (split; [first [reflexivity|exact Kn]|]).
      apply imported_iff; [exact So|reflexivity|]. exact Ei.
  - intros (s & So & Hz & Hs & Sf). rewrite imp_enc in Hs. apply holds_app in Hs as (Hh & Hd). rewrite imp_hdr_len in Hd. change (0 + 20) with 20 in Hd.
    pose proof So as (R1 & R2 & R3 & R4 & R5 & R6 & N1 & N2 & Nx). pose proof (holds_bounds _ _ _ Hh) as L. rewrite imp_hdr_len in L. destruct (Z.leb_spec 20 (zlen F)); [|lia].
    assert (Eh : zslice 0 20 F = imp_hdr s) by (apply holds_slice in Hh; rewrite imp_hdr_len in Hh; exact Hh). rewrite Eh. unfold u16_ok, u32_ok in *.
    set (w := si_type s + 4 * si_name_type s + 32 * si_reserved s). assert (Rw : 0 <= w < 2 ^ 16) by (unfold w; change (2 ^ 11) with 2048 in R6; change (2 ^ 16) with 65536; lia).
    assert (Ef : imp_hdr s = write_u Little 2 0 ++ write_u Little 2 65535 ++ write_u Little 2 0 ++ write_u Little 2 (si_machine s) ++ write_u Little 4 (si_time s) ++ write_u Little 4 (zlen (shortimport_data s)) ++ write_u Little 2 (si_ordinal s) ++ write_u Little 2 w ++ []) by (rewrite app_nil_r; reflexivity).
    assert (F0 : fld Little 0 2 (imp_hdr s) = 0 /\ fld Little 2 2 (imp_hdr s) = 65535 /\ fld Little 4 2 (imp_hdr s) = 0 /\ fld Little 6 2 (imp_hdr s) = si_machine s /\ fld Little 12 4 (imp_hdr s) = zlen (shortimport_data s) /\ fld Little 16 2 (imp_hdr s) = si_ordinal s /\ fld Little 18 2 (imp_hdr s) = w).
    { rewrite Ef. fld_norm. repeat split; reflexivity. }
    destruct F0 as (F0 & F1 & F2 & F3 & F4 & F5 & F6). rewrite F0, F1, F2. cbn [Z.eqb Pos.eqb negb orb bind]. unfold im_data. rewrite F3, F4, F5, F6. destruct (type_bits w Rw) as (T1 & T2).
    assert (W1 : im_itype w = si_type s) by (rewrite T1; unfold w; Z.to_euclidean_division_equations; lia). assert (W2 : im_ntype w = si_name_type s) by (rewrite T2; unfold w; Z.to_euclidean_division_equations; lia). rewrite W1, W2.
    assert (Rb : rr_read_bytes F 20 (zlen (shortimport_data s)) = (Ok (shortimport_data s), 20 + zlen (shortimport_data s))). { rewrite Ar_proofs.rr_read_bytes_eq by lia. pose proof (holds_bounds _ _ _ Hd). destruct (Z.leb_spec (20 + zlen (shortimport_data s)) (zlen F)); [|lia]. rewrite (holds_slice _ _ _ Hd). reflexivity. }
    rewrite Rb. unfold shortimport_data. cbn [app]. rewrite b_read_string_app by exact N1. cbn [bs]. rewrite b_read_string_app by exact N2. cbn [bs].
    destruct Sf as (S1 & S2 & S3 & S4 & S5 & S6). apply (imported_iff s f So S2) in S6. cbv zeta in S6.
    assert (Q : fst (if si_name_type s =? 4 then do x, d <- b_read_string (match si_export s with Some x => x ++ [0] | None => [] end ++ si_junk s) ;; (Ok (si_symbol s, si_dll s, Some x), d) else (Ok (si_symbol s, si_dll s, None), match si_export s with Some x => x ++ [0] | None => [] end ++ si_junk s)) = Ok (si_symbol s, si_dll s, si_export s)).
    { destruct (si_export s) as [x|]; [destruct Nx as (Nx & N4); rewrite N4; cbn [Z.eqb Pos.eqb]; rewrite <- app_assoc; cbn [app]; rewrite b_read_string_app by exact Nx; reflexivity|]. destruct (Z.eqb_spec (si_name_type s) 4); [lia|reflexivity]. }
    rewrite Q. cbn [bind].
    assert (Kd : (if si_type s =? 0 then Ok ItCode else if si_type s =? 1 then Ok ItData else if si_type s =? 2 then Ok ItConst else Err) = Ok (im_kind f)) by (rewrite <- S3; destruct (im_kind f); reflexivity).
    rewrite Kd. cbn [bind]. cbv zeta. rewrite S6. cbn [bind]. rewrite <- S1, <- S2, <- S4, <- S5. destruct f; reflexivity.
Qed.
Lemma import_np F : import_parse F <> Panic.
Proof.
  unfold import_parse, im_header. pose proof (rr_read_no_panic F 0 20) as P. destruct (rr_read F 0 20) as [[h| |] o]; cbn [fst] in P; cbn [bind]; try congruence.
  destruct (_ || _); cbn [bind]; [discriminate|]. destruct (negb _); cbn [bind]; [discriminate|]. unfold im_data.
  assert (Pd : fst (rr_read_bytes F o (fld Little 12 4 h)) <> Panic). { unfold rr_read_bytes, rr_read_bytes_at. destruct (_ =? 0); cbn [fst]; [discriminate|]. destruct (get_from F o); cbn [of_opt bind]; [|discriminate]. destruct (get_to l _); cbn [of_opt fst]; discriminate. }
  destruct (rr_read_bytes F o (fld Little 12 4 h)) as [[d| |] o2]; cbn [fst] in Pd; cbn [bind]; try congruence.
  assert (St : forall x, fst (b_read_string x) <> Panic) by (intros x Q; destruct (b_read_string x) as [r y] eqn:E; apply b_read_string_spec in E as [(z & -> & _)|(-> & _)]; discriminate).
  match goal with |- bind ?m _ <> _ => assert (Pm : m <> Panic) end.
  { pose proof (St d). destruct (b_read_string d) as [[a| |] d1]; cbn [fst bs] in *; try congruence. pose proof (St d1). destruct (b_read_string d1) as [[a2| |] d2]; cbn [fst bs] in *; try congruence. destruct (_ =? 4); [|cbn [fst]; discriminate].
    pose proof (St d2). destruct (b_read_string d2) as [[a3| |] d3]; cbn [fst bs] in *; congruence. }
  match goal with |- bind ?m _ <> _ => destruct m as [[[a b] c]| |]; cbn [bind]; try congruence end. cbv zeta.
  repeat match goal with |- context [if ?a =? ?b then _ else _] => destruct (a =? b) end; cbn [bind]; discriminate.
Qed.
