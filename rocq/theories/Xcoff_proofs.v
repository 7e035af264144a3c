(** XCOFF reader: encodings, parsing. *)
From Verif Require Import Core_proofs Util_proofs File_proofs Hash_proofs Pod_proofs.
From Verif Require Pe_proofs PeI_proofs Mach_proofs Ar_spec Ar_proofs CoffR_proofs CoffI_proofs MachQ_proofs Mach_spec Fkind_proofs.
From Verif Require Import Xcoff_spec.

Ltac fb := unfold xword, byte_ok, u16_ok, u32_ok, u64_ok in *.
Lemma fbound b o n : bytes_ok b -> 0 <= o -> 0 <= n -> o + n <= zlen b -> 0 <= fld Big o n b < 2 ^ (8 * n).
Proof. intros B H1 H2 H3. unfold fld. pose proof (read_u_bound Big (zslice o n b) (bytes_ok_zslice _ _ _ B)) as K. rewrite zlen_zslice in K by lia. exact K. Qed.
Lemma read_i_bound b : bytes_ok b -> zlen b = 2 -> - 2 ^ 15 <= read_i Big b < 2 ^ 15.
Proof. intros B L. unfold read_i. pose proof (read_u_bound Big b B) as K. rewrite L in *. unfold wrap_s. change (8 * 2) with 16 in *. pose proof (Z.mod_pos_bound (read_u Big b + 2 ^ (16 - 1)) (2 ^ 16) ltac:(lia)). cbn [Z.sub]. change (2 ^ (16 - 1)) with (2 ^ 15) in *. lia. Qed.
Lemma write_read_i b : bytes_ok b -> zlen b = 2 -> write_i Big 2 (read_i Big b) = b.
Proof.
  intros B L. unfold write_i, read_i. rewrite L. pose proof (read_u_bound Big b B) as K. rewrite L in K. rewrite <- (write_read_n Big 2 b B) at 2 by lia. f_equal.
  unfold wrap_s, wrap_u. change (8 * 2) with 16 in *. change (8 * Z.of_nat 2) with 16. change (2 ^ (16 - 1)) with (2 ^ 15). change (2 ^ 15) with 32768. change (2 ^ 16) with 65536 in *. clear B L. Z.to_euclidean_division_equations; lia.
Qed.
Lemma read_write_i v : - 2 ^ 15 <= v < 2 ^ 15 -> read_i Big (write_i Big 2 v) = v.
Proof.
  intros H. unfold write_i, read_i. rewrite zlen_write_u. change (8 * Z.of_nat 2) with 16. unfold wrap_s, wrap_u. rewrite read_write_u_small by (apply Z.mod_pos_bound; reflexivity). change (2 ^ (16 - 1)) with 32768. change (2 ^ 15) with 32768 in *. change (2 ^ 16) with 65536 in *. Z.to_euclidean_division_equations; lia.
Qed.
Lemma zlen_write_i v : zlen (write_i Big 2 v) = 2.
Proof. unfold write_i. rewrite zlen_write_u. reflexivity. Qed.

(** * Encodings *)
Lemma xhdr_dec is64 b : zlen b = xhdr_size is64 -> bytes_ok b -> fld Big 0 2 b = (if is64 then 503 else 479) -> xhdr_ok is64 (xhdr_of is64 b) /\ xhdr_enc is64 (xhdr_of is64 b) = b.
Proof.
  intros L B M. split.
  - unfold xhdr_ok, xhdr_of. destruct is64; cbn [xhdr_size] in L; cbn [xh_nscns xh_timdat xh_symptr xh_nsyms xh_opthdr xh_flags]; unfold xword, u16_ok, u32_ok, u64_ok; repeat split; apply (fbound b); (assumption || lia).
  - unfold xhdr_enc, xw. rewrite <- M. destruct is64; cbn [xhdr_size] in L; cbn [xhdr_of xh_nscns xh_timdat xh_symptr xh_nsyms xh_opthdr xh_flags]; unfold fld; Mach_proofs.pod_join; apply zslice_all; lia.
Qed.
Lemma xhdr_back is64 h : xhdr_ok is64 h -> zlen (xhdr_enc is64 h) = xhdr_size is64 /\ xhdr_of is64 (xhdr_enc is64 h) = h /\ fld Big 0 2 (xhdr_enc is64 h) = if is64 then 503 else 479.
Proof.
  intros (H1 & H2 & H3 & H4 & H5 & H6). fb. unfold xhdr_enc, xhdr_of, xw. destruct is64.
  - split; [rewrite !zlen_app, !zlen_write_u; reflexivity|]. rewrite <- (app_nil_r (write_u Big 4 (xh_nsyms h))). split; fld_norm; [destruct h|]; reflexivity.
  - split; [rewrite !zlen_app, !zlen_write_u; reflexivity|]. rewrite <- (app_nil_r (write_u Big 2 (xh_flags h))). split; fld_norm; [destruct h|]; reflexivity.
Qed.
Lemma xsec_dec is64 b : zlen b = xsec_size is64 -> bytes_ok b -> xsec_ok is64 (xsec_of is64 b) /\ xsec_enc is64 (xsec_of is64 b) = b.
Proof.
  intros L B. split.
  - unfold xsec_ok, xsec_of. destruct is64; cbn [xsec_size] in L; cbn [xs_name xs_paddr xs_vaddr xs_size xs_scnptr xs_relptr xs_lnnoptr xs_nreloc xs_nlnno xs_flags xs_reserve]; unfold xword, u16_ok, u32_ok, u64_ok; (split; [apply zlen_zslice; lia|]); (split; [apply bytes_ok_zslice; exact B|]); repeat split; apply (fbound b); (assumption || lia).
  - unfold xsec_enc, xw. destruct is64; cbn [xsec_size] in L; cbn [xsec_of xs_name xs_paddr xs_vaddr xs_size xs_scnptr xs_relptr xs_lnnoptr xs_nreloc xs_nlnno xs_flags xs_reserve]; unfold fld; Mach_proofs.pod_join; apply zslice_all; lia.
Qed.
Ltac subs := repeat match goal with |- context [fld ?e (?a - ?b) ?n ?l] => let c := eval vm_compute in (a - b) in change (fld e (a - b) n l) with (fld e c n l) end.
Ltac len := rewrite ?zlen_app, ?zlen_write_u, ?zlen_write_i; cbn [xsec_size xrel_size]; lia.
Lemma xsec_back is64 s : xsec_ok is64 s -> zlen (xsec_enc is64 s) = xsec_size is64 /\ xsec_of is64 (xsec_enc is64 s) = s.
Proof.
  intros (H1 & H2 & H3 & H4 & H5 & H6 & H7 & H8 & H9 & H). fb. unfold xsec_enc, xsec_of, xw. destruct is64; destruct H as (Ha & Hb & Hc); (split; [len|]).
  - assert (E : forall r, zslice 0 8 (xs_name s ++ r) = xs_name s) by (intro r; apply (zslice_app_eq 0 8 []); [reflexivity|lia]). rewrite E.
    rewrite !(fld_skip_app _ _ _ 8 (xs_name s)) by lia. subs. rewrite <- (app_nil_r (write_u Big 4 (xs_reserve s))). fld_norm. destruct s; reflexivity.
  - assert (E : forall r, zslice 0 8 (xs_name s ++ r) = xs_name s) by (intro r; apply (zslice_app_eq 0 8 []); [reflexivity|lia]). rewrite E.
    rewrite !(fld_skip_app _ _ _ 8 (xs_name s)) by lia. subs. rewrite <- (app_nil_r (write_u Big 4 (xs_flags s))). fld_norm. destruct s as [? ? ? ? ? ? ? ? ? ? res]. cbn [Xcoff_model.xs_reserve] in Hc. subst res. reflexivity.
Qed.
Lemma zslice_at (a b c : bytes) o n : zlen a = o -> zlen b = n -> zslice o n (a ++ b ++ c) = b.
Proof. intros. apply zslice_app_eq; auto. Qed.
Lemma xsym_dec is64 b : zlen b = 18 -> bytes_ok b -> xsym_ok is64 (xsym_of is64 b) /\ xsym_enc is64 (xsym_of is64 b) = b.
Proof.
  intros L B. assert (Lb : zlen (zslice 12 2 b) = 2) by (apply zlen_zslice; lia). split.
  - unfold xsym_ok, xsym_of. destruct is64; cbn [xy_field xy_value xy_scnum xy_type xy_class xy_naux]; unfold xword, byte_ok, u16_ok, u32_ok, u64_ok; (split; [apply zlen_zslice; lia|]); (split; [apply bytes_ok_zslice; exact B|]);
      (split; [apply (fbound b); (assumption || lia)|]); (split; [apply read_i_bound; [apply bytes_ok_zslice; exact B|exact Lb]|]); (split; [apply (fbound b); (assumption || lia)|]); split; apply (fbound b); (assumption || lia).
  - unfold xsym_enc, xw. destruct is64; cbn [xsym_of xy_field xy_value xy_scnum xy_type xy_class xy_naux]; rewrite (write_read_i _ (bytes_ok_zslice _ _ _ B) Lb); unfold fld; rewrite <- ?app_assoc; Mach_proofs.pod_join; apply zslice_all; lia.
Qed.
Lemma xsym_back is64 y : xsym_ok is64 y -> zlen (xsym_enc is64 y) = 18 /\ xsym_of is64 (xsym_enc is64 y) = y.
Proof.
  intros (H1 & H2 & H3 & H4 & H5 & H6 & H7). fb. unfold xsym_enc, xw, xsym_of. pose proof (zlen_write_i (xy_scnum y)) as LW. destruct is64; rewrite <- ?app_assoc; (split; [len|]).
  - rewrite (zslice_app_eq 8 4 (write_u Big 8 (xy_value y)) (xy_field y)) by (rewrite ?zlen_write_u; (reflexivity || lia)).
    rewrite (app_assoc (write_u Big 8 (xy_value y)) (xy_field y)) at 2. rewrite (zslice_app_eq 12 2 (write_u Big 8 (xy_value y) ++ xy_field y)) by len. rewrite read_write_i by lia.
    fld_norm. rewrite !(fld_skip_app _ _ _ 4 (xy_field y)) by lia. subs. rewrite !(fld_skip_app _ _ _ 2 (write_i Big 2 (xy_scnum y))) by lia. subs. rewrite <- (app_nil_r (write_u Big 1 (xy_naux y))). fld_norm. destruct y; reflexivity.
  - assert (E : forall r, zslice 0 8 (xy_field y ++ r) = xy_field y) by (intro r; apply (zslice_app_eq 0 8 []); [reflexivity|lia]). rewrite E.
    rewrite (app_assoc (xy_field y)) at 2. rewrite (zslice_app_eq 12 2 (xy_field y ++ write_u Big 4 (xy_value y))) by len. rewrite read_write_i by lia.
    rewrite !(fld_skip_app _ _ _ 8 (xy_field y)) by lia. subs. fld_norm. rewrite !(fld_skip_app _ _ _ 2 (write_i Big 2 (xy_scnum y))) by lia. subs. rewrite <- (app_nil_r (write_u Big 1 (xy_naux y))). fld_norm. destruct y; reflexivity.
Qed.
Lemma xrel_dec is64 b : zlen b = xrel_size is64 -> bytes_ok b -> xrel_ok is64 (xrel_of is64 b) /\ xrel_enc is64 (xrel_of is64 b) = b.
Proof.
  intros L B. split.
  - unfold xrel_ok, xrel_of. destruct is64; cbn [xrel_size] in L; cbn [xr_vaddr xr_symndx xr_rsize xr_rtype]; unfold xword, byte_ok, u16_ok, u32_ok, u64_ok; repeat split; apply (fbound b); (assumption || lia).
  - unfold xrel_enc, xw. destruct is64; cbn [xrel_size] in L; cbn [xrel_of xr_vaddr xr_symndx xr_rsize xr_rtype]; unfold fld; Mach_proofs.pod_join; apply zslice_all; lia.
Qed.
Lemma xrel_back is64 r : xrel_ok is64 r -> zlen (xrel_enc is64 r) = xrel_size is64 /\ xrel_of is64 (xrel_enc is64 r) = r.
Proof.
  intros (H1 & H2 & H3 & H4). fb. unfold xrel_enc, xrel_of, xw. destruct is64; (split; [len|]); rewrite <- (app_nil_r (write_u Big 1 (xr_rtype r))); fld_norm; destruct r; reflexivity.
Qed.

(** * Parsing *)
Lemma xc_header_iff is64 F h o : bytes_ok F -> zlen F < 2 ^ 63 -> xc_header is64 F = Ok (h, o) <-> xhdr_ok is64 h /\ holds F 0 (xhdr_enc is64 h) /\ o = hdr_bytes is64.
Proof.
  intros B HF. unfold xc_header. rewrite Ar_proofs.rr_read_eq by (try lia; destruct is64; cbn; lia). destruct (Z.leb_spec (0 + xhdr_size is64) (zlen F)) as [L|L].
  - rewrite Z.add_0_l in *. set (b := zslice 0 (xhdr_size is64) F). assert (Lb : zlen b = xhdr_size is64) by (apply zlen_zslice; destruct is64; cbn [xhdr_size] in *; lia). assert (Bb : bytes_ok b) by (apply bytes_ok_zslice; exact B).
    assert (Hb : holds F 0 b) by (apply holds_iff; rewrite Lb; repeat split; destruct is64; cbn [xhdr_size] in *; lia). split.
    + destruct (Z.eqb_spec (fld Big 0 2 b) (if is64 then 503 else 479)) as [M|]; cbn [negb]; [|discriminate]. intro E. assert (h = xhdr_of is64 b) by congruence. assert (o = xhdr_size is64) by congruence. subst h o.
      destruct (xhdr_dec is64 b Lb Bb M) as (K1 & K2). split; [exact K1|]. split; [rewrite K2; exact Hb|]. destruct is64; reflexivity.
    + intros (H1 & H2 & ->). destruct (xhdr_back is64 h H1) as (K1 & K2 & K3). assert (Eb : b = xhdr_enc is64 h) by (apply holds_slice in H2; rewrite K1 in H2; exact H2). rewrite Eb, K3, Z.eqb_refl. cbn [negb]. rewrite K2. destruct is64; reflexivity.
  - split; [discriminate|]. intros (H1 & H2 & _). apply holds_bounds in H2. destruct (xhdr_back is64 h H1) as (K1 & _). lia.
Qed.
Lemma land_pow2 v k : 0 <= k -> Z.land v (2 ^ k) = if Z.testbit v k then 2 ^ k else 0.
Proof.
  intro Hk. apply Z.bits_inj'. intros n Hn. rewrite Z.land_spec, (Z.pow2_bits_eqb k n) by lia. destruct (Z.eqb_spec k n) as [->|Hne].
  - rewrite andb_true_r. destruct (Z.testbit v n); [rewrite Z.pow2_bits_true by lia; reflexivity|rewrite Z.bits_0; reflexivity].
  - rewrite andb_false_r. destruct (Z.testbit v k); [rewrite Z.pow2_bits_false by lia; reflexivity|rewrite Z.bits_0; reflexivity].
Qed.
Lemma land_any v k : 0 <= k -> (Z.land v (2 ^ k) =? 0) = negb (Z.testbit v k).
Proof. intro H. rewrite land_pow2 by lia. destruct (Z.testbit v k); [|reflexivity]. destruct (Z.eqb_spec (2 ^ k) 0); [lia|reflexivity]. Qed.
Lemma bit1 v : 0 <= v -> Z.land v XF_EXEC =? 0 = negb (Z.testbit v 1).
Proof. intro H. apply (land_any v 1). lia. Qed.
Lemma xc_aux_iff is64 h F a o : zlen F < 2 ^ 63 -> xhdr_ok is64 h -> xc_aux_header is64 h F (hdr_bytes is64) = Ok (a, o) <-> aux_of is64 F h a /\ o = hdr_bytes is64 + xh_opthdr h.
Proof.
  intros HF (H1 & H2 & H3 & H4 & H5 & H6). unfold xc_aux_header, aux_of, wants_aux. unfold u16_ok in *. rewrite bit1 by lia.
  assert (P : padd 64 (hdr_bytes is64) (xh_opthdr h) = Ok (hdr_bytes is64 + xh_opthdr h)). { unfold padd. destruct (Z.ltb_spec (hdr_bytes is64 + xh_opthdr h) (2 ^ 64)); [reflexivity|]. destruct is64; cbn [hdr_bytes] in *; lia. }
  rewrite P. cbn [bind]. destruct (Z.testbit (xh_flags h) 1) eqn:T; cbn [negb].
  2:{ split; [intro E; assert (a = None) by congruence; assert (o = hdr_bytes is64 + xh_opthdr h) by congruence; subst; split; [|reflexivity]; intros (? & ?); discriminate|]. intros (E & ->). destruct a as [a|]; [destruct E as ((E & _) & _); discriminate|reflexivity]. }
  change (xaux_size is64) with (auxhdr_bytes is64). destruct (Z.eqb_spec (xh_opthdr h) (auxhdr_bytes is64)) as [Q|Q]; cbn [negb].
  2:{ split; [intro E; assert (a = None) by congruence; assert (o = hdr_bytes is64 + xh_opthdr h) by congruence; subst; split; [|reflexivity]; intros (? & ?); congruence|]. intros (E & ->). destruct a as [a|]; [destruct E as ((_ & E) & _); congruence|reflexivity]. }
  rewrite Ar_proofs.rr_read_eq by (try lia; destruct is64; cbn; lia). rewrite Q. destruct (Z.leb_spec (hdr_bytes is64 + auxhdr_bytes is64) (zlen F)) as [L|L].
  - assert (LS : zlen (zslice (hdr_bytes is64) (auxhdr_bytes is64) F) = auxhdr_bytes is64) by (apply zlen_zslice; destruct is64; cbn [hdr_bytes auxhdr_bytes] in *; lia). split.
    + intro E. assert (a = Some (zslice (hdr_bytes is64) (auxhdr_bytes is64) F)) by congruence. assert (o = hdr_bytes is64 + auxhdr_bytes is64) by congruence. subst. split; [|reflexivity]. split; [auto|]. split; [exact LS|].
      apply holds_iff. rewrite LS. repeat split; destruct is64; cbn [hdr_bytes auxhdr_bytes] in *; lia.
    + intros (E & ->). destruct a as [a|]; [|exfalso; apply E; auto]. destruct E as (_ & E1 & E2). apply holds_slice in E2. rewrite E1 in E2. rewrite E2. reflexivity.
  - split; [discriminate|]. intros (E & _). destruct a as [a|]; [|exfalso; apply E; auto]. destruct E as (_ & E1 & E2). apply holds_bounds in E2. lia.
Qed.
Lemma xc_sections_iff is64 h F o ss : bytes_ok F -> zlen F < 2 ^ 63 -> 0 <= o -> xhdr_ok is64 h -> xc_sections is64 h F o = Ok ss <->
  zlen ss = xh_nscns h /\ Forall (xsec_ok is64) ss /\ (ss <> [] -> holds F o (concat (map (xsec_enc is64) ss))).
Proof.
  intros B HF Ho H. destruct H as (H1 & _). unfold u16_ok in H1. unfold xc_sections. destruct (Z.eqb_spec (xh_nscns h) 0) as [E|E].
  - rewrite E. split; [intro K; assert (ss = []) by congruence; subst; repeat split; [constructor|congruence]|]. intros (L & _). apply zlen_0_nil in L. subst. reflexivity.
  - rewrite <- (Mach_proofs.array_iff (xsec_of is64) (xsec_enc is64) (xsec_ok is64) F o (xsec_size is64) (xh_nscns h) ss B ltac:(lia) Ho ltac:(destruct is64; reflexivity) ltac:(lia) (xsec_dec is64) (xsec_back is64)).
    unfold rr_read_slice_at. destruct (rr_read_slice F o (xsec_size is64) (xh_nscns h)) as [[x| |] o']; cbn [fst bind]; reflexivity.
Qed.
Lemma read_slice_end F o n k cs o' : zlen F < 2 ^ 63 -> 0 <= o < 2 ^ 64 -> 0 < n -> 0 <= k -> rr_read_slice F o n k = (Ok cs, o') -> o' = o + n * k.
Proof.
  intros HF Ho Hn Hk E. assert (E2 : rr_read_slice_at F o n k = Ok cs) by (unfold rr_read_slice_at; rewrite E; reflexivity). apply Mach_proofs.slice_iff in E2 as (L & A & B); [|lia..].
  destruct cs as [|c cs].
  - change (zlen (@nil bytes)) with 0 in L. subst k. unfold rr_read_slice, cmul in E. cbn [Z.mul] in E. change (0 <? 2 ^ 64) with true in E. cbv iota in E. unfold rr_read_bytes in E. destruct (rr_read_bytes_at F o 0) as [b| |]; try discriminate.
    destruct (slice_from_bytes b n 0) as [[? ?]| |]; try discriminate. assert (o' = wrap_u 64 (o + 0)) by congruence. subst o'. unfold wrap_u. rewrite Z.mod_small by lia. lia.
  - rewrite (CoffR_proofs.read_slice_ok F o (c :: cs) n k (B ltac:(discriminate)) A ltac:(lia) (eq_sym L) HF) in E. assert (o' = o + k * n) by congruence. lia.
Qed.
Lemma xc_symbols_iff is64 h F t : bytes_ok F -> zlen F < 2 ^ 63 -> xhdr_ok is64 h -> xc_symbols is64 h F = Ok t <-> symtab_of is64 F h t.
Proof.
  intros B HF (H1 & H2 & H3 & H4 & H5 & H6). assert (H3' : 0 <= xh_symptr h < 2 ^ 64) by (unfold xword, u32_ok, u64_ok in H3; destruct is64; lia). clear H3. unfold u32_ok in H4.
  unfold xc_symbols, symtab_of. destruct (Z.eqb_spec (xh_symptr h) 0) as [E0|E0].
  - split; [intro E; assert (t = {| xt_64 := is64; xt_entries := []; xt_strings := (None, 0, 0) |}) by congruence; subst t; repeat split|]. intros (K1 & K2 & K3). destruct t as [a b c]. cbn [xt_64 xt_entries xt_strings] in *. subst. reflexivity.
  - assert (W : forall len, 0 <= len < 2 ^ 32 -> fld Big 0 4 (write_u Big 4 len) = len) by (intros len Hl; apply fld_hd1; [reflexivity|exact Hl]). split.
    + destruct (rr_read_slice F (xh_symptr h) 18 (xh_nsyms h)) as [[l| |] o] eqn:E; try discriminate. pose proof (read_slice_end F (xh_symptr h) 18 (xh_nsyms h) _ _ HF H3' ltac:(lia) ltac:(lia) E) as Eo.
      assert (E2 : rr_read_slice_at F (xh_symptr h) 18 (xh_nsyms h) = Ok l) by (unfold rr_read_slice_at; rewrite E; reflexivity). apply Mach_proofs.slice_iff in E2 as (L & A & C); [|lia..].
      destruct (rr_read_at F o 4) as [b| |] eqn:R; cbn [bind]; try discriminate. apply Fkind_proofs.read_at_ok in R as (R1 & R2); [|lia..]. unfold cadd, of_opt. destruct (Z.ltb_spec (o + fld Big 0 4 b) (2 ^ 64)) as [Q|Q]; cbn [bind]; [|discriminate].
      assert (Bb : bytes_ok b). { apply holds_slice in R1. rewrite <- R1. apply bytes_ok_zslice. exact B. }
      intro K. assert (t = {| xt_64 := is64; xt_entries := l; xt_strings := (Some F, o, o + fld Big 0 4 b) |}) by congruence. subst t. cbn [xt_64 xt_entries xt_strings]. repeat split; try assumption.
      exists (fld Big 0 4 b). split; [apply (fbound b); (assumption || lia)|]. cbv zeta. rewrite <- Eo. split; [|reflexivity]. unfold fld. rewrite zslice_all by lia. rewrite (write_read_n Big 4 b Bb) by lia. exact R1.
    + intros (K1 & L & A & C & len & Hl & Ho & Hs). cbv zeta in *. set (o := xh_symptr h + 18 * xh_nsyms h) in *. assert (E2 : rr_read_slice_at F (xh_symptr h) 18 (xh_nsyms h) = Ok (xt_entries t)) by (apply Mach_proofs.slice_iff; auto; lia).
      unfold rr_read_slice_at in E2. destruct (rr_read_slice F (xh_symptr h) 18 (xh_nsyms h)) as [r o'] eqn:E. cbn [fst] in E2. subst r. rewrite (read_slice_end F (xh_symptr h) 18 (xh_nsyms h) _ _ HF H3' ltac:(lia) ltac:(lia) E). fold o.
      assert (R : rr_read_at F o 4 = Ok (write_u Big 4 len)) by (apply Fkind_proofs.read_at_ok; [lia..|]; rewrite zlen_write_u; split; [exact Ho|reflexivity]). rewrite R. cbn [bind]. unfold u32_ok in Hl. rewrite (W len Hl). pose proof (holds_bounds _ _ _ Ho) as HB. rewrite zlen_write_u in HB.
      unfold cadd, of_opt. destruct (Z.ltb_spec (o + len) (2 ^ 64)) as [Q|Q]; [|lia]. cbn [bind]. destruct t as [a b c]. cbn [xt_64 xt_entries xt_strings] in *. subst. reflexivity.
Qed.
Lemma xc_parse_iff is64 F f : bytes_ok F -> zlen F < 2 ^ 63 -> xc_parse is64 F = Ok f <-> xfile_of is64 F f.
Proof.
  intros B HF. unfold xc_parse, xfile_of. cbv zeta. split.
  - intro E. destruct (xc_header is64 F) as [[h o]| |] eqn:E1; cbn [bind] in E; try discriminate. apply xc_header_iff in E1 as (A1 & A2 & ->); [|assumption..].
    destruct (xc_aux_header is64 h F (hdr_bytes is64)) as [[a o]| |] eqn:E2; cbn [bind] in E; try discriminate. apply xc_aux_iff in E2 as (A3 & ->); [|assumption..].
    assert (Ho : 0 <= hdr_bytes is64 + xh_opthdr h) by (destruct A1 as (_ & _ & _ & _ & A & _); unfold u16_ok in A; destruct is64; cbn [hdr_bytes]; lia).
    destruct (xc_sections is64 h F (hdr_bytes is64 + xh_opthdr h)) as [s| |] eqn:E3; cbn [bind] in E; try discriminate. apply xc_sections_iff in E3 as (A4 & A5 & A6); [|assumption..].
    destruct (xc_symbols is64 h F) as [y| |] eqn:E4; cbn [bind] in E; try discriminate. apply xc_symbols_iff in E4; [|assumption..].
    assert (f = {| xf_64 := is64; xf_header := h; xf_aux := a; xf_sections := s; xf_symbols := y; xf_data := F |}) by congruence. subst f. cbn [xf_64 xf_header xf_aux xf_sections xf_symbols xf_data]. auto 12.
  - intros (A0 & A1 & A2 & A3 & A4 & A5 & A6 & A7 & A8). assert (Ho : 0 <= hdr_bytes is64 + xh_opthdr (xf_header f)) by (destruct A2 as (_ & _ & _ & _ & A & _); unfold u16_ok in A; destruct is64; cbn [hdr_bytes]; lia).
    rewrite (proj2 (xc_header_iff is64 F (xf_header f) (hdr_bytes is64) B HF)) by auto. cbn [bind]. rewrite (proj2 (xc_aux_iff is64 (xf_header f) F (xf_aux f) _ HF A2)) by (split; [exact A4|reflexivity]). cbn [bind].
    rewrite (proj2 (xc_sections_iff is64 (xf_header f) F _ (xf_sections f) B HF Ho A2)) by auto. cbn [bind]. rewrite (proj2 (xc_symbols_iff is64 (xf_header f) F (xf_symbols f) B HF A2)) by exact A8. cbn [bind]. destruct f as [x1 x2 x3 x4 x5 x6]. cbn [xf_64 xf_header xf_aux xf_sections xf_symbols xf_data] in *. subst. reflexivity.
Qed.
Lemma xc_parse_np is64 F : bytes_ok F -> zlen F < 2 ^ 63 -> xc_parse is64 F <> Panic.
Proof.
  intros B HF E. unfold xc_parse in E. destruct (xc_header is64 F) as [[h o]| |] eqn:E1; cbn [bind] in E; try discriminate.
  2:{ unfold xc_header in E1. pose proof (rr_read_no_panic F 0 (xhdr_size is64)) as P. destruct (rr_read F 0 (xhdr_size is64)) as [[b| |] o]; cbn [fst] in P; try congruence. destruct (negb _) in E1; discriminate. }
  apply xc_header_iff in E1 as (A1 & A2 & ->); [|assumption..].
  assert (O : 0 <= xh_opthdr h < 2 ^ 16) by (destruct A1 as (_ & _ & _ & _ & A & _); exact A).
  destruct (xc_aux_header is64 h F (hdr_bytes is64)) as [[a o]| |] eqn:E2; cbn [bind] in E; try discriminate.
  2:{ unfold xc_aux_header in E2. assert (P : padd 64 (hdr_bytes is64) (xh_opthdr h) = Ok (hdr_bytes is64 + xh_opthdr h)). { unfold padd. destruct (Z.ltb_spec (hdr_bytes is64 + xh_opthdr h) (2 ^ 64)); [reflexivity|]. destruct is64; cbn [hdr_bytes] in *; lia. }
      rewrite P in E2. cbn [bind] in E2. destruct (_ =? 0) in E2; [discriminate|]. destruct (negb _) in E2; [discriminate|]. pose proof (rr_read_no_panic F (hdr_bytes is64) (xaux_size is64)) as Q. destruct (rr_read F (hdr_bytes is64) (xaux_size is64)) as [[b| |] o']; cbn [fst] in Q; congruence. }
  destruct (xc_sections is64 h F o) as [s| |] eqn:E3; cbn [bind] in E; try discriminate.
  2:{ unfold xc_sections in E3. destruct (_ =? 0) in E3; [discriminate|]. pose proof (rr_read_slice_no_panic F o (xsec_size is64) (xh_nscns h)) as Q. destruct (rr_read_slice F o (xsec_size is64) (xh_nscns h)) as [[b| |] o']; cbn [fst] in Q; congruence. }
  destruct (xc_symbols is64 h F) as [y| |] eqn:E4; cbn [bind] in E; try discriminate.
  unfold xc_symbols in E4. destruct (_ =? 0) in E4; [discriminate|]. pose proof (rr_read_slice_no_panic F (xh_symptr h) 18 (xh_nsyms h)) as Q. destruct (rr_read_slice F (xh_symptr h) 18 (xh_nsyms h)) as [[b| |] o']; cbn [fst] in Q; try congruence.
  pose proof (rr_read_at_no_panic F o' 4) as P. destruct (rr_read_at F o' 4) as [z| |]; cbn [bind] in E4; try congruence. unfold of_opt in E4. destruct (cadd 64 o' (fld Big 0 4 z)); cbn [bind] in E4; discriminate.
Qed.
