(** Dyld shared caches: files, addresses and slide information. *)
From Coq Require Import String.
From Verif Require Import Core_proofs Util_proofs File_proofs Hash_proofs Pod_proofs Iter_proofs Rel_proofs Mach_proofs.
From Verif Require Import Fix_proofs.
From Verif Require Fkind_proofs FixS_proofs Ar_proofs.
From Verif Require Import Fkind_spec.
From Verif Require Import Shc_spec Shc_proofs ShcR_proofs ShcS_proofs.

(** * Structures *)
Ltac fb e b := repeat match goal with
  | |- u32_ok (fld e ?o 4 b) => apply (fld_bound e o 4); [assumption|lia|lia]
  | |- u64_ok (fld e ?o 8 b) => apply (fld_bound e o 8); [assumption|lia|lia]
  | |- _ = _ => reflexivity
  | |- _ /\ _ => split
  end.
Lemma smap1_dec e b : zlen b = 32 -> bytes_ok b -> smap_ok false (smap1_of e b) /\ smap_enc e (smap1_of e b) = b.
Proof.
  intros L B. split.
  - unfold smap_ok, smap1_of. cbn [sm_address sm_size sm_offset sm_slide sm_flags sm_max sm_init]. fb e b.
  - unfold smap_enc, smap1_of. cbn [sm_address sm_size sm_offset sm_slide sm_flags sm_max sm_init app]. unfold fld. pod_join. apply zslice_all. lia.
Qed.
Lemma smap1_enc e m : smap_ok false m -> zlen (smap_enc e m) = 32 /\ smap1_of e (smap_enc e m) = m.
Proof.
  intros (H1 & H2 & H3 & H4 & H5 & H6). unfold smap_enc, smap1_of. destruct m as [a s o [(x & y)|] f mx ini]; cbn [sm_address sm_size sm_offset sm_slide sm_flags sm_max sm_init app] in *; [destruct H6; discriminate|]. destruct H6 as (_ & ->).
  unfold u64_ok, u32_ok in *. split; [rewrite !zlen_app, !zlen_write_u; reflexivity|]. fld_norm. reflexivity.
Qed.
Lemma smap2_dec e b : zlen b = 56 -> bytes_ok b -> smap_ok true (smap2_of e b) /\ smap_enc e (smap2_of e b) = b.
Proof.
  intros L B. split.
  - unfold smap_ok, smap2_of. cbn [sm_address sm_size sm_offset sm_slide sm_flags sm_max sm_init]. fb e b.
  - unfold smap_enc, smap2_of. cbn [sm_address sm_size sm_offset sm_slide sm_flags sm_max sm_init app]. unfold fld. rewrite <- !app_assoc. pod_join. apply zslice_all. lia.
Qed.
Lemma smap2_enc e m : smap_ok true m -> zlen (smap_enc e m) = 56 /\ smap2_of e (smap_enc e m) = m.
Proof.
  intros (H1 & H2 & H3 & H4 & H5 & H6). unfold smap_enc, smap2_of. destruct m as [a s o [(x & y)|] f mx ini]; cbn [sm_address sm_size sm_offset sm_slide sm_flags sm_max sm_init app] in *; [|destruct H6; discriminate]. destruct H6 as (_ & H6 & H7 & H8).
  unfold u64_ok, u32_ok in *. split; [rewrite !zlen_app, !zlen_write_u; reflexivity|]. fld_norm. reflexivity.
Qed.
Lemma simage_dec e b : zlen b = 32 -> bytes_ok b -> simage_ok (simage_of e b) /\ simage_enc e (simage_of e b) = b.
Proof.
  intros L B. split.
  - unfold simage_ok, simage_of. cbn [si_address si_mod_time si_inode si_path si_pad]. fb e b.
  - unfold simage_enc, simage_of. cbn [si_address si_mod_time si_inode si_path si_pad]. unfold fld. pod_join. apply zslice_all. lia.
Qed.
Lemma simage_enc_dec e m : simage_ok m -> zlen (simage_enc e m) = 32 /\ simage_of e (simage_enc e m) = m.
Proof.
  intros (H1 & H2 & H3 & H4 & H5). unfold simage_enc, simage_of. destruct m as [a s o p q]; cbn [si_address si_mod_time si_inode si_path si_pad] in *.
  unfold u64_ok, u32_ok in *. split; [rewrite !zlen_app, !zlen_write_u; reflexivity|]. fld_norm. reflexivity.
Qed.
Lemma ssub1_dec e b : zlen b = 24 -> bytes_ok b -> ssub_ok false (ssub1_of e b) /\ ssub_enc e (ssub1_of e b) = b.
Proof.
  intros L B. split.
  - unfold ssub_ok, ssub1_of. cbn [su_uuid su_vm su_suffix]. split; [apply zlen_zslice; lia|]. split; [apply bytes_ok_zslice; exact B|]. fb e b.
  - unfold ssub_enc, ssub1_of. cbn [su_uuid su_vm su_suffix]. rewrite app_nil_r. unfold fld. pod_join. apply zslice_all. lia.
Qed.
Lemma ssub1_enc e m : ssub_ok false m -> zlen (ssub_enc e m) = 24 /\ ssub1_of e (ssub_enc e m) = m.
Proof.
  intros (H1 & H2 & H3 & H4). unfold ssub_enc, ssub1_of. destruct m as [u v [x|]]; cbn [su_uuid su_vm su_suffix] in *; [destruct H4; discriminate|].
  unfold u64_ok in *. rewrite app_nil_r. split; [rewrite zlen_app, zlen_write_u, H1; reflexivity|]. f_equal.
  - rewrite zslice_app1 by lia. apply zslice_all. symmetry. exact H1.
  - rewrite (fld_skip_app _ _ _ 16) by lia. apply fld_hd1; [reflexivity|exact H3].
Qed.
Lemma ssub2_dec e b : zlen b = 56 -> bytes_ok b -> ssub_ok true (ssub2_of e b) /\ ssub_enc e (ssub2_of e b) = b.
Proof.
  intros L B. split.
  - unfold ssub_ok, ssub2_of. cbn [su_uuid su_vm su_suffix]. split; [apply zlen_zslice; lia|]. split; [apply bytes_ok_zslice; exact B|]. split; [fb e b|]. split; [reflexivity|]. split; [apply zlen_zslice; lia|apply bytes_ok_zslice; exact B].
  - unfold ssub_enc, ssub2_of. cbn [su_uuid su_vm su_suffix]. unfold fld. pod_join. apply zslice_all. lia.
Qed.
Lemma ssub2_enc e m : ssub_ok true m -> zlen (ssub_enc e m) = 56 /\ ssub2_of e (ssub_enc e m) = m.
Proof.
  intros (H1 & H2 & H3 & H4). unfold ssub_enc, ssub2_of. destruct m as [u v [x|]]; cbn [su_uuid su_vm su_suffix] in *; [|discriminate]. destruct H4 as (_ & H4 & H5).
  unfold u64_ok in *. split; [rewrite !zlen_app, zlen_write_u, H1, H4; reflexivity|]. f_equal.
  - rewrite zslice_app1 by lia. apply zslice_all. symmetry. exact H1.
  - rewrite (fld_skip_app _ _ _ 16) by lia. apply fld_hd; [reflexivity|exact H3].
  - f_equal. rewrite zslice_app2 by lia. rewrite zslice_app2 by (rewrite zlen_write_u; lia). rewrite zlen_write_u, H1. apply zslice_all. symmetry. exact H4.
Qed.

(** * The header *)
Definition file_ok (F : bytes) : Prop := bytes_ok F /\ zlen F < 2 ^ 63.
Lemma header_iff F h : zlen F < 2 ^ 63 -> shc_header F = Ok h <-> 552 <= zlen F /\ h = ztake 552 F.
Proof.
  intro L. unfold shc_header. rewrite Fkind_proofs.read_at_ok by lia. split.
  - intros (H & Lh). pose proof (holds_bounds _ _ _ H). split; [lia|]. apply holds_slice in H. rewrite Lh in H. rewrite <- H. reflexivity.
  - intros (H & ->). split; [|apply zlen_ztake; lia]. apply holds_iff. rewrite zlen_ztake by lia. split; [lia|]. split; [lia|reflexivity].
Qed.
Lemma header_np F : shc_header F <> Panic.
Proof. apply rr_read_at_no_panic. Qed.
Lemma zslice_ztake {A} (F : list A) o n m : 0 <= o -> 0 <= n -> o + n <= m -> m <= zlen F -> zslice o n (ztake m F) = zslice o n F.
Proof. intros. rewrite <- (ztake_zdrop m F) at 2. rewrite zslice_app1 by (rewrite ?zlen_ztake by lia; lia). reflexivity. Qed.
Lemma hdr_field e F o k n v : bytes_ok F -> 552 <= zlen F -> 0 <= o -> k = Z.of_nat n -> o + k <= 552 -> fld e o k (ztake 552 F) = v <-> u_at e F o n v.
Proof. intros B L Ho -> Hk. unfold fld. rewrite zslice_ztake by lia. rewrite (u_at_iff e F o n _ v B eq_refl). split; [intros <-; split; [lia|]; split; [lia|reflexivity]|tauto]. Qed.
Lemma hdr_field_at e F o k n : bytes_ok F -> 552 <= zlen F -> 0 <= o -> k = Z.of_nat n -> o + k <= 552 -> u_at e F o n (fld e o k (ztake 552 F)).
Proof. intros. apply (hdr_field e F o k n); auto. Qed.
Lemma hdr_bytes F o n b : 552 <= zlen F -> 0 <= o -> 0 <= n -> o + n <= 552 -> zlen b = n -> bytes_eqb (zslice o n (ztake 552 F)) b = true <-> holds F o b.
Proof. intros L Ho Hn Hk Hb. rewrite zslice_ztake, bytes_eqb_eq, holds_iff, Hb by lia. split; [intros ->; split; [lia|]; split; [lia|reflexivity]|intros (_ & _ & ->); reflexivity]. Qed.
Lemma u32_nonneg e F o v : u_at e F o 4 v -> 0 <= v < 2 ^ 32.
Proof. intros (H & _). exact H. Qed.
Lemma table_iff {A} (dec : bytes -> A) (enc : A -> bytes) (ok : A -> Prop) F o n k xs :
  file_ok F -> 0 <= o -> 0 < n -> 0 <= k ->
  (forall b, zlen b = n -> bytes_ok b -> ok (dec b) /\ enc (dec b) = b) -> (forall x, ok x -> zlen (enc x) = n /\ dec (enc x) = x) ->
  (l <- rr_read_slice_at F o n k ;; Ok (map dec l)) = Ok xs <-> table F o k ok enc xs.
Proof. intros (B & L) Ho Hn Hk HD HE. unfold table. apply array_iff; try assumption. lia. Qed.
Section Header.
Context (e : endian) (F : bytes) (HF : file_ok F) (HL : 552 <= zlen F).
Notation h := (ztake 552 F).
Lemma f16 : u_at e F 16 4 (fld e 16 4 h).
Proof. destruct HF. apply hdr_field_at; auto; lia. Qed.
Ltac at_field o := let U := fresh "U" in assert (U : u_at e F o 4 (fld e o 4 h)) by (destruct HF; apply hdr_field_at; auto; lia); pose proof (u32_nonneg _ _ _ _ U).
Lemma mappings_iff l : shc_mappings e h F = Ok l <-> mappings_at e F l.
Proof.
  unfold shc_mappings, mappings_at. at_field 16. at_field 20. at_field 312. at_field 316. destruct (Z.leb_spec 0x140 (fld e 16 4 h)).
  - rewrite (table_iff (smap2_of e) (smap_enc e) (smap_ok true)); [|exact HF|lia|lia|lia|apply smap2_dec|apply smap2_enc]. split.
    + intro T. exists (fld e 16 4 h), (fld e 312 4 h), (fld e 316 4 h). split; [assumption|]. left. auto.
    + intros (x & o & n & Ux & [(Hx & Uo & Un & T)|(Hx & -> & Un & T)]).
      * rewrite (u_at_fun _ _ _ _ _ _ U1 Uo), (u_at_fun _ _ _ _ _ _ U2 Un). exact T.
      * rewrite (u_at_fun _ _ _ _ _ _ U Ux) in *. lia.
  - rewrite (table_iff (smap1_of e) (smap_enc e) (smap_ok false)); [|exact HF|lia|lia|lia|apply smap1_dec|apply smap1_enc]. split.
    + intro T. exists (fld e 16 4 h), (fld e 16 4 h), (fld e 20 4 h). split; [assumption|]. right. auto.
    + intros (x & o & n & Ux & [(Hx & Uo & Un & T)|(Hx & -> & Un & T)]).
      * rewrite (u_at_fun _ _ _ _ _ _ U Ux) in *. lia.
      * rewrite (u_at_fun _ _ _ _ _ _ U Ux), (u_at_fun _ _ _ _ _ _ U0 Un). exact T.
Qed.
Lemma bind_some {A B} (f : A -> B) (m : out (list bytes)) (g : bytes -> A) x : (l <- m ;; Ok (Some (map g l))) = Ok x <-> exists y, x = Some y /\ (l <- m ;; Ok (map g l)) = Ok y.
Proof. destruct m; cbn [bind]; (split; [intro E; try discriminate|intros (y & -> & E); try discriminate]). - injection E as <-. eexists. split; reflexivity. - injection E as <-. reflexivity. Qed.
Lemma subcaches_iff x : shc_subcaches e h F = Ok x <-> subcaches_at e F x.
Proof.
  unfold shc_subcaches, subcaches_at. at_field 16. at_field 392. at_field 396. destruct (Z.leb_spec 0x1d0 (fld e 16 4 h)) as [G|G]; [|destruct (Z.leb_spec 0x1c8 (fld e 16 4 h)) as [G1|G1]].
  - rewrite (bind_some (B := unit) (fun _ => tt)). split.
    + intros (y & -> & E). apply (table_iff (ssub2_of e) (ssub_enc e) (ssub_ok true)) in E; [|exact HF|lia|lia|lia|apply ssub2_dec|apply ssub2_enc]. exists (fld e 16 4 h). split; [exact U|]. split; [lia|].
      exists (fld e 392 4 h), (fld e 396 4 h). destruct (Z.leb_spec 0x1d0 (fld e 16 4 h)); [auto|lia].
    + intros (v & Uv & E). rewrite <- (u_at_fun _ _ _ _ _ _ U Uv) in *. destruct x as [y|]; [|lia]. destruct E as (_ & o & n & Uo & Un & T). exists y. split; [reflexivity|].
      apply (table_iff (ssub2_of e) (ssub_enc e) (ssub_ok true)); [exact HF|lia|lia|lia|apply ssub2_dec|apply ssub2_enc|]. rewrite (u_at_fun _ _ _ _ _ _ U0 Uo), (u_at_fun _ _ _ _ _ _ U1 Un).
      destruct (Z.leb_spec 0x1d0 (fld e 16 4 h)); [exact T|lia].
  - rewrite (bind_some (B := unit) (fun _ => tt)). split.
    + intros (y & -> & E). apply (table_iff (ssub1_of e) (ssub_enc e) (ssub_ok false)) in E; [|exact HF|lia|lia|lia|apply ssub1_dec|apply ssub1_enc]. exists (fld e 16 4 h). split; [exact U|]. split; [lia|].
      exists (fld e 392 4 h), (fld e 396 4 h). destruct (Z.leb_spec 0x1d0 (fld e 16 4 h)); [lia|auto].
    + intros (v & Uv & E). rewrite <- (u_at_fun _ _ _ _ _ _ U Uv) in *. destruct x as [y|]; [|lia]. destruct E as (_ & o & n & Uo & Un & T). exists y. split; [reflexivity|].
      apply (table_iff (ssub1_of e) (ssub_enc e) (ssub_ok false)); [exact HF|lia|lia|lia|apply ssub1_dec|apply ssub1_enc|]. rewrite (u_at_fun _ _ _ _ _ _ U0 Uo), (u_at_fun _ _ _ _ _ _ U1 Un).
      destruct (Z.leb_spec 0x1d0 (fld e 16 4 h)); [lia|exact T].
  - split.
    + intros [= <-]. exists (fld e 16 4 h). split; [exact U|lia].
    + intros (v & Uv & E). rewrite <- (u_at_fun _ _ _ _ _ _ U Uv) in *. destruct x as [y|]; [|reflexivity]. destruct E as (G2 & _). lia.
Qed.
Lemma symbols_iff u : shc_symbols_uuid e h = u <-> symbols_at e F u.
Proof.
  unfold shc_symbols_uuid, symbols_at. at_field 16. assert (Lz : zlen (zslice 400 16 h) = 16) by (rewrite zslice_ztake by lia; apply zlen_zslice; lia).
  assert (Hh : holds F 400 (zslice 400 16 h)) by (apply (hdr_bytes F 400 16); [lia..|exact Lz|apply bytes_eqb_eq; reflexivity]).
  destruct (Z.leb_spec 0x1c8 (fld e 16 4 h)) as [G|G].
  - destruct (bytes_eqb (zslice 400 16 h) (zeros 16)) eqn:E.
    + apply bytes_eqb_eq in E. rewrite E in Hh. split.
      * intros <-. exists (fld e 16 4 h). split; [exact U|]. right. exact Hh.
      * intros (v & Uv & Q). destruct u as [u|]; [|reflexivity]. destruct Q as (_ & Lu & Hu & N). destruct N. apply holds_slice in Hu. apply holds_slice in Hh. rewrite Lu in Hu. change (zlen (zeros 16)) with 16 in Hh. congruence.
    + assert (N : zslice 400 16 h <> zeros 16) by (intro Q; rewrite Q in E; assert (bytes_eqb (zeros 16) (zeros 16) = true) by (apply bytes_eqb_eq; reflexivity); congruence). split.
      * intros <-. exists (fld e 16 4 h). split; [exact U|]. auto.
      * intros (v & Uv & Q). rewrite <- (u_at_fun _ _ _ _ _ _ U Uv) in *. destruct u as [u|].
        -- destruct Q as (_ & Lu & Hu & _). f_equal. apply holds_slice in Hu. apply holds_slice in Hh. rewrite Lu in Hu. rewrite Lz in Hh. congruence.
        -- destruct Q as [Q|Q]; [lia|]. destruct N. apply holds_slice in Q. apply holds_slice in Hh. rewrite Lz in Hh. change (zlen (zeros 16)) with 16 in Q. congruence.
  - split.
    + intros <-. exists (fld e 16 4 h). split; [exact U|]. left. exact G.
    + intros (v & Uv & Q). rewrite <- (u_at_fun _ _ _ _ _ _ U Uv) in *. destruct u as [u|]; [destruct Q; lia|reflexivity].
Qed.
Lemma images_iff l : shc_images e h F = Ok l <-> images_at e F l.
Proof.
  unfold shc_images, images_at. at_field 16. at_field 24. at_field 28. at_field 448. at_field 452. destruct (Z.leb_spec 0x1c8 (fld e 16 4 h)) as [G|G].
  - rewrite (table_iff (simage_of e) (simage_enc e) simage_ok); [|exact HF|lia|lia|lia|apply simage_dec|apply simage_enc_dec]. split.
    + intro T. exists (fld e 16 4 h), (fld e 448 4 h), (fld e 452 4 h). destruct (Z.ltb_spec (fld e 16 4 h) 0x1c8); [lia|auto].
    + intros (x & o & n & Ux & Uo & Un & T). rewrite <- (u_at_fun _ _ _ _ _ _ U Ux) in *. destruct (Z.ltb_spec (fld e 16 4 h) 0x1c8); [lia|]. rewrite (u_at_fun _ _ _ _ _ _ U2 Uo), (u_at_fun _ _ _ _ _ _ U3 Un). exact T.
  - rewrite (table_iff (simage_of e) (simage_enc e) simage_ok); [|exact HF|lia|lia|lia|apply simage_dec|apply simage_enc_dec]. split.
    + intro T. exists (fld e 16 4 h), (fld e 24 4 h), (fld e 28 4 h). destruct (Z.ltb_spec (fld e 16 4 h) 0x1c8); [auto|lia].
    + intros (x & o & n & Ux & Uo & Un & T). rewrite <- (u_at_fun _ _ _ _ _ _ U Ux) in *. destruct (Z.ltb_spec (fld e 16 4 h) 0x1c8); [|lia]. rewrite (u_at_fun _ _ _ _ _ _ U0 Uo), (u_at_fun _ _ _ _ _ _ U1 Un). exact T.
Qed.
End Header.
Lemma mappings_np e h F : shc_mappings e h F <> Panic.
Proof. unfold shc_mappings. destruct (_ <=? _); apply array_no_panic. Qed.
Lemma images_np e h F : shc_images e h F <> Panic.
Proof. unfold shc_images. destruct (_ <=? _); apply array_no_panic. Qed.
Lemma subcaches_np e h F : shc_subcaches e h F <> Panic.
Proof.
  unfold shc_subcaches. destruct (_ <=? _); [|destruct (_ <=? _); [|discriminate]].
  - pose proof (array_no_panic (ssub2_of e) F (fld e 392 4 h) 56 (fld e 396 4 h)). destruct (rr_read_slice_at _ _ _ _); cbn [bind] in *; congruence.
  - pose proof (array_no_panic (ssub1_of e) F (fld e 392 4 h) 24 (fld e 396 4 h)). destruct (rr_read_slice_at _ _ _ _); cbn [bind] in *; congruence.
Qed.
(** the magic *)
Lemma arch_iff name a e : shc_arch name = Some (a, e) <-> exists n, In (n, (a, e)) magics /\ name = chars n.
Proof.
  split.
  - unfold shc_arch.
    destruct (bytes_eqb name [32; 32; 32; 32; 105; 51; 56; 54]) eqn:Q0; [apply bytes_eqb_eq in Q0; intro HH; inversion HH; subst; exists "    i386"%string; split; [unfold magics; cbn [In]; repeat (first [left; reflexivity|right])|reflexivity]|].
    destruct (bytes_eqb name [32; 32; 120; 56; 54; 95; 54; 52]) eqn:Q1; [apply bytes_eqb_eq in Q1; intro HH; inversion HH; subst; exists "  x86_64"%string; split; [unfold magics; cbn [In]; repeat (first [left; reflexivity|right])|reflexivity]|].
    destruct (bytes_eqb name [32; 120; 56; 54; 95; 54; 52; 104]) eqn:Q2; [apply bytes_eqb_eq in Q2; intro HH; inversion HH; subst; exists " x86_64h"%string; split; [unfold magics; cbn [In]; repeat (first [left; reflexivity|right])|reflexivity]|].
    destruct (bytes_eqb name [32; 32; 32; 32; 32; 112; 112; 99]) eqn:Q3; [apply bytes_eqb_eq in Q3; intro HH; inversion HH; subst; exists "     ppc"%string; split; [unfold magics; cbn [In]; repeat (first [left; reflexivity|right])|reflexivity]|].
    destruct (bytes_eqb name [32; 32; 32; 97; 114; 109; 118; 54]) eqn:Q4; [apply bytes_eqb_eq in Q4; intro HH; inversion HH; subst; exists "   armv6"%string; split; [unfold magics; cbn [In]; repeat (first [left; reflexivity|right])|reflexivity]|].
    destruct (bytes_eqb name [32; 32; 32; 97; 114; 109; 118; 55]) eqn:Q5; [apply bytes_eqb_eq in Q5; intro HH; inversion HH; subst; exists "   armv7"%string; split; [unfold magics; cbn [In]; repeat (first [left; reflexivity|right])|reflexivity]|].
    destruct (bytes_eqb name [32; 32; 97; 114; 109; 118; 55; 102]) eqn:Q6; [apply bytes_eqb_eq in Q6; intro HH; inversion HH; subst; exists "  armv7f"%string; split; [unfold magics; cbn [In]; repeat (first [left; reflexivity|right])|reflexivity]|].
    destruct (bytes_eqb name [32; 32; 97; 114; 109; 118; 55; 115]) eqn:Q7; [apply bytes_eqb_eq in Q7; intro HH; inversion HH; subst; exists "  armv7s"%string; split; [unfold magics; cbn [In]; repeat (first [left; reflexivity|right])|reflexivity]|].
    destruct (bytes_eqb name [32; 32; 97; 114; 109; 118; 55; 107]) eqn:Q8; [apply bytes_eqb_eq in Q8; intro HH; inversion HH; subst; exists "  armv7k"%string; split; [unfold magics; cbn [In]; repeat (first [left; reflexivity|right])|reflexivity]|].
    destruct (bytes_eqb name [32; 32; 32; 97; 114; 109; 54; 52]) eqn:Q9; [apply bytes_eqb_eq in Q9; intro HH; inversion HH; subst; exists "   arm64"%string; split; [unfold magics; cbn [In]; repeat (first [left; reflexivity|right])|reflexivity]|].
    destruct (bytes_eqb name [32; 32; 97; 114; 109; 54; 52; 101]) eqn:Q10; [apply bytes_eqb_eq in Q10; intro HH; inversion HH; subst; exists "  arm64e"%string; split; [unfold magics; cbn [In]; repeat (first [left; reflexivity|right])|reflexivity]|].
    intro HH. discriminate HH.
  - intros (n & Hin & ->). unfold magics in Hin. cbn [In] in Hin. repeat (destruct Hin as [[= <- <- <-]|Hin]; [vm_compute; reflexivity|]). destruct Hin.
Qed.
Lemma arch_len n a e : In (n, (a, e)) magics -> zlen (chars n) = 8.
Proof. intro Hin. unfold magics in Hin. cbn [In] in Hin. repeat (destruct Hin as [[= <- <- <-]|Hin]; [vm_compute; reflexivity|]). destruct Hin. Qed.
Lemma magic_iff F a e : 552 <= zlen F -> shc_magic (ztake 552 F) = Ok (a, e) <-> magic_at F a e.
Proof.
  intro L. unfold shc_magic, magic_at. change [100; 121; 108; 100; 95; 118; 49] with (chars "dyld_v1"%string). set (p := chars "dyld_v1"%string). assert (Lp : zlen p = 7) by reflexivity. clearbody p.
  assert (Sp : forall n, zlen n = 8 -> holds F 0 (p ++ n ++ [0]) <-> holds F 0 p /\ holds F 7 n /\ holds F 15 [0]).
  { intros n Ln. rewrite !holds_app, Lp, Ln. cbn [Z.add]. tauto. }
  assert (Hm : zslice 7 8 (ztake 552 F) = zslice 7 8 F) by (apply zslice_ztake; lia).
  split.
  - destruct (bytes_eqb (zslice 0 7 (ztake 552 F)) p) eqn:E1; cbn [andb]; [|discriminate]. destruct (bytes_eqb (zslice 15 1 (ztake 552 F)) [0]) eqn:E2; [|discriminate].
    apply (hdr_bytes F 0 7) in E1; [|lia..]. apply (hdr_bytes F 15 1) in E2; [|lia..|reflexivity]. destruct (shc_arch _) as [(a' & e')|] eqn:E3; [|discriminate]. intros [= -> ->]. apply arch_iff in E3 as (n & Hin & E3).
    exists n. split; [exact Hin|]. pose proof (arch_len _ _ _ Hin) as Ln. apply Sp; [exact Ln|]. split; [exact E1|]. split; [|exact E2]. rewrite <- E3, Hm. apply Ar_proofs.holds_zslice; lia.
  - intros (n & Hin & H). pose proof (arch_len _ _ _ Hin) as Ln. apply Sp in H as (H1 & H2 & H3); [|exact Ln].
    rewrite (proj2 (hdr_bytes F 0 7 p L ltac:(lia) ltac:(lia) ltac:(lia) Lp) H1), (proj2 (hdr_bytes F 15 1 [0] L ltac:(lia) ltac:(lia) ltac:(lia) eq_refl) H3). cbn [andb].
    rewrite Hm. apply holds_slice in H2. rewrite Ln in H2. rewrite H2. rewrite (proj2 (arch_iff (chars n) a e)) by (exists n; auto). reflexivity.
Qed.
Lemma magic_np h : shc_magic h <> Panic.
Proof. unfold shc_magic. destruct (_ && _); [|discriminate]. destruct (shc_arch _); discriminate. Qed.
