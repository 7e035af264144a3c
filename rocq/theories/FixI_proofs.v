(** Chained fixups: header, imports and segments. *)
From Verif Require Import Core_proofs Util_proofs File_proofs Iter_proofs Rel_proofs Hash_proofs Pod_proofs.
From Verif Require ElfR_proofs PeI_proofs Mach_proofs ArSym_proofs Elf_proofs Ar_spec.
From Verif Require Import Fix_spec Fix_proofs FixC_proofs.

(** * Header *)
Lemma cheader_len e h : zlen (cheader_enc e h) = 28.
Proof. unfold cheader_enc. rewrite !zlen_app, !zlen_write_u. reflexivity. Qed.
Definition cheader_of (e : endian) (b : bytes) : cheader :=
  {| ch_starts := fld e 4 4 b; ch_imports := fld e 8 4 b; ch_symbols := fld e 12 4 b; ch_count := fld e 16 4 b; ch_format := fld e 20 4 b; ch_compression := fld e 24 4 b |}.
Lemma cheader_dec e b : zlen b = 28 -> bytes_ok b -> fld e 0 4 b = 0 -> cheader_ok (cheader_of e b) /\ cheader_enc e (cheader_of e b) = b.
Proof.
  intros L B M. split.
  - unfold cheader_ok, cheader_of. cbn [ch_starts ch_imports ch_symbols ch_count ch_format ch_compression]. unfold u32_ok.
    assert (Q : forall o, 0 <= o <= 24 -> 0 <= fld e o 4 b < 2 ^ 32).
    { intros o Ho. unfold fld. pose proof (read_u_bound e (zslice o 4 b) (bytes_ok_zslice _ _ _ B)) as K. rewrite zlen_zslice in K by lia. exact K. }
    repeat split; apply Q; lia.
  - unfold cheader_enc, cheader_of. cbn [ch_starts ch_imports ch_symbols ch_count ch_format ch_compression]. rewrite <- M at 1. unfold fld. Mach_proofs.pod_join. apply zslice_all. lia.
Qed.
Lemma cheader_fields e h : cheader_ok h -> fld e 0 4 (cheader_enc e h) = 0 /\ cheader_of e (cheader_enc e h) = h.
Proof.
  intros (H1 & H2 & H3 & H4 & H5 & H6). unfold u32_ok in *.
  assert (A : forall o n v w pre post, n = 4%nat -> o = zlen pre -> 0 <= v < 2 ^ 32 -> w = pre ++ write_u e n v ++ post -> fld e o 4 w = v) by (intros o n v w pre post -> -> Hv ->; apply (fld_app e pre v 4 post (zlen pre) eq_refl); exact Hv).
  unfold cheader_of, cheader_enc. 
  set (b := write_u e 4 0 ++ _).
  assert (F0 : fld e 0 4 b = 0) by (apply (A 0 4%nat 0 b [] (zdrop 4 b)); [reflexivity|reflexivity|lia|]; unfold b; rewrite zdrop_app_eq by (rewrite zlen_write_u; reflexivity); reflexivity).
  split; [exact F0|].
  assert (P : forall (f : cheader -> Z) pre post o, b = pre ++ write_u e 4 (f h) ++ post -> zlen pre = o -> 0 <= f h < 2 ^ 32 -> fld e o 4 b = f h) by (intros f pre post o E L Hf; apply (A o 4%nat (f h) b pre post); auto).
  rewrite (P ch_starts (write_u e 4 0) (write_u e 4 (ch_imports h) ++ write_u e 4 (ch_symbols h) ++ write_u e 4 (ch_count h) ++ write_u e 4 (ch_format h) ++ write_u e 4 (ch_compression h)) 4); [|reflexivity|rewrite zlen_write_u; reflexivity|assumption].
  rewrite (P ch_imports (write_u e 4 0 ++ write_u e 4 (ch_starts h)) (write_u e 4 (ch_symbols h) ++ write_u e 4 (ch_count h) ++ write_u e 4 (ch_format h) ++ write_u e 4 (ch_compression h)) 8); [|unfold b; rewrite <- ?app_assoc; reflexivity|rewrite !zlen_app, !zlen_write_u; reflexivity|assumption].
  rewrite (P ch_symbols (write_u e 4 0 ++ write_u e 4 (ch_starts h) ++ write_u e 4 (ch_imports h)) (write_u e 4 (ch_count h) ++ write_u e 4 (ch_format h) ++ write_u e 4 (ch_compression h)) 12); [|unfold b; rewrite <- ?app_assoc; reflexivity|rewrite !zlen_app, !zlen_write_u; reflexivity|assumption].
  rewrite (P ch_count (write_u e 4 0 ++ write_u e 4 (ch_starts h) ++ write_u e 4 (ch_imports h) ++ write_u e 4 (ch_symbols h)) (write_u e 4 (ch_format h) ++ write_u e 4 (ch_compression h)) 16); [|unfold b; rewrite <- ?app_assoc; reflexivity|rewrite !zlen_app, !zlen_write_u; reflexivity|assumption].
  rewrite (P ch_format (write_u e 4 0 ++ write_u e 4 (ch_starts h) ++ write_u e 4 (ch_imports h) ++ write_u e 4 (ch_symbols h) ++ write_u e 4 (ch_count h)) (write_u e 4 (ch_compression h)) 20); [|unfold b; rewrite <- ?app_assoc; reflexivity|rewrite !zlen_app, !zlen_write_u; reflexivity|assumption].
  rewrite (P ch_compression (write_u e 4 0 ++ write_u e 4 (ch_starts h) ++ write_u e 4 (ch_imports h) ++ write_u e 4 (ch_symbols h) ++ write_u e 4 (ch_count h) ++ write_u e 4 (ch_format h)) [] 24); [|unfold b; rewrite <- ?app_assoc, app_nil_r; reflexivity|rewrite !zlen_app, !zlen_write_u; reflexivity|assumption].
  destruct h; reflexivity.
Qed.
Lemma header_iff e data hb : bytes_ok data -> cfix_parse e data = Ok hb <-> exists h, cheader_ok h /\ hb = cheader_enc e h /\ holds data 0 hb.
Proof.
  intro B. unfold cfix_parse. split.
  - intro E. destruct (b_read_at data 0 28) as [b| |] eqn:Eb; cbn [bind] in E; try discriminate. apply (proj1 (read_at_iff data 0 28 b ltac:(lia) ltac:(lia))) in Eb as (Hh & L).
    destruct (Z.eqb_spec (fld e 0 4 b) 0) as [Z0|]; cbn [negb] in E; [|discriminate]. assert (hb = b) as -> by congruence.
    assert (Bb : bytes_ok b) by (rewrite <- (holds_slice _ _ _ Hh); apply bytes_ok_zslice; exact B).
    destruct (cheader_dec e b L Bb Z0) as (Ok1 & En). exists (cheader_of e b). rewrite En. auto.
  - intros (h & Hh & -> & Hd). assert (R : b_read_at data 0 28 = Ok (cheader_enc e h)) by (apply (proj2 (read_at_iff data 0 28 _ ltac:(lia) ltac:(lia))); split; [exact Hd|apply cheader_len]).
    rewrite R. cbn [bind]. destruct (cheader_fields e h Hh) as (F0 & _). rewrite F0. reflexivity.
Qed.
Lemma header_np e data : cfix_parse e data <> Panic.
Proof.
  unfold cfix_parse, b_read_at. destruct (b_skip data 0) as [r s] eqn:E. apply b_skip_spec in E as [(-> & _ & _)|(-> & _ & _)]; [|discriminate].
  destruct (b_read s 28) as [r2 s2] eqn:E2. cbn [fst]. apply b_read_spec in E2 as [(b & -> & _)|(-> & _)]; cbn [bind]; [|discriminate]. destruct (negb _); discriminate.
Qed.

(** * Imports *)
Lemma dylib_iff w v d : 0 < w -> (forall x, 0 <= x < 2 ^ w -> True) -> 0 <= v < 2 ^ w -> 16 <= 2 ^ (w - 1) -> 
  (if 2 ^ w - 16 <? v then wrap_s w v else v) = d <-> -15 <= d <= 2 ^ w - 16 /\ v = d mod 2 ^ w.
Proof.
  intros Hw _ Hv Hs. unfold wrap_s. assert (E : 2 ^ w = 2 * 2 ^ (w - 1)) by (rewrite <- Z.pow_succ_r by lia; f_equal; lia). set (h := 2 ^ (w - 1)) in *. rewrite E in *. clearbody h. clear E.
  destruct (Z.ltb_spec (2 * h - 16) v).
  - replace ((v + h) mod (2 * h)) with (v - h) by (symmetry; rewrite <- (Z_mod_plus_full (v + h) (-1)); rewrite Z.mod_small; lia). split.
    + intro. split; [lia|]. rewrite <- (Z_mod_plus_full d 1). rewrite Z.mod_small; lia.
    + intros (Hd & E). destruct (Z_lt_dec d 0).
      * rewrite <- (Z_mod_plus_full d 1) in E. rewrite Z.mod_small in E; lia.
      * rewrite Z.mod_small in E; lia.
  - split.
    + intro. subst d. split; [lia|]. symmetry. apply Z.mod_small. lia.
    + intros (Hd & E). destruct (Z_lt_dec d 0).
      * rewrite <- (Z_mod_plus_full d 1) in E. rewrite Z.mod_small in E; lia.
      * rewrite Z.mod_small in E; lia.
Qed.
Lemma packs_cons w x r v : packs ((w, x) :: r) v <-> 0 <= x < 2 ^ w /\ exists u, packs r u /\ v = x + 2 ^ w * u.
Proof.
  unfold packs. cbn [packed]. split.
  - intros (F & ->). inversion F as [|? ? A B]; subst. cbn [fst snd] in A. split; [exact A|]. exists (packed r). auto.
  - intros (A & u & (F & ->) & ->). split; [constructor; assumption|reflexivity].
Qed.
Lemma packs_nil v : packs [] v <-> v = 0.
Proof. unfold packs. cbn [packed]. split; [intros (_ & ->); reflexivity|intros ->; split; [constructor|reflexivity]]. Qed.
Lemma bit_b2z x w : 0 <= x < 2 -> negb (x =? 0) = w <-> x = b2z w.
Proof. intro H. destruct (Z.eqb_spec x 0), w; cbn [negb b2z]; split; intro; try lia; try discriminate; reflexivity. Qed.
Lemma import32_iff v d w o : u32_ok v -> import32 v = (d, w, o) <-> -15 <= d <= 240 /\ packs [(8, d mod 2 ^ 8); (1, b2z w); (23, o)] v.
Proof.
  intro Hv. unfold u32_ok in Hv. unfold import32. cbv zeta. unfold bit.
  assert (E1 : Z.land v 255 = v mod 2 ^ 8) by (change 255 with (Z.ones 8); apply Z.land_ones; lia).
  assert (E2 : Z.land (Z.shiftr v 8) 1 = v / 2 ^ 8 mod 2) by (change 1 with (Z.ones 1); rewrite Z.land_ones, Z.shiftr_div_pow2 by lia; reflexivity).
  rewrite E1, E2, Z.shiftr_div_pow2 by lia.
  assert (M1 : 0 <= v mod 2 ^ 8 < 2 ^ 8) by (apply Z.mod_pos_bound; lia). assert (M2 : 0 <= v / 2 ^ 8 mod 2 < 2) by (apply Z.mod_pos_bound; lia).
  pose proof (dylib_iff 8 (v mod 2 ^ 8) d ltac:(lia) ltac:(auto) M1 ltac:(cbn; lia)) as D. change (2 ^ 8 - 16) with 240 in D.
  pose proof (bit_b2z _ w M2) as Bw. rewrite !packs_cons. setoid_rewrite packs_cons. setoid_rewrite packs_cons. setoid_rewrite packs_nil. pose proof (b2z_bound w) as Hb.
  assert (Md : 0 <= d mod 2 ^ 8 < 2 ^ 8) by (apply Z.mod_pos_bound; lia). split.
  - intro E. assert (Ed : (if 240 <? v mod 2 ^ 8 then wrap_s 8 (v mod 2 ^ 8) else v mod 2 ^ 8) = d) by congruence.
    assert (Ew : negb (v / 2 ^ 8 mod 2 =? 0) = w) by congruence. assert (Eo : v / 2 ^ 9 = o) by congruence. apply D in Ed as (Rd & Ed). apply Bw in Ew.
    split; [exact Rd|]. split; [exact Md|]. exists (v / 2 ^ 8). split; [|rewrite <- Ed; pose proof (Z_div_mod_eq_full v (2 ^ 8)); lia]. split; [exact Hb|]. exists o. split.
    + change (2 ^ 32) with 4294967296 in *; change (2 ^ 23) with 8388608; change (2 ^ 9) with 512 in *. split; [Z.to_euclidean_division_equations; lia|]. exists 0. lia.
    + rewrite <- Ew, <- Eo. change (2 ^ 9) with (2 ^ 8 * 2). rewrite <- Z.div_div by lia. change (2 ^ 1) with 2. pose proof (Z_div_mod_eq_full (v / 2 ^ 8) 2). lia.
  - intros (Rd & _ & u & (_ & u2 & (Ho & u3 & -> & Eu2) & Eu) & Ev). assert (u2 = o) by lia. subst u2. change (2 ^ 1) with 2 in Eu.
    assert (V8 : v / 2 ^ 8 = u) by (symmetry; apply (Z.div_unique_pos v (2 ^ 8) u (d mod 2 ^ 8)); lia). assert (V8m : v mod 2 ^ 8 = d mod 2 ^ 8) by (symmetry; apply (Z.mod_unique_pos v (2 ^ 8) u (d mod 2 ^ 8)); lia).
    assert (U2 : u / 2 = o) by (symmetry; apply (Z.div_unique_pos u 2 o (b2z w)); [change (2 ^ 1) with 2 in Hb; lia|lia]). assert (U2m : u mod 2 = b2z w) by (symmetry; apply (Z.mod_unique_pos u 2 o (b2z w)); [change (2 ^ 1) with 2 in Hb; lia|lia]).
    assert (Ed := proj2 D (conj Rd V8m)). assert (Ew := proj2 Bw ltac:(rewrite V8; exact U2m)). rewrite Ed, Ew. change (2 ^ 9) with (2 ^ 8 * 2). rewrite <- Z.div_div by lia. rewrite V8, U2. reflexivity.
Qed.
Lemma import64_iff v d w o : u64_ok v -> import64 v = (d, w, o) <-> exists z, -15 <= d <= 65520 /\ packs [(16, d mod 2 ^ 16); (1, b2z w); (15, z); (32, o)] v.
Proof.
  intro Hv. unfold u64_ok in Hv. unfold import64. cbv zeta. unfold bit.
  assert (E1 : Z.land v 65535 = v mod 2 ^ 16) by (change 65535 with (Z.ones 16); apply Z.land_ones; lia).
  assert (E2 : Z.land (Z.shiftr v 16) 1 = v / 2 ^ 16 mod 2) by (change 1 with (Z.ones 1); rewrite Z.land_ones, Z.shiftr_div_pow2 by lia; reflexivity).
  rewrite E1, E2, Z.shiftr_div_pow2 by lia.
  assert (E3 : wrap_u 32 (v / 2 ^ 32) = v / 2 ^ 32). { unfold wrap_u. apply Z.mod_small. change (2 ^ 64) with (2 ^ 32 * 2 ^ 32) in Hv. split; [apply Z.div_pos; lia|apply Z.div_lt_upper_bound; lia]. }
  rewrite E3.
  assert (M1 : 0 <= v mod 2 ^ 16 < 2 ^ 16) by (apply Z.mod_pos_bound; lia). assert (M2 : 0 <= v / 2 ^ 16 mod 2 < 2) by (apply Z.mod_pos_bound; lia).
  pose proof (dylib_iff 16 (v mod 2 ^ 16) d ltac:(lia) ltac:(auto) M1 ltac:(cbn; lia)) as D. change (2 ^ 16 - 16) with 65520 in D.
  pose proof (bit_b2z _ w M2) as Bw. pose proof (b2z_bound w) as Hb.
  assert (Md : 0 <= d mod 2 ^ 16 < 2 ^ 16) by (apply Z.mod_pos_bound; lia). split.
  - intro E. assert (Ed : (if 65520 <? v mod 2 ^ 16 then wrap_s 16 (v mod 2 ^ 16) else v mod 2 ^ 16) = d) by congruence.
    assert (Ew : negb (v / 2 ^ 16 mod 2 =? 0) = w) by congruence. assert (Eo : v / 2 ^ 32 = o) by congruence. apply D in Ed as (Rd & Ed). apply Bw in Ew.
    exists (v / 2 ^ 17 mod 2 ^ 15). split; [exact Rd|]. rewrite packs_cons. split; [exact Md|]. exists (v / 2 ^ 16). split; [|rewrite <- Ed; pose proof (Z_div_mod_eq_full v (2 ^ 16)); lia].
    rewrite packs_cons. split; [exact Hb|]. exists (v / 2 ^ 17). split.
    + rewrite packs_cons. split; [apply Z.mod_pos_bound; lia|]. exists o. split.
      * rewrite packs_cons. change (2 ^ 64) with (2 ^ 32 * 2 ^ 32) in Hv. split; [rewrite <- Eo; split; [apply Z.div_pos; lia|apply Z.div_lt_upper_bound; lia]|]. exists 0. rewrite packs_nil. lia.
      * rewrite <- Eo. change (2 ^ 32) with (2 ^ 17 * 2 ^ 15). rewrite <- Z.div_div by lia. pose proof (Z_div_mod_eq_full (v / 2 ^ 17) (2 ^ 15)). lia.
    + rewrite <- Ew. change (2 ^ 17) with (2 ^ 16 * 2). rewrite <- Z.div_div by lia. change (2 ^ 1) with 2. pose proof (Z_div_mod_eq_full (v / 2 ^ 16) 2). lia.
  - intros (z & Rd & P). rewrite packs_cons in P. destruct P as (_ & u & P & Ev). rewrite packs_cons in P. destruct P as (_ & u2 & P & Eu). rewrite packs_cons in P. destruct P as (Hz & u3 & P & Eu2). rewrite packs_cons in P. destruct P as (Ho & u4 & P & Eu3). rewrite packs_nil in P. subst u4.
    assert (u3 = o) by lia. subst u3. change (2 ^ 1) with 2 in *.
    assert (V8 : v / 2 ^ 16 = u) by (symmetry; apply (Z.div_unique_pos v (2 ^ 16) u (d mod 2 ^ 16)); lia). assert (V8m : v mod 2 ^ 16 = d mod 2 ^ 16) by (symmetry; apply (Z.mod_unique_pos v (2 ^ 16) u (d mod 2 ^ 16)); lia).
    assert (U2 : u / 2 = u2) by (symmetry; apply (Z.div_unique_pos u 2 u2 (b2z w)); lia). assert (U2m : u mod 2 = b2z w) by (symmetry; apply (Z.mod_unique_pos u 2 u2 (b2z w)); lia).
    assert (U3 : u2 / 2 ^ 15 = o) by (symmetry; apply (Z.div_unique_pos u2 (2 ^ 15) o z); lia).
    assert (Ed := proj2 D (conj Rd V8m)). assert (Ew := proj2 Bw ltac:(rewrite V8; exact U2m)). rewrite Ed, Ew. change (2 ^ 32) with (2 ^ 16 * (2 * 2 ^ 15)). rewrite <- !Z.div_div by lia. rewrite V8, U2, U3. reflexivity.
Qed.
Lemma read_u_of e b n : bytes_ok b -> zlen b = n -> 0 <= read_u e b < 2 ^ (8 * n).
Proof. intros B <-. apply read_u_bound. exact B. Qed.
Lemma import_enc_len e symbols f x b : import_enc e symbols f x b -> 0 < zlen b.
Proof. intros []; rewrite ?zlen_app; lia. Qed.
Lemma import_nonempty e symbols f x b : import_enc e symbols f x b -> b <> [].
Proof. intros H E. apply import_enc_len in H. subst b. change (zlen (@nil Z)) with 0 in H. lia. Qed.
Lemma import_fwd e symbols f x b rest : bytes_ok (b ++ rest) -> import_enc e symbols f x b -> cimport_parse e f symbols (b ++ rest) = (Ok x, rest).
Proof.
  intros B H. apply bytes_ok_app in B as (B & _). unfold cimport_parse. destruct H as [d w o n b Hd L P St|d w o n b a Hd L P St La|d w z o n b a Hd L P St La]; cbn [Z.eqb Pos.eqb orb].
  - rewrite b_read_app by auto. cbn [bs fst snd]. rewrite (proj2 (import32_iff _ d w o (read_u_of e b 4 B L)) (conj Hd P)).
    assert (Ho : 0 <= o). { rewrite !packs_cons in P. destruct P as (_ & u & P & _). rewrite packs_cons in P. destruct P as (_ & u2 & P & _). rewrite packs_cons in P. lia. }
    rewrite (proj2 (ArSym_proofs.string_at_iff symbols o n Ho) St). reflexivity.
  - apply bytes_ok_app in B as (B & Ba). rewrite <- app_assoc. rewrite b_read_app by auto. cbn [bs fst snd]. rewrite b_read_app by auto. cbn [bs fst snd]. rewrite (proj2 (import32_iff _ d w o (read_u_of e b 4 B L)) (conj Hd P)).
    assert (Ho : 0 <= o). { rewrite !packs_cons in P. destruct P as (_ & u & P & _). rewrite packs_cons in P. destruct P as (_ & u2 & P & _). rewrite packs_cons in P. lia. }
    rewrite (proj2 (ArSym_proofs.string_at_iff symbols o n Ho) St). reflexivity.
  - apply bytes_ok_app in B as (B & Ba). rewrite <- app_assoc. rewrite b_read_app by auto. cbn [bs fst snd]. rewrite b_read_app by auto. cbn [bs fst snd]. rewrite (proj2 (import64_iff _ d w o (read_u_of e b 8 B L)) (ex_intro _ z (conj Hd P))).
    assert (Ho : 0 <= o). { rewrite !packs_cons in P. destruct P as (_ & u & P & _). rewrite packs_cons in P. destruct P as (_ & u2 & P & _). rewrite packs_cons in P. destruct P as (_ & u3 & P & _). rewrite packs_cons in P. lia. }
    rewrite (proj2 (ArSym_proofs.string_at_iff symbols o n Ho) St). unfold read_i. rewrite La. reflexivity.
Qed.

Lemma import_bwd e symbols f data x rest : bytes_ok data -> cimport_parse e f symbols data = (Ok x, rest) -> exists b, import_enc e symbols f x b /\ data = b ++ rest.
Proof.
  intros B E. unfold cimport_parse in E. destruct (Z.eqb_spec f 1) as [->|N1]; [|destruct (Z.eqb_spec f 2) as [->|N2]; [|destruct (Z.eqb_spec f 3) as [->|N3]]]; cbn [orb Z.eqb Pos.eqb bs fst snd] in E; try discriminate.
  - destruct (b_read data 4) as [r s] eqn:E1. apply b_read_spec in E1 as [(b & -> & _ & L & ->)|(-> & _ & ->)]; cbn [bs] in E; [|discriminate]. apply bytes_ok_app in B as (B & _).
    destruct (import32 (read_u e b)) as [[d w] o] eqn:Ei. apply import32_iff in Ei as (Hd & P); [|exact (read_u_of e b 4 B L)].
    assert (Ho : 0 <= o). { pose proof P as P'. rewrite !packs_cons in P'. destruct P' as (_ & u & P' & _). rewrite packs_cons in P'. destruct P' as (_ & u2 & P' & _). rewrite packs_cons in P'. lia. }
    destruct (b_read_string_at symbols o) as [n| |] eqn:En; try discriminate. apply (ArSym_proofs.string_at_iff symbols o n Ho) in En.
    assert (x = {| cm_dylib := d; cm_weak := w; cm_addend := 0; cm_name := n |}) as -> by congruence. assert (rest = s) as -> by congruence. exists b. split; [eapply im_plain; eassumption|reflexivity].
  - destruct (b_read data 4) as [r s] eqn:E1. apply b_read_spec in E1 as [(b & -> & _ & L & ->)|(-> & _ & ->)]; cbn [bs] in E; [|discriminate]. apply bytes_ok_app in B as (B & _).
    destruct (b_read s 4) as [r2 s2] eqn:E2. apply b_read_spec in E2 as [(a & -> & _ & La & ->)|(-> & _ & ->)]; cbn [bs] in E; [|discriminate].
    destruct (import32 (read_u e b)) as [[d w] o] eqn:Ei. apply import32_iff in Ei as (Hd & P); [|exact (read_u_of e b 4 B L)].
    assert (Ho : 0 <= o). { pose proof P as P'. rewrite !packs_cons in P'. destruct P' as (_ & u & P' & _). rewrite packs_cons in P'. destruct P' as (_ & u2 & P' & _). rewrite packs_cons in P'. lia. }
    destruct (b_read_string_at symbols o) as [n| |] eqn:En; try discriminate. apply (ArSym_proofs.string_at_iff symbols o n Ho) in En.
    assert (x = {| cm_dylib := d; cm_weak := w; cm_addend := read_i e a; cm_name := n |}) as -> by congruence. assert (rest = s2) as -> by congruence. exists (b ++ a). split; [eapply im_addend; eassumption|apply app_assoc].
  - destruct (b_read data 8) as [r s] eqn:E1. apply b_read_spec in E1 as [(b & -> & _ & L & ->)|(-> & _ & ->)]; cbn [bs] in E; [|discriminate]. apply bytes_ok_app in B as (B & _).
    destruct (b_read s 8) as [r2 s2] eqn:E2. apply b_read_spec in E2 as [(a & -> & _ & La & ->)|(-> & _ & ->)]; cbn [bs] in E; [|discriminate].
    destruct (import64 (read_u e b)) as [[d w] o] eqn:Ei. apply import64_iff in Ei as (z & Hd & P); [|exact (read_u_of e b 8 B L)].
    assert (Ho : 0 <= o). { pose proof P as P'. rewrite !packs_cons in P'. destruct P' as (_ & u & P' & _). rewrite packs_cons in P'. destruct P' as (_ & u2 & P' & _). rewrite packs_cons in P'. destruct P' as (_ & u3 & P' & _). rewrite packs_cons in P'. lia. }
    destruct (b_read_string_at symbols o) as [n| |] eqn:En; try discriminate. apply (ArSym_proofs.string_at_iff symbols o n Ho) in En.
    assert (Ea : wrap_s 64 (read_u e a) = read_i e a) by (unfold read_i; rewrite La; reflexivity). rewrite Ea in E.
    assert (x = {| cm_dylib := d; cm_weak := w; cm_addend := read_i e a; cm_name := n |}) as -> by congruence. assert (rest = s2) as -> by congruence. exists (b ++ a). split; [eapply im_64; eassumption|apply app_assoc].
Qed.
Lemma import_np e symbols f data : fst (cimport_parse e f symbols data) <> Panic.
Proof.
  unfold cimport_parse. destruct ((f =? 1) || (f =? 2)); [|destruct (f =? 3); [|cbn; discriminate]].
  - destruct (b_read data 4) as [r s] eqn:E1. apply b_read_spec in E1 as [(b & -> & _)|(-> & _ & ->)]; cbn [bs]; [|cbn; discriminate].
    destruct (f =? 2).
    + destruct (b_read s 4) as [r2 s2] eqn:E2. apply b_read_spec in E2 as [(a & -> & _)|(-> & _ & ->)]; cbn [bs]; [|cbn; discriminate].
      destruct (import32 (read_u e b)) as [[d w] o]. pose proof (ArSym_proofs.string_at_no_panic symbols o). destruct (b_read_string_at symbols o); cbn [fst]; congruence.
    + cbn [bs]. destruct (import32 (read_u e b)) as [[d w] o]. pose proof (ArSym_proofs.string_at_no_panic symbols o). destruct (b_read_string_at symbols o); cbn [fst]; congruence.
  - destruct (b_read data 8) as [r s] eqn:E1. apply b_read_spec in E1 as [(b & -> & _)|(-> & _ & ->)]; cbn [bs]; [|cbn; discriminate].
    destruct (b_read s 8) as [r2 s2] eqn:E2. apply b_read_spec in E2 as [(a & -> & _)|(-> & _ & ->)]; cbn [bs]; [|cbn; discriminate].
    destruct (import64 (read_u e b)) as [[d w] o]. pose proof (ArSym_proofs.string_at_no_panic symbols o). destruct (b_read_string_at symbols o); cbn [fst]; congruence.
Qed.
Lemma imports_total e symbols f n : forall data, bytes_ok data -> exists l err st,
  runs (ci_next e) {| ci_imports := data; ci_symbols := symbols; ci_count := Z.of_nat n; ci_format := f |} l err st /\ ci_next e st = (Ok None, st) /\ imports_read e symbols f (Z.of_nat n) data l err.
Proof.
  induction n as [|n IH]; intros data B.
  - exists [], false. eexists. split; [apply runs_done; unfold ci_next; cbn [ci_count]; reflexivity|]. split; [reflexivity|]. exists data. split; [constructor|reflexivity].
  - assert (N : ci_next e {| ci_imports := data; ci_symbols := symbols; ci_count := Z.of_nat (S n); ci_format := f |} =
      match cimport_parse e f symbols data with
      | (Ok x, d) => (Ok (Some x), {| ci_imports := d; ci_symbols := symbols; ci_count := Z.of_nat n; ci_format := f |})
      | (Err, d) => (Err, {| ci_imports := d; ci_symbols := symbols; ci_count := 0; ci_format := f |})
      | (Panic, d) => (Panic, {| ci_imports := data; ci_symbols := symbols; ci_count := Z.of_nat (S n); ci_format := f |}) end).
    { unfold ci_next. cbn [ci_count ci_format ci_symbols ci_imports]. destruct (Z.eqb_spec (Z.of_nat (S n)) 0); [lia|]. unfold psub. destruct (Z.leb_spec 1 (Z.of_nat (S n))); [|lia]. replace (Z.of_nat (S n) - 1) with (Z.of_nat n) by lia. reflexivity. }
    pose proof (import_np e symbols f data) as NP. destruct (cimport_parse e f symbols data) as [[x| |] d] eqn:E; cbn [fst] in NP; [| |congruence].
    + destruct (import_bwd e symbols f data x d B E) as (b & R & ->). apply bytes_ok_app in B as (Bb & Bd). destruct (IH d Bd) as (l & err & st & Hr & He & post & Hs & Hc).
      exists (x :: l), err, st. split; [eapply runs_more; [exact N|exact Hr]|]. split; [exact He|]. exists post. split; [constructor; assumption|]. destruct err; [destruct Hc as (Hc & Hn); split; [|exact Hn]|]; rewrite zlen_cons; lia.
    + exists [], true. eexists. split; [apply runs_err; exact N|]. split; [reflexivity|]. exists data. split; [constructor|]. split; [change (zlen (@nil cimport)) with 0; lia|].
      intros x b tl -> R. rewrite (import_fwd e symbols f x b tl B R) in E. discriminate.
Qed.
Lemma imports_conv e symbols f data l err : bytes_ok data -> forall n, imports_read e symbols f n data l err -> exists st, runs (ci_next e) {| ci_imports := data; ci_symbols := symbols; ci_count := n; ci_format := f |} l err st.
Proof.
  intros B n (post & Hs & Hc). revert n Hc B. induction Hs as [|x b l data R Hs IH]; intros n Hc B.
  - change (zlen (@nil cimport)) with 0 in Hc. destruct err.
    + destruct Hc as (Hn & Hno). unfold ci_next. pose proof (import_np e symbols f post) as NP. destruct (cimport_parse e f symbols post) as [[x| |] d] eqn:E; cbn [fst] in NP; [| |congruence].
      * destruct (import_bwd e symbols f post x d B E) as (b & R & Ep). exfalso. exact (Hno x b d Ep R).
      * eexists. apply runs_err. cbn [ci_count ci_format ci_symbols ci_imports]. destruct (Z.eqb_spec n 0); [lia|]. rewrite E. reflexivity.
    + subst n. eexists. apply runs_done. unfold ci_next. reflexivity.
  - rewrite zlen_cons in Hc. pose proof (zlen_nonneg l). assert (Hn : 1 <= n) by (destruct err; lia). assert (Bd : bytes_ok data) by (apply bytes_ok_app in B; tauto). destruct (IH (n - 1)) as (st & Hr); [destruct err; [destruct Hc; split; [lia|assumption]|lia]|exact Bd|].
    exists st. eapply runs_more; [|exact Hr]. unfold ci_next. cbn [ci_count ci_format ci_symbols ci_imports]. destruct (Z.eqb_spec n 0); [lia|]. rewrite (import_fwd e symbols f x b data B R). unfold psub. destruct (Z.leb_spec 1 n); [reflexivity|lia].
Qed.
Lemma imports_iff e symbols f n data l err : bytes_ok data -> 0 <= n -> (exists st, runs (ci_next e) {| ci_imports := data; ci_symbols := symbols; ci_count := n; ci_format := f |} l err st) <-> imports_read e symbols f n data l err.
Proof.
  intros B Hn. split; [|apply imports_conv; exact B]. intros (st & R). destruct (imports_total e symbols f (Z.to_nat n) data B) as (l' & err' & st' & R' & _ & I). rewrite Z2Nat.id in R', I by lia.
  destruct (runs_det _ _ _ _ _ R _ _ _ R') as (-> & -> & _). exact I.
Qed.
Lemma get_from_iff (data : bytes) o t : of_opt (get_from data o) = Ok t <-> 0 <= o <= zlen data /\ t = zdrop o data.
Proof. unfold get_from. destruct (Z.leb_spec 0 o), (Z.leb_spec o (zlen data)); cbn [andb of_opt]; split; intro E; try discriminate; try (exfalso; lia); try (split; [lia|congruence]). destruct E as (_ & ->). reflexivity. Qed.
Lemma cfix_imports_iff e data h it : cheader_ok h -> cfix_imports e data (cheader_enc e h) = Ok it <->
  ch_compression h = 0 /\ ch_imports h <= zlen data /\ ch_symbols h <= zlen data /\
  it = {| ci_imports := zdrop (ch_imports h) data; ci_symbols := zdrop (ch_symbols h) data; ci_count := ch_count h; ci_format := ch_format h |}.
Proof.
  intro H. destruct (cheader_fields e h H) as (_ & E). unfold cfix_imports.
  change (fld e 24 4 (cheader_enc e h)) with (ch_compression (cheader_of e (cheader_enc e h))). change (fld e 8 4 (cheader_enc e h)) with (ch_imports (cheader_of e (cheader_enc e h))).
  change (fld e 12 4 (cheader_enc e h)) with (ch_symbols (cheader_of e (cheader_enc e h))). change (fld e 16 4 (cheader_enc e h)) with (ch_count (cheader_of e (cheader_enc e h))). change (fld e 20 4 (cheader_enc e h)) with (ch_format (cheader_of e (cheader_enc e h))).
  rewrite E. destruct H as (H1 & H2 & H3 & H4 & H5 & H6). unfold u32_ok in *. destruct (Z.eqb_spec (ch_compression h) 0); cbn [negb]; [|split; [discriminate|lia]]. split.
  - intro Q. destruct (of_opt (get_from data (ch_imports h))) as [i| |] eqn:E1; cbn [bind] in Q; try discriminate. apply get_from_iff in E1 as (B1 & ->).
    destruct (of_opt (get_from data (ch_symbols h))) as [s| |] eqn:E2; cbn [bind] in Q; try discriminate. apply get_from_iff in E2 as (B2 & ->). repeat split; try lia. congruence.
  - intros (_ & B1 & B2 & ->). rewrite (proj2 (get_from_iff data _ _) (conj (conj (proj1 H2) B1) eq_refl)). cbn [bind]. rewrite (proj2 (get_from_iff data _ _) (conj (conj (proj1 H3) B2) eq_refl)). reflexivity.
Qed.
