(** File kinds. *)
From Verif Require Import Core_proofs Util_proofs File_proofs Hash_proofs Pod_proofs.
From Verif Require Pe_proofs PeI_proofs.
From Verif Require Import Fkind_spec.

Lemma holds_prefix F off m p : 0 <= off -> off + 16 <= zlen F -> m = zslice off 16 F -> zlen p <= 16 -> bytes_eqb (ztake (zlen p) m) p = true <-> holds F off p.
Proof.
  intros Ho Hl -> Hp. pose proof (zlen_nonneg p). assert (E : ztake (zlen p) (zslice off 16 F) = zslice off (zlen p) F).
  { unfold zslice. rewrite Pe_proofs.ztake_ztake_le by lia. reflexivity. }
  rewrite E, bytes_eqb_eq, holds_iff. split; [intro Q; split; [lia|]; split; [lia|exact Q]|tauto].
Qed.
Lemma list16 (m : bytes) : zlen m = 16 -> exists a0 a1 a2 a3 a4 a5 a6 a7 a8 a9 a10 a11 a12 a13 a14 a15, m = [a0; a1; a2; a3; a4; a5; a6; a7; a8; a9; a10; a11; a12; a13; a14; a15].
Proof.
  intro L. unfold zlen in L. do 16 (destruct m as [|? m]; [cbn [length] in L; lia|]). destruct m; [|cbn [length] in L; lia]. repeat eexists.
Qed.

Lemma pe_np F : optional_header_magic F <> Panic.
Proof.
  unfold optional_header_magic, dos_parse. pose proof (rr_read_at_no_panic F 0 64) as P1. destruct (rr_read_at F 0 64) as [h| |]; cbn [bind]; try congruence. destruct (negb _); cbn [bind]; try congruence.
  pose proof (rr_read_at_no_panic F (dos_nt_offset h) 120). destruct (rr_read_at F (dos_nt_offset h) 120); cbn [bind]; try congruence. destruct (negb _); congruence.
Qed.
Ltac by_prefix H := apply holds_prefix in H; [|lia|lia|assumption|vm_compute; congruence]; vm_compute in H.
Lemma read_at_ok F o n b : 0 <= o -> 0 < n -> zlen F < 2 ^ 64 -> rr_read_at F o n = Ok b <-> holds F o b /\ zlen b = n.
Proof.
  intros Ho Hn HF. rewrite rr_read_at_eq by lia. destruct (Z.leb_spec (o + n) (zlen F)); split.
  - intros E. assert (b = zslice o n F) as -> by congruence. rewrite zlen_zslice by lia. split; [|reflexivity]. apply holds_iff. rewrite zlen_zslice by lia. auto.
  - intros (H1 & <-). rewrite (holds_slice _ _ _ H1). reflexivity.
  - discriminate.
  - intros (H1 & <-). apply holds_bounds in H1. lia.
Qed.
Lemma fld_holds F o b p n k v : bytes_ok F -> holds F o b -> 0 <= p -> 0 < k -> k = Z.of_nat n -> p + k <= zlen b -> fld Little p k b = v <-> holds F (o + p) (write_u Little n v) /\ 0 <= v < 2 ^ (8 * k).
Proof.
  intros B H Hp Hk -> Hl. assert (Bb : bytes_ok b) by (rewrite <- (holds_slice _ _ _ H); apply bytes_ok_zslice; exact B). assert (Lz : zlen (zslice p (Z.of_nat n) b) = Z.of_nat n) by (apply zlen_zslice; lia).
  assert (S : zslice (o + p) (Z.of_nat n) F = zslice p (Z.of_nat n) b).
  { destruct H as (x & y & -> & <-). rewrite zslice_app2 by lia. replace (zlen x + p - zlen x) with p by lia. rewrite zslice_app1 by lia. reflexivity. }
  unfold fld. rewrite holds_iff, zlen_write_u, S. pose proof (holds_bounds _ _ _ H) as Hb. split.
  - intros <-. rewrite write_read_n by (try apply bytes_ok_zslice; assumption). pose proof (read_u_bound Little (zslice p (Z.of_nat n) b) (bytes_ok_zslice _ _ _ Bb)) as R. rewrite Lz in R. repeat split; try lia.
  - intros ((_ & _ & ->) & Hv). apply read_write_u_small. exact Hv.
Qed.
Lemma pe_magic_iff F m : bytes_ok F -> zlen F < 2 ^ 64 -> 
  optional_header_magic F = Ok m <-> exists nt, u32_ok nt /\ holds F 0 [0x4d; 0x5a] /\ 64 <= zlen F /\ holds F 60 (write_u Little 4 nt) /\ nt + 120 <= zlen F /\ holds F nt [0x50; 0x45; 0; 0] /\ holds F (nt + 24) (write_u Little 2 m) /\ u16_ok m.
Proof.
  intros B HF. unfold optional_header_magic, dos_parse, dos_nt_offset. split.
  - intro E. destruct (rr_read_at F 0 64) as [h| |] eqn:E1; cbn [bind] in E; try discriminate. apply read_at_ok in E1 as (H1 & L1); [|lia..].
    destruct (Z.eqb_spec (fld Little 0 2 h) 23117) as [M|]; cbn [negb bind] in E; [|discriminate]. apply (fld_holds F 0 h 0 2 2) in M; [|assumption..|lia|lia|reflexivity|lia]. destruct M as (M & _).
    set (nt := fld Little 60 4 h) in *. pose proof (eq_refl nt) as N. unfold nt at 1 in N. apply (fld_holds F 0 h 60 4 4) in N; [|assumption..|lia|lia|reflexivity|lia]. destruct N as (N & Nr). clearbody nt.
    destruct (rr_read_at F nt 120) as [n| |] eqn:E2; cbn [bind] in E; try discriminate. apply read_at_ok in E2 as (H2 & L2); [|lia..].
    destruct (Z.eqb_spec (fld Little 0 4 n) 17744) as [M2|]; cbn [negb bind] in E; [|discriminate]. apply (fld_holds F nt n 0 4 4) in M2; [|assumption..|lia|lia|reflexivity|lia]. destruct M2 as (M2 & _).
    assert (M3 : fld Little 24 2 n = m) by congruence. apply (fld_holds F nt n 24 2 2) in M3; [|assumption..|lia|lia|reflexivity|lia]. destruct M3 as (M3 & M3r). rewrite Z.add_0_r in M2.
    pose proof (holds_bounds _ _ _ H1). pose proof (holds_bounds _ _ _ H2). exists nt. split; [exact Nr|]. split; [exact M|]. split; [lia|]. split; [exact N|]. split; [lia|]. split; [exact M2|]. split; [exact M3|exact M3r].
  - intros (nt & Nr & M & L1 & N & L2 & M2 & M3 & M3r). unfold u32_ok in Nr.
    assert (R1 : rr_read_at F 0 64 = Ok (zslice 0 64 F)) by (rewrite rr_read_at_eq by lia; destruct (Z.leb_spec (0 + 64) (zlen F)); [reflexivity|lia]). rewrite R1. cbn [bind]. 
    assert (H1 : holds F 0 (zslice 0 64 F)) by (apply holds_iff; rewrite zlen_zslice by lia; repeat split; lia). assert (Z1 : zlen (zslice 0 64 F) = 64) by (apply zlen_zslice; lia).
    rewrite (proj2 (fld_holds F 0 _ 0 2 2 23117 B H1 ltac:(lia) ltac:(lia) eq_refl ltac:(lia))) by (split; [exact M|lia]). cbn [Z.eqb Pos.eqb negb bind].
    rewrite (proj2 (fld_holds F 0 _ 60 4 4 nt B H1 ltac:(lia) ltac:(lia) eq_refl ltac:(lia))) by (split; [exact N|lia]).
    assert (R2 : rr_read_at F nt 120 = Ok (zslice nt 120 F)) by (rewrite rr_read_at_eq by lia; destruct (Z.leb_spec (nt + 120) (zlen F)); [reflexivity|lia]). rewrite R2. cbn [bind]. 
    assert (H2 : holds F nt (zslice nt 120 F)) by (apply holds_iff; rewrite zlen_zslice by lia; repeat split; lia). assert (Z2 : zlen (zslice nt 120 F) = 120) by (apply zlen_zslice; lia).
    rewrite (proj2 (fld_holds F nt _ 0 4 4 17744 B H2 ltac:(lia) ltac:(lia) eq_refl ltac:(lia))) by (split; [rewrite Z.add_0_r; exact M2|lia]). cbn [Z.eqb Pos.eqb negb].
    rewrite (proj2 (fld_holds F nt _ 24 2 2 m B H2 ltac:(lia) ltac:(lia) eq_refl ltac:(lia))) by (split; [exact M3|exact M3r]). reflexivity.
Qed.
Lemma anon_iff F c : zlen F < 2 ^ 64 -> anon_object_class_id F = Ok c <-> 32 <= zlen F /\ holds F 12 c /\ zlen c = 16.
Proof.
  intro HF. unfold anon_object_class_id. rewrite rr_read_at_eq by lia. destruct (Z.leb_spec (0 + 32) (zlen F)) as [L|L]; cbn [bind]; split.
  - intro E. assert (c = zslice 12 16 (zslice 0 32 F)) as -> by congruence.
    assert (S : zslice 12 16 (zslice 0 32 F) = zslice 12 16 F) by (apply zslice_zslice; lia).
    rewrite S. rewrite zlen_zslice by lia. split; [lia|]. split; [|reflexivity]. apply holds_iff. rewrite zlen_zslice by lia. repeat split; lia.
  - intros (_ & H & L2). assert (S : zslice 12 16 (zslice 0 32 F) = zslice 12 16 F) by (apply zslice_zslice; lia).
    rewrite S. rewrite <- (holds_slice _ _ _ H), L2. reflexivity.
  - discriminate.
  - lia.
Qed.
Lemma kind_iff F off k : bytes_ok F -> zlen F < 2 ^ 64 -> 0 <= off -> fkind_parse_at F off = Ok k <-> off + 16 <= zlen F /\ has_kind F off k.
Proof.
  intros B HF Ho. unfold fkind_parse_at. destruct (rr_read_bytes_at F off 16) as [m| |] eqn:R; cbn [bind].
  2:{ split; [discriminate|]. intros (L & _). exfalso. assert (Q : rr_read_bytes_at F off 16 = Ok (zslice off 16 F)) by (apply rr_read_bytes_at_Ok; [lia|lia|]; right; repeat split; lia). congruence. }
  2:{ exfalso. unfold rr_read_bytes_at in R. cbn [Z.eqb] in R. destruct (get_from F off); cbn [of_opt bind] in R; try discriminate. destruct (get_to l 16); discriminate. }
  apply rr_read_bytes_at_Ok in R as [(? & _)|(_ & L & Em)]; [lia| |lia|lia]. assert (Lm : zlen m = 16) by (rewrite Em; apply zlen_zslice; lia). rewrite Lm. change (16 <? 16) with false. cbn beta iota zeta.
  assert (P : forall p, zlen p <= 16 -> bytes_eqb (ztake (zlen p) m) p = true <-> holds F off p) by (intros p Hp; apply holds_prefix; assumption).
  split.
  - intro E. split; [exact L|].
    repeat match type of E with (if ?c then _ else _) = _ => let C := fresh "C" in destruct c eqn:C; [|clear C] end.
    all: try discriminate.
    all: repeat match goal with C : _ || _ = true |- _ => apply orb_true_iff in C as [C|C] | C : _ && _ = true |- _ => let D := fresh "D" in apply andb_true_iff in C as (C & D) end.
    all: match goal with C : bytes_eqb (ztake (zlen ?p) ?m) ?p = true, P : (forall p, _ -> _) |- _ => apply (P p) in C; [|vm_compute; congruence] end.
    all: try (match goal with X : holds ?F ?off ?p, Q : Ok ?x = Ok ?k |- has_kind ?F ?off ?k => replace k with x by congruence; apply (hk_plain F off x p); [vm_compute; tauto|exact X] end).
    + assert (k = FkWasm) as -> by congruence. apply bytes_eqb_eq in D. rewrite Em, zslice_zslice in D by lia. apply holds_iff in C as (_ & _ & C). change (zlen [0; 97; 115; 109]) with 4 in C.
      assert (Q : zslice off 8 F = zslice off 4 F ++ zslice (off + 4) 2 F ++ zslice (off + 6) 2 F).
      { replace (off + 6) with (off + 4 + 2) by lia. rewrite (PeI_proofs.zslice_join (off + 4) 2 2) by lia. rewrite PeI_proofs.zslice_join by lia. reflexivity. }
      assert (L2 : zlen (zslice (off + 4) 2 F) = 2) by (apply zlen_zslice; lia). rewrite C, D in Q. unfold zlen in L2. destruct (zslice (off + 4) 2 F) as [|x [|y [|]]]; cbn [length] in L2; try lia.
      apply (hk_wasm F off x y). apply holds_iff. change (zlen [0; 97; 115; 109; x; y; 0; 0]) with 8. split; [lia|]. split; [lia|exact Q].
    + destruct (Z.eqb_spec off 0) as [->|]; [|discriminate]. destruct (optional_header_magic F) as [mg| |] eqn:Eo; try discriminate. apply (pe_magic_iff F mg B HF) in Eo as (nt & Q). destruct Q as (Q1 & Q2 & Q3 & Q4 & Q5 & Q6 & Q7 & Q8).
      destruct (Z.eqb_spec mg 267) as [->|]; [|destruct (Z.eqb_spec mg 523) as [->|]; [|discriminate]].
      * assert (k = FkPe32) as -> by congruence. exact (hk_pe F 0 false nt eq_refl Q2 Q1 Q3 Q4 Q5 Q6 Q7).
      * assert (k = FkPe64) as -> by congruence. exact (hk_pe F 0 true nt eq_refl Q2 Q1 Q3 Q4 Q5 Q6 Q7).
    + destruct (Z.eqb_spec off 0) as [->|]; [|discriminate]. destruct (anon_object_class_id F) as [c| |] eqn:Eo; try discriminate. apply (anon_iff F c HF) in Eo as (Q1 & Q2 & Q3). destruct (bytes_eqb c BIGOBJ_CLASS) eqn:Ec; [|discriminate]. apply bytes_eqb_eq in Ec. subst c.
      assert (k = FkCoffBig) as -> by congruence. apply hk_big; auto.
  - intros (_ & H). destruct (list16 m Lm) as (a0 & a1 & a2 & a3 & a4 & a5 & a6 & a7 & a8 & a9 & a10 & a11 & a12 & a13 & a14 & a15 & E16).
    assert (P' : forall p, zlen p <= 16 -> holds F off p -> ztake (zlen p) m = p) by (intros p Hp Hh; apply bytes_eqb_eq; apply P; assumption). clear P Em Lm. 
    pose proof (fun mg => pe_magic_iff F mg B HF) as PE. pose proof (fun c => anon_iff F c HF) as AN. revert PE AN. generalize (optional_header_magic F) as pe. generalize (anon_object_class_id F) as an. intros an pe PE AN.
    destruct H as [k p Hp H|x y H|is64 nt E0 M Nr L1 N L2 M2 M3|E0 M L1 M2].
    + apply P' in H.
      * destruct k; cbn [plain_magic map In] in Hp; try contradiction; repeat (destruct Hp as [Hp|Hp]; [subst p; vm_compute in H; subst m; injection H as; subst; vm_compute; reflexivity|]); contradiction.
      * clear - Hp. destruct k; cbn [plain_magic map In] in Hp; try contradiction; repeat (destruct Hp as [Hp|Hp]; [subst p; vm_compute; congruence|]); contradiction.
    + apply P' in H; [|vm_compute; congruence]. subst m. injection H as; subst. vm_compute. reflexivity.
    + subst off. pose proof M as M0. apply P' in M; [|vm_compute; congruence]. subst m. injection M as; subst a0 a1.
      assert (Q : pe = Ok (if is64 then 0x20b else 0x10b)) by (apply PE; exists nt; repeat (split; [assumption|]); destruct is64; vm_compute; split; congruence).
      rewrite Q. destruct is64; vm_compute; reflexivity.
    + subst off. apply P' in M; [|vm_compute; congruence]. subst m. injection M as; subst a0 a1 a2 a3 a4 a5.
      rewrite (proj2 (AN BIGOBJ_CLASS) (conj L1 (conj M2 eq_refl))). vm_compute. reflexivity.
Qed.
Lemma kind_np F off : fkind_parse_at F off <> Panic.
Proof.
  unfold fkind_parse_at. destruct (rr_read_bytes_at F off 16) as [m| |] eqn:R; cbn [bind]; [|discriminate|].
  - destruct (zlen m <? 16); [discriminate|]. cbv zeta. pose proof (pe_np F). unfold anon_object_class_id. pose proof (rr_read_at_no_panic F 0 32).
    repeat match goal with |- (if ?c then _ else _) <> _ => destruct c; [try discriminate|] end; try discriminate.
    + destruct (optional_header_magic F); try congruence. repeat match goal with |- (if ?c then _ else _) <> _ => destruct c; [try discriminate|] end; discriminate.
    + destruct (rr_read_at F 0 32); cbn [bind]; try congruence. destruct (bytes_eqb _ _); discriminate.
  - exfalso. unfold rr_read_bytes_at in R. cbn [Z.eqb] in R. destruct (get_from F off); cbn [of_opt bind] in R; try discriminate. destruct (get_to l 16); discriminate.
Qed.
