(** XCOFF writer: the whole file. *)
From Verif Require Import Core_proofs Util_proofs File_proofs Str_proofs Hash_proofs Pod_proofs.
From Verif Require MachWR_proofs Pe_proofs PeI_proofs Mach_proofs Ar_spec Ar_proofs CoffR_proofs CoffI_proofs CoffW_proofs MachQ_proofs Mach_spec Fkind_proofs Rel_proofs PeWG_proofs MachP_proofs.
From Verif Require Import Xcoff_spec Xcoff_proofs XcoffR_proofs XcoffW_proofs XcoffB_proofs.

(** * Lists *)
Lemma F2_forall {A B} (R : A -> B -> Prop) (Q : A -> Prop) l l' : Forall2 R l l' -> Forall Q l -> Forall2 (fun a b => R a b /\ Q a) l l'.
Proof. intro H. induction H as [|a b l l' Hr H IH]; intro F; constructor; [split; [exact Hr|exact (Forall_inv F)]|apply IH; exact (Forall_inv_tail F)]. Qed.
Lemma F2_map {A B C} (R : C -> B -> Prop) (g : A -> C) l l' : Forall2 (fun a b => R (g a) b) l l' -> Forall2 R (map g l) l'.
Proof. intro H. induction H; constructor; assumption. Qed.
Lemma F2_fst {A B C} (R : A -> C -> Prop) (l : list A) : forall (m : list B) l', zlen m = zlen l -> Forall2 (fun p c => R (fst p) c) (combine l m) l' -> Forall2 R l l'.
Proof.
  induction l as [|a l IH]; intros m l' L H.
  - cbn in H. inversion H; subst. constructor.
  - destruct m as [|b m]; [change (zlen (@nil B)) with 0 in L; rewrite zlen_cons in L; pose proof (zlen_nonneg l); lia|]. cbn [combine] in H. inversion H; subst. constructor; [assumption|]. rewrite !zlen_cons in L. eapply IH; [|eassumption]. lia.
Qed.
Lemma combine3 {A P R} (l : list A) : forall (ps : list (P * P)) (rs : list R), zlen ps = zlen l -> zlen rs = zlen l ->
  combine l (map fst ps) = map (fun x => (fst x, fst (fst (snd x)))) (combine l (combine ps rs)) /\
  combine l (map snd ps) = map (fun x => (fst x, snd (fst (snd x)))) (combine l (combine ps rs)) /\
  combine l rs = map (fun x => (fst x, snd (snd x))) (combine l (combine ps rs)) /\ zlen (combine l (combine ps rs)) = zlen l /\ map fst (combine l (combine ps rs)) = l.
Proof.
  induction l as [|a l IH]; intros ps rs L1 L2; [repeat split; reflexivity|]. pose proof (zlen_nonneg l).
  destruct ps as [|p ps]; [change (zlen (@nil (P * P))) with 0 in L1; rewrite zlen_cons in L1; lia|]. destruct rs as [|r rs]; [change (zlen (@nil R)) with 0 in L2; rewrite zlen_cons in L2; lia|]. rewrite !zlen_cons in L1. rewrite !zlen_cons in L2.
  destruct (IH ps rs ltac:(lia) ltac:(lia)) as (E1 & E2 & E3 & E4 & E5). cbn [combine map fst snd]. rewrite E1, E2, E3, E5, !zlen_cons, E4. repeat split; reflexivity.
Qed.
Lemma combine_snd {A B} (l : list A) : forall (m : list B), zlen m = zlen l -> map snd (combine l m) = m.
Proof.
  induction l as [|a l IH]; intros m L; destruct m as [|b m]; try reflexivity; [rewrite zlen_cons in L; change (zlen (@nil A)) with 0 in L; pose proof (zlen_nonneg m); lia|]. rewrite !zlen_cons in L. cbn [combine map snd]. f_equal. apply IH. lia.
Qed.
Lemma F2_combine {A B} (R : A -> B -> Prop) l l' : Forall2 R l l' -> Forall (fun p => R (fst p) (snd p)) (combine l l').
Proof. intro H. induction H; constructor; assumption. Qed.
Lemma combine_Forall {A B} (Q : A -> Prop) (l : list A) : Forall Q l -> forall m : list B, Forall (fun p => Q (fst p)) (combine l m).
Proof. intro H. induction H; intro m; destruct m; constructor; [assumption|apply IHForall]. Qed.

(** * Bytes *)
Lemma xw_bytes is64 v : bytes_ok (xw is64 v). Proof. apply bytes_ok_write_u. Qed.
Ltac bok := rewrite ?bytes_ok_app; repeat match goal with |- _ /\ _ => split end; try apply bytes_ok_write_u; try apply xw_bytes; try assumption.
Lemma xsec_enc_bytes is64 s : xsec_ok is64 s -> bytes_ok (xsec_enc is64 s).
Proof. intros (_ & H & _). unfold xsec_enc. destruct is64; cbv iota; bok. Qed.
Lemma xrel_enc_bytes is64 r : bytes_ok (xrel_enc is64 r).
Proof. unfold xrel_enc. bok. Qed.
Lemma xsym_enc_bytes is64 y : xsym_ok is64 y -> bytes_ok (xsym_enc is64 y).
Proof. intros (_ & H & _). unfold xsym_enc. destruct is64; cbv iota; bok. Qed.
Lemma xhdr_enc_bytes is64 h : bytes_ok (xhdr_enc is64 h).
Proof. unfold xhdr_enc. destruct is64; cbv iota; bok. Qed.
Lemma concat_map_bytes {X} (f : X -> bytes) l : (forall x, In x l -> bytes_ok (f x)) -> bytes_ok (concat (map f l)).
Proof. intro H. induction l as [|x l IH]; cbn [map concat]; [constructor|]. apply bytes_ok_app. split; [apply H; left; reflexivity|apply IH; intros; apply H; right; assumption]. Qed.
Lemma fold_bytes {X} (f : X -> bytes -> out bytes) l : (forall x w w', In x l -> bytes_ok w -> f x w = Ok w' -> bytes_ok w') -> forall w w', bytes_ok w -> fold_m f l w = Ok w' -> bytes_ok w'.
Proof.
  induction l as [|x l IH]; intros Hf w w' B E; cbn [fold_m] in E; [congruence|]. ok E w1 E1. apply (IH (fun x w w' Hi => Hf x w w' (or_intror Hi)) w1 w'); [|exact E]. apply (Hf x w w1); [left; reflexivity|assumption..].
Qed.

(** * Section headers *)
Definition sfor (is64 : bool) (x : osec * ((Z * Z) * Z)) (h : xsec) : Prop :=
  zlen (se_name (fst x)) <= 8 /\ exists fl, xw_section_flags (fst x) = Ok fl /\ u32_ok fl /\ flags_match (fst x) fl /\
    h = {| xs_name := se_name (fst x) ++ zeros (8 - zlen (se_name (fst x))); xs_paddr := fst (fst (snd x)) mod xmod is64; xs_vaddr := fst (fst (snd x)) mod xmod is64; xs_size := zlen (se_data (fst x)) mod xmod is64;
           xs_scnptr := snd (fst (snd x)) mod xmod is64; xs_relptr := snd (snd x) mod xmod is64; xs_lnnoptr := 0; xs_nreloc := zlen (se_relocs (fst x)) mod (if is64 then 2 ^ 32 else 2 ^ 16); xs_nlnno := 0; xs_flags := fl; xs_reserve := 0 |}.
Lemma xword_mod is64 v : xword is64 (v mod xmod is64).
Proof. unfold xword, xmod, u64_ok, u32_ok. destruct is64; apply Z.mod_pos_bound; reflexivity. Qed.
Lemma headers_back is64 o l bs : Forall (fun x => xo_section_ok is64 o (fst x)) l -> Forall2 (xsec_for is64) l bs ->
  exists hs, bs = map (xsec_enc is64) hs /\ Forall (xsec_ok is64) hs /\ Forall2 (sfor is64) l hs.
Proof.
  intros HF H. induction H as [|x b l bs Hx H IH]; [exists []; repeat split; constructor|]. destruct (IH (Forall_inv_tail HF)) as (hs & -> & I1 & I2). pose proof (Forall_inv HF) as HX. cbn beta in HX. destruct x as [s [[a d] r]]. cbn [fst] in HX. destruct Hx as (L & fl & E1 & ->).
  destruct (flags_section _ _ _ _ HX E1) as (F1 & F2). destruct HX as ((Hn & _) & _). pose proof (zlen_nonneg (se_name s)).
  eexists (_ :: hs). split; [reflexivity|]. split.
  - constructor; [|exact I1]. unfold xsec_ok. cbn [xs_name xs_paddr xs_vaddr xs_size xs_scnptr xs_relptr xs_lnnoptr xs_nreloc xs_nlnno xs_flags xs_reserve]. split; [rewrite zlen_app, zlen_zeros; lia|]. split; [apply bytes_ok_app; split; [exact Hn|apply bytes_ok_zeros]|].
    split; [apply xword_mod|]. split; [apply xword_mod|]. split; [apply xword_mod|]. split; [apply xword_mod|]. split; [apply xword_mod|]. split; [unfold xword, u64_ok, u32_ok; destruct is64; lia|]. split; [exact F2|]. unfold u32_ok, u16_ok. destruct is64; (split; [apply Z.mod_pos_bound; reflexivity|]; split; lia).
  - constructor; [|exact I2]. unfold sfor. cbn [fst snd]. split; [exact L|]. exists fl. auto.
Qed.
Lemma holds_len F o b : holds F o b -> b <> [] -> 0 <= o /\ 0 < zlen b /\ o + zlen b <= zlen F.
Proof.
  intros H N. apply holds_iff in H as (H1 & H2 & _). split; [exact H1|]. split; [|exact H2]. destruct b; [congruence|]. rewrite zlen_cons. pose proof (zlen_nonneg b). lia.
Qed.
Lemma padded_zeros n k : str_ok n -> padded (n ++ zeros k) n.
Proof.
  intros (_ & H). split; [exact H|]. destruct (Z.leb_spec k 0).
  - left. replace (zeros k) with (@nil Z); [apply app_nil_r|]. unfold zeros. replace (Z.to_nat k) with 0%nat by lia. reflexivity.
  - right. exists (zeros (k - 1)). f_equal. unfold zeros. replace (Z.to_nat k) with (S (Z.to_nat (k - 1))) by lia. reflexivity.
Qed.
Lemma section_done is64 o F f ys syms x h : xf_data f = F -> xf_64 f = is64 -> zlen F < 2 ^ 32 -> xo_section_ok is64 o (fst x) -> sfor is64 x h ->
  Forall (fun z => 0 <= xo_index z < 2 ^ 32) ys -> (forall i y, zget ys i = Some y -> exists z, zget syms i = Some (xo_index y, z)) ->
  (se_data (fst x) <> [] -> holds F (snd (fst (snd x))) (se_data (fst x))) ->
  (exists bs, Forall2 (xrel_for is64 ys) (se_relocs (fst x)) bs /\ (se_relocs (fst x) <> [] -> holds F (snd (snd x)) (concat bs))) ->
  section_back is64 f syms (fst x, fst (fst (snd x))) h.
Proof.
  intros Hf H64 HF HX (L & fl & E1 & E2 & E3 & ->) HI HS HD (bs & R1 & R2). destruct x as [s [[a d] r]]. cbn [fst snd] in *. unfold section_back. cbn [fst snd xs_name xs_paddr xs_vaddr xs_flags]. destruct HX as (Hn & Hd & _ & Hr & Hl).
  assert (X : 2 ^ 32 <= xmod is64) by (unfold xmod; destruct is64; lia).
  split; [apply padded_zeros; exact Hn|]. split; [reflexivity|]. split; [reflexivity|]. split.
  - unfold sec_data. cbn [xs_size xs_scnptr]. rewrite Hf. pose proof (zlen_nonneg (se_data s)). destruct (Z.eq_dec (zlen (se_data s)) 0) as [Z0|N0]; [apply zlen_0_nil in Z0; rewrite Z0; split; [symmetry; apply Z.mod_0_l; lia|congruence]|].
    assert (N : se_data s <> []) by (intro Q; apply N0; rewrite Q; reflexivity). pose proof (HD N) as HH. destruct (holds_len _ _ _ HH N) as (B1 & B2 & B3). rewrite !Z.mod_small by lia. auto.
  - split; [exact E3|]. destruct (relocs_back is64 ys (se_relocs s) bs R1) as (rs & -> & I1 & I2); [eapply Forall_impl; [|exact Hl]; cbn beta; tauto|exact HI|].
    exists rs. assert (LR : zlen rs = zlen (se_relocs s)) by (eapply CoffW_proofs.Forall2_zlen; exact I2). pose proof (zlen_nonneg (se_relocs s)). unfold sec_relocs. cbn [xs_nreloc xs_relptr]. rewrite Hf, H64.
    assert (LC : zlen (concat (map (xrel_enc is64) rs)) = zlen rs * xrel_size is64). { clear - I1. induction rs as [|q rs IH]; [reflexivity|]. cbn [map concat]. rewrite zlen_app, zlen_cons, (IH (Forall_inv_tail I1)). destruct (xrel_back is64 q (Forall_inv I1)) as (-> & _). lia. }
    assert (B : se_relocs s <> [] -> 0 <= r /\ r + zlen rs * xrel_size is64 <= zlen F /\ holds F r (concat (map (xrel_enc is64) rs))).
    { intro N. pose proof (R2 N) as HH. apply holds_iff in HH as HB. rewrite LC in HB. split; [apply HB|]. split; [apply HB|exact HH]. }
    assert (N : rs <> [] -> se_relocs s <> []) by (intros Q1 Q2; apply Q1; rewrite Q2 in LR; apply zlen_0_nil in LR; exact LR).
    assert (C : zlen (se_relocs s) < (if is64 then 2 ^ 32 else 2 ^ 16) /\ (is64 = false -> zlen (se_relocs s) <> 65535)).
    { destruct is64; [|specialize (Hr eq_refl); lia]. split; [|discriminate]. destruct (se_relocs s) as [|q q0] eqn:Q; [reflexivity|]. destruct B as (B1 & B2 & _); [discriminate|]. cbn [xrel_size] in B2. lia. }
    split.
    + split; [rewrite Z.mod_small; [exact LR|lia]|]. split; [exact I1|]. split.
      * intro Q. destruct (B (N Q)) as (B1 & B2 & B3). rewrite Z.mod_small; [exact B3|]. split; [exact B1|]. assert (0 <= zlen rs * xrel_size is64) by (apply Z.mul_nonneg_nonneg; [apply zlen_nonneg|destruct is64; cbn; lia]). lia.
      * intros Q. rewrite Z.mod_small by lia. apply C. exact Q.
    + clear - I2 HS. induction I2 as [|q x l rs (J1 & (y & J2 & J3) & J4) H IH]; constructor; [|exact IH]. unfold reloc_back. split; [exact J1|]. split; [|exact J4]. destruct (HS _ _ J2) as (z & K). exists z. rewrite J3. exact K.
Qed.

(** * Symbols *)
Lemma symbol_count xy o is64 l : forall k t f ys k' t' f', map_m (xw_symbol xy o is64) l (k, t, f) = Ok (ys, (k', t', f')) -> k + zlen l <= k'.
Proof.
  induction l as [|y l IH]; intros k t f ys k' t' f' E; cbn [map_m] in E.
  - apply ok_inj in E. assert (k' = k) by congruence. change (zlen (@nil osym)) with 0. lia.
  - destruct (xw_symbol xy o is64 y (k, t, f)) as [[s [[k1 t1] f1]]| |] eqn:E1; cbn [bind] in E; try discriminate.
    destruct (map_m (xw_symbol xy o is64) l (k1, t1, f1)) as [[ys1 [[k2 t2] f2]]| |] eqn:E2; cbn [bind] in E; try discriminate. apply ok_inj in E. assert (k' = k2) by congruence. subst k2. apply IH in E2. rewrite zlen_cons.
    assert (k + 1 <= k1); [|lia]. clear - E1. unfold xw_symbol in E1. unfold padd at 1 in E1. destruct (k + 1 <? 2 ^ 64); cbn [bind] in E1; [|discriminate]. destruct (xw_symbol_flags xy o y) as [fl| |]; cbn [bind] in E1; try discriminate.
    match type of E1 with bind ?m _ = _ => destruct m as [[[sx t2] f2]| |]; cbn [bind] in E1; try discriminate end. destruct (_ || _); [unfold padd in E1; destruct (k + 1 + 1 <? 2 ^ 64); cbn [bind] in E1; [|discriminate]|]; apply ok_inj in E1.
    + assert (k1 = k + 1 + 1) by congruence. lia.
    + assert (k1 = k + 1) by congruence. lia.
Qed.
Lemma place_relocs_len is64 l s rs s' : map_m (xw_place_relocs is64) l s = Ok (rs, s') -> zlen rs = zlen l.
Proof. apply CoffW_proofs.map_m_len. Qed.
Lemma stored_ok t len d t' w : tinv t -> st_in_order t = false -> ~ In [] (st_strings t) -> st_write t 4 = (Ok len, d, t') ->
  let F := w ++ write_u Big 4 len ++ d in
  len = 4 + zlen d /\ u32_ok len /\ bytes_ok d /\ st_strings t' = st_strings t /\ stored t' (Some F, zlen w, zlen w + len).
Proof.
  intros T O N E F. destruct (write_merge t (write_u Big 4 len) T O (or_intror N)) as (ws & d0 & t0 & E1 & -> & _ & M & E4 & _ & E6 & _ & H). rewrite zlen_write_u in *. change (Z.of_nat 4) with 4 in *. rewrite E1 in E. pose proof (zlen_nonneg (cstrings ws)).
  destruct (Z.ltb_spec (4 + zlen (cstrings ws)) (2 ^ 32)) as [L|L]; [|discriminate]. assert (len = 4 + zlen (cstrings ws)) by congruence. assert (d = cstrings ws) by congruence. assert (t' = t0) by congruence. subst d t0. clear E E1.
  destruct T as [_ TO _ _]. rewrite Forall_forall in TO. split; [assumption|]. split; [unfold u32_ok; lia|]. split.
  - unfold cstrings. apply concat_map_bytes. intros s Hs. apply M in Hs as (Hs & _). destruct (TO s Hs) as (Hb & _). apply bytes_ok_app. split; [exact Hb|repeat constructor; unfold byte_ok; lia].
  - split; [exact E4|]. intros id n G. rewrite E4 in G. destruct (H L id n G) as (off & G1 & G2 & (a & b & G3 & G4)). exists off. unfold st_get_offset. rewrite G1. split; [reflexivity|]. split; [exact G2|].
    destruct (TO n (zget_In _ _ _ G)) as (_ & Hn0). assert (LE : zlen (write_u Big 4 len ++ cstrings ws) = len) by (rewrite zlen_app, zlen_write_u; change (Z.of_nat 4) with 4; lia). rewrite G3, !zlen_app, zlen_cons in LE. pose proof (zlen_nonneg b).
    unfold xstring. split; [|split; [lia|]].
    + split; [|exact Hn0]. exists (w ++ a), b. unfold F. rewrite G3, <- !app_assoc. split; [reflexivity|]. rewrite zlen_app, G4. reflexivity.
    + unfold F. rewrite G3, !zlen_app, zlen_cons. lia.
Qed.
Lemma wrote_bytes is64 T addrs ys p b : wrote is64 T addrs ys p b -> bytes_ok b.
Proof.
  destruct p as [y s]. intros (x & aux & -> & X & _ & _ & _ & _ & _ & _ & H). cbn [concat]. apply bytes_ok_app. split; [apply xsym_enc_bytes; exact X|]. clear X. induction H; cbn [concat]; [constructor|]. apply bytes_ok_app. auto.
Qed.
Lemma align_ge_bytes w n : bytes_ok w -> bytes_ok (w ++ zeros n). Proof. intro H. apply bytes_ok_app. split; [exact H|apply bytes_ok_zeros]. Qed.
Lemma data_bytes x w w' : bytes_ok (se_data (fst x)) -> bytes_ok w -> xw_data x w = Ok w' -> bytes_ok w'.
Proof.
  destruct x as [s d]. cbn [fst]. intros Hd Hw E. unfold xw_data in E. destruct (negb _); [|congruence]. ok E n E1. destruct (negb _); [discriminate|]. apply ok_inj in E. subst w'. rewrite app_assoc. apply bytes_ok_app. split; [apply align_ge_bytes; exact Hw|exact Hd].
Qed.
Lemma relocs_bytes is64 ys x w w' : Forall (fun r => u64_ok (ol_offset r) /\ forall t z, ol_flags r = RFxcoff t z -> byte_ok t /\ byte_ok z) (se_relocs (fst x)) -> bytes_ok w -> xw_relocs is64 ys x w = Ok w' -> bytes_ok w'.
Proof.
  destruct x as [s d]. cbn [fst]. intros HF Hw E. unfold xw_relocs in E. destruct (se_relocs s) as [|r l] eqn:Q; [congruence|]. destruct (negb _); [discriminate|]. apply (fold_bytes (xw_reloc is64 ys) (r :: l)) with (w := w); [|exact Hw|exact E]. intros q w0 w1 Hi B E1. rewrite Forall_forall in HF. destruct (HF q Hi) as (K1 & K2).
  destruct (reloc_spec is64 ys q w0 w1 K1 K2 E1) as (b & -> & (y & t & z & _ & _ & ->)). apply bytes_ok_app. split; [exact B|apply xrel_enc_bytes].
Qed.

(** * The file *)
Lemma written xy o fflags F a : address_size (o_arch o) = Some a -> xo_ok (a =? 8) xy o fflags -> zlen F < 2 ^ 32 -> xcoff_write xy o fflags = Ok F ->
  bytes_ok F /\ exists f, file_back (a =? 8) xy o fflags F f.
Proof.
  intros HA (HN & HFl & HS & HY) HL E. unfold xcoff_write in E. rewrite HA in E. cbn [unwrap bind] in E. set (is64 := a =? 8) in *.
  ok E n0 E0. ok E off0 E1. destruct (map_m xw_place (o_sections o) (off0, 0)) as [[places [off1 addr1]]| |] eqn:EP; cbn [bind] in E; try discriminate.
  destruct (map_m (xw_place_relocs is64) (o_sections o) off1) as [[roffs off2]| |] eqn:ER; cbn [bind] in E; try discriminate.
  destruct (map_m (xw_symbol xy o is64) (o_symbols o) (0, st_new, None)) as [[ys [[count t] file]]| |] eqn:EY; cbn [bind] in E; try discriminate.
  ok E n1 E2. ok E off3 E3. destruct (st_write t 4) as [[[len| |] d] t'] eqn:EW; try discriminate. ok E off4 E4. ok E w1 E5. ok E w2 E6. ok E w3 E7.
  destruct (Z.eqb_spec off2 (zlen w3)) as [O2|]; cbn [negb] in E; [|discriminate]. ok E w4 E8. destruct (Z.eqb_spec off3 (zlen w4)) as [O3|]; cbn [negb] in E; [|discriminate].
  destruct (Z.eqb_spec off4 (zlen (w4 ++ write_u Big 4 len ++ d))) as [O4|]; cbn [negb] in E; [|discriminate]. apply ok_inj in E.
  (* sizes *)
  pose proof (symbol_count _ _ _ _ _ _ _ _ _ _ _ EY) as SC. pose proof (zlen_nonneg (o_symbols o)).
  assert (B3 : off3 = off2 + count * 18 /\ 0 <= off2). { unfold pmul in E2. destruct (count * 18 <? 2 ^ 64); [|discriminate]. apply ok_inj in E2. unfold padd in E3. destruct (off2 + n1 <? 2 ^ 64); [|discriminate]. apply ok_inj in E3. pose proof (zlen_nonneg w3). lia. }
  destruct B3 as (B3 & B3'). assert (FL : zlen w4 <= zlen F) by (rewrite <- E, zlen_app; pose proof (zlen_nonneg (write_u Big 4 len ++ d)); lia).
  (* symbols *)
  assert (T0 : tnv st_new None 0). { split; [apply tinv_new|reflexivity|intros []|change (zlen (st_strings st_new)) with 0; lia|discriminate]. }
  destruct (symbols_spec xy o is64 (o_symbols o) 0 st_new None 0 ys count t file HY T0 ltac:(lia) EY) as ([T1 T2 T3 _ _] & _ & _ & CH & SR).
  destruct (stored_ok t len d t' w4 T1 T2 T3 EW) as (L1 & L2 & L3 & L4 & ST). cbv zeta in ST. rewrite E in ST.
  assert (AX : Forall (fun s => yx_class (xo_flags s) <> 0 /\ xo_aux s = (if in_file s || is_csect_class (yx_class (xo_flags s)) then 1 else 0)) ys).
  { clear - SR HY. revert HY. induction SR as [|y s l ys (R1 & R2 & _) SR IH]; intro HY; constructor; [|apply IH; exact (Forall_inv_tail HY)]. split; [|exact R2]. apply flags_written in R1. apply (flags_fit _ _ _ _ (Forall_inv HY) R1). }
  assert (CR : Forall (fun z => 0 <= xo_index z < 2 ^ 32) ys).
  { destruct (chain_range ys) with (k := 0) (k' := count) as (_ & Q); [|exact CH|eapply Forall_impl; [|exact Q]; cbn beta; lia]. eapply Forall_impl; [|exact AX]. cbn beta. intros s (_ & ->). destruct (_ || _); lia. }
  pose proof (CoffW_proofs.map_m_len _ _ _ _ _ EY) as LY. destruct (place_spec _ _ _ _ _ (Z.le_refl 0) EP) as (AD & LP). pose proof (place_relocs_len _ _ _ _ _ ER) as LR.
  destruct (combine3 (o_sections o) places roffs LP LR) as (C1 & C2 & C3 & C4 & C5). pose proof (addresses_nonneg _ _ _ (Z.le_refl 0) AD) as AN.
  set (L := combine (o_sections o) (combine places roffs)) in *.
  assert (LS : Forall (fun x => xo_section_ok is64 o (fst x)) L) by (apply combine_Forall; exact HS).
  (* the passes *)
  set (h := {| xh_nscns := wrap_u 16 (zlen (o_sections o)); xh_timdat := 0; xh_symptr := off2; xh_nsyms := count; xh_opthdr := 0; xh_flags := fflags |}).
  assert (HO : xhdr_ok is64 h). { unfold xhdr_ok, h. cbn [xh_nscns xh_timdat xh_symptr xh_nsyms xh_opthdr xh_flags]. split; [unfold u16_ok, wrap_u; apply Z.mod_pos_bound; reflexivity|]. unfold xword, u64_ok, u32_ok, u16_ok in *. destruct is64; lia. }
  assert (HE : xw_header is64 (zlen (o_sections o)) off2 count fflags = xhdr_enc is64 h). { unfold xw_header, xhdr_enc, xw, h, wrap_u. cbn [xh_nscns xh_timdat xh_symptr xh_nsyms xh_opthdr xh_flags]. rewrite (Z.mod_small count), (Z.mod_small off2) by lia. destruct is64; reflexivity. }
  rewrite HE in E5. destruct (fold_app (xw_section_header is64) (xsec_for is64) L) with (w := xhdr_enc is64 h) (w' := w1) as (hb & W1 & HB); [intros x w w' _; apply header_spec|exact E5|].
  destruct (headers_back is64 o L hb LS HB) as (hs & -> & HS1 & HS2).
  destruct (fold_grow xw_data (fun x w => se_data (fst x) <> [] -> holds w (snd x) (se_data (fst x))) (combine (o_sections o) (map snd places))) with (w := w1) (w' := w2) as (db & W2 & DB); [intros x w w' _; apply data_spec|intros x w b Q1 Q2; apply CoffW_proofs.holds_ext; auto|exact E6|].
  assert (RO : Forall (fun x : osec * Z => Forall (fun r => u64_ok (ol_offset r) /\ forall t z, ol_flags r = RFxcoff t z -> byte_ok t /\ byte_ok z) (se_relocs (fst x))) (combine (o_sections o) roffs)).
  { apply (combine_Forall (fun s => Forall (fun r => u64_ok (ol_offset r) /\ forall t z, ol_flags r = RFxcoff t z -> byte_ok t /\ byte_ok z) (se_relocs s))). eapply Forall_impl; [|exact HS]. intros s (_ & _ & _ & _ & Q). eapply Forall_impl; [|exact Q]. cbn beta. tauto. }
  destruct (fold_grow (xw_relocs is64 ys) (fun x w => exists bs, Forall2 (xrel_for is64 ys) (se_relocs (fst x)) bs /\ (se_relocs (fst x) <> [] -> holds w (snd x) (concat bs))) (combine (o_sections o) roffs)) with (w := w2) (w' := w3) as (rb & W3 & RB).
  { intros x w w' Hi. rewrite Forall_forall in RO. apply relocs_spec. apply RO. exact Hi. }
  { intros x w b (bs & Q1 & Q2). exists bs. split; [exact Q1|]. intro. apply CoffW_proofs.holds_ext. auto. }
  { exact E7. }
  set (T := (Some F, zlen w4, zlen w4 + len) : strings) in *.
  assert (SRc : Forall (fun p => xo_symbol_ok xy o (fst p) /\ srel xy o is64 t' file (fst p) (snd p)) (combine (o_symbols o) ys)).
  { apply Forall_and; [apply (combine_Forall (xo_symbol_ok xy o)); exact HY|]. apply F2_combine. clear - SR L4. induction SR as [|y s l ys (R1 & R2 & R3 & R4) SR IH]; constructor; [|exact IH]. unfold srel. rewrite L4. auto. }
  destruct (fold_app (xw_write_symbol is64 t' file (map fst places) ys) (wrote is64 T (map fst places) ys) (combine (o_symbols o) ys)) with (w := w3) (w' := w4) as (sb & W4 & SB); [|exact E8|].
  { intros [y s] w w' Hi. rewrite Forall_forall in SRc. destruct (SRc _ Hi) as (Q1 & Q2). apply (write_symbol_spec xy o is64 t' T file (map fst places) ys y s w w' ST Q1 Q2 HN CR AN). }
  destruct (walk_spec is64 T (map fst places) ys (combine (o_symbols o) ys)) with (bs := sb) (k := 0) (k' := count) as (ents & syms & N1 & N2 & N3 & N4); [|exact SB|rewrite combine_snd by exact LY; exact CH|lia|].
  { rewrite Forall_forall in AX. apply Forall_forall. intros [y s] Hi. apply in_combine_r in Hi. cbn [snd]. apply AX. exact Hi. }
  set (tab := {| xt_64 := is64; xt_entries := ents; xt_strings := T |}). destruct (N4 tab [] eq_refl eq_refl eq_refl eq_refl) as (N5 & N6).
  (* where things are in the file *)
  assert (HD : holds F 0 (xhdr_enc is64 h) /\ holds F (hdr_bytes is64) (concat (map (xsec_enc is64) hs)) /\ holds F off2 (concat ents) /\ holds F off3 (write_u Big 4 len)).
  { destruct (xhdr_back is64 h HO) as (HLen & _). split; [|split; [|split]].
    - exists [], (concat (map (xsec_enc is64) hs) ++ db ++ rb ++ concat sb ++ write_u Big 4 len ++ d). split; [rewrite <- E, W4, W3, W2, W1, <- !app_assoc; reflexivity|reflexivity].
    - exists (xhdr_enc is64 h), (db ++ rb ++ concat sb ++ write_u Big 4 len ++ d). split; [rewrite <- E, W4, W3, W2, W1, <- !app_assoc; reflexivity|rewrite HLen; destruct is64; reflexivity].
    - exists w3, (write_u Big 4 len ++ d). split; [rewrite <- E, W4, N1, <- !app_assoc; reflexivity|symmetry; exact O2].
    - exists w4, d. split; [rewrite <- E; reflexivity|symmetry; exact O3]. }
  destruct HD as (H1 & H2 & H3 & H4).
  assert (EXT : forall o b, holds w2 o b -> holds F o b). { intros o0 b0 Q. rewrite <- E, W4, W3, <- !app_assoc. apply CoffW_proofs.holds_ext. exact Q. }
  assert (EXT3 : forall o b, holds w3 o b -> holds F o b). { intros o0 b0 Q. rewrite <- E, W4, <- !app_assoc. apply CoffW_proofs.holds_ext. exact Q. }
  set (f := {| xf_64 := is64; xf_data := F; xf_header := h; xf_aux := None; xf_sections := hs; xf_symbols := tab |}).
  assert (LH : zlen hs = zlen (o_sections o)) by (rewrite (CoffW_proofs.Forall2_zlen _ _ _ HS2); exact C4).
  split.
  { (* bytes *) assert (Z1 : bytes_ok w1) by (rewrite W1; apply bytes_ok_app; split; [apply xhdr_enc_bytes|apply concat_map_bytes; intros q Hq; rewrite Forall_forall in HS1; apply xsec_enc_bytes; auto]).
    assert (Z2 : bytes_ok w2). { apply (fold_bytes xw_data (combine (o_sections o) (map snd places))) with (w := w1); [|exact Z1|exact E6]. intros [s dd] w w' Hi. apply data_bytes. apply in_combine_l in Hi. rewrite Forall_forall in HS. apply HS. exact Hi. }
    assert (Z3 : bytes_ok w3). { apply (fold_bytes (xw_relocs is64 ys) (combine (o_sections o) roffs)) with (w := w2); [|exact Z2|exact E7]. intros x w w' Hi. apply relocs_bytes. rewrite Forall_forall in RO. apply RO. exact Hi. }
    rewrite <- E. apply bytes_ok_app. split; [|apply bytes_ok_app; split; [apply bytes_ok_write_u|exact L3]]. rewrite W4. apply bytes_ok_app. split; [exact Z3|]. clear - SB. induction SB as [|p b l bs Q SB IH]; cbn [concat]; [constructor|]. apply bytes_ok_app. split; [apply (wrote_bytes _ _ _ _ _ _ Q)|exact IH]. }
  exists f. unfold file_back. split; [|split; [reflexivity|split; [reflexivity|split; [reflexivity|]]]].
  - unfold xfile_of, f. cbn [xf_64 xf_data xf_header xf_aux xf_sections xf_symbols]. cbv zeta. split; [reflexivity|]. split; [reflexivity|]. split; [exact HO|]. split; [exact H1|]. split.
    + unfold aux_of, wants_aux, h. cbn [xh_opthdr]. unfold auxhdr_bytes. intros (_ & Q). destruct is64; discriminate.
    + split; [unfold h; cbn [xh_nscns]; unfold wrap_u; rewrite Z.mod_small; [exact LH|pose proof (zlen_nonneg (o_sections o)); lia]|]. split; [exact HS1|]. split; [intros _; unfold h; cbn [xh_opthdr]; rewrite Z.add_0_r; exact H2|].
      unfold symtab_of, tab, h. cbn [xt_64 xt_entries xt_strings xh_symptr xh_nsyms]. split; [reflexivity|]. destruct (Z.eqb_spec off2 0) as [Q|Q].
      * exfalso. destruct (xhdr_back is64 h HO) as (HLen & _). assert (K : zlen w3 = 0) by lia. rewrite W3, W2, W1, !zlen_app, HLen in K. pose proof (zlen_nonneg db). pose proof (zlen_nonneg rb). pose proof (zlen_nonneg (concat (map (xsec_enc is64) hs))). destruct is64; cbn [xhdr_size] in K; lia.
      * split; [lia|]. split; [exact N2|]. split; [intros _; exact H3|]. exists len. split; [exact L2|]. cbv zeta. replace (off2 + 18 * count) with off3 by lia. split; [exact H4|]. unfold T. rewrite <- O3. reflexivity.
  - exists (map fst places), syms. split; [exact AD|]. split; [exact N5|].
    assert (SYM : forall i y, zget ys i = Some y -> exists z, zget syms i = Some (xo_index y, z)).
    { intros i y G. pose proof (zget_Some_lt _ _ _ G) as GB. destruct (zget_lt_Some (o_symbols o) i ltac:(lia)) as (sy & Gs). destruct (CoffW_proofs.Forall2_zget_l _ _ _ i _ N6 (CoffW_proofs.zget_combine _ _ _ _ _ Gs G)) as ([k z] & G1 & (Q & _)). cbn [fst snd] in Q. exists z. rewrite <- Q. exact G1. }
    split.
    + unfold f at 2. cbn [xf_sections]. rewrite C1. apply F2_map.
      assert (DF : Forall (fun x : osec * ((Z * Z) * Z) => se_data (fst x) <> [] -> holds F (snd (fst (snd x))) (se_data (fst x))) L).
      { rewrite C2 in DB. rewrite Forall_map in DB. eapply Forall_impl; [|exact DB]. cbn [fst snd]. intros x Q1 Q2. apply EXT. auto. }
      assert (RF : Forall (fun x : osec * ((Z * Z) * Z) => exists bs, Forall2 (xrel_for is64 ys) (se_relocs (fst x)) bs /\ (se_relocs (fst x) <> [] -> holds F (snd (snd x)) (concat bs))) L).
      { rewrite C3 in RB. rewrite Forall_map in RB. eapply Forall_impl; [|exact RB]. cbn [fst snd]. intros x (bs & Q1 & Q2). exists bs. split; [exact Q1|]. intro. apply EXT3. auto. }
      pose proof (F2_forall _ _ _ _ (F2_forall _ _ _ _ (F2_forall _ _ _ _ HS2 LS) DF) RF) as FF.
      eapply MachP_proofs.Forall2_imp; [|exact FF]. cbn beta. intros x hh (((Q1 & Q2) & Q3) & Q4). eapply (section_done is64 o F f ys syms x hh); try reflexivity; eassumption.
    + apply (F2_fst _ (o_symbols o) ys); [lia|]. pose proof (F2_forall _ _ _ _ N6 SRc) as FF. eapply MachP_proofs.Forall2_imp; [|exact FF]. cbn beta. intros [y s] [i x] ((Q1 & Q2 & Q3 & Q4 & Q5 & Q6) & Q7 & Q8). cbn [fst snd] in *.
      unfold symbol_back. split; [exact Q2|]. split; [exact Q3|]. exists (xo_flags s). split; [apply flags_written; apply Q8|]. split; [exact Q4|]. split; [exact Q5|]. intro C. destruct (Q6 C) as (ax & K1 & K2 & K3 & K4 & K5 & K6). exists ax. repeat (split; [assumption|]).
      destruct (yx_csect (xo_flags s)) as [c|]; [|exact K6]. destruct K6 as (z & K6 & K7). destruct (SYM _ _ K6) as (zz & K8). exists (xo_index z), zz. split; [exact K8|]. rewrite K7. rewrite Forall_forall in CR. pose proof (CR z (zget_In _ _ _ K6)). apply Z.mod_small. unfold xmod. destruct is64; lia.
Qed.
