(** XCOFF writer: symbols, and reading back. *)
From Verif Require Import Core_proofs Util_proofs File_proofs Str_proofs Hash_proofs Pod_proofs.
From Verif Require MachWR_proofs Pe_proofs PeI_proofs Mach_proofs Ar_spec Ar_proofs CoffR_proofs CoffI_proofs CoffW_proofs MachQ_proofs Mach_spec Fkind_proofs Rel_proofs.
From Verif Require Import Xcoff_spec Xcoff_proofs XcoffR_proofs XcoffW_proofs.

(** * Flags *)
Lemma flags_written xy o y fl : xw_symbol_flags xy o y = Ok fl -> written_flags xy o y fl.
Proof.
  unfold xw_symbol_flags, written_flags. destruct (sy_flags y) as [[| | |v]|]; try discriminate; [unfold of_opt; destruct (xy v); congruence|].
  intro E. destruct (xcoff_symbol_flags o y) as [[r|]| |] eqn:R; cbn [bind of_opt] in E; try discriminate. apply ok_inj in E. symmetry in E. subst fl. rename r into fl. unfold xcoff_symbol_flags in R. unfold default_flags. cbv zeta.
  assert (K : match sy_kind y with YFile => True | YText | YData | YTls => True | _ => False end) by (destruct (sy_kind y); (exact I || discriminate)).
  destruct (sy_section y) as [| | | |id]; [| | | |destruct (zget (o_sections o) id) as [s|]].
  all: destruct (sy_kind y); try contradiction; destruct (sy_scope y); destruct (sy_weak y); cbn [bind unwrap andb is_csect_class Z.eqb orb] in R; try discriminate R.
  all: try match goal with |- context [se_kind ?s] => destruct (se_kind s) end.
  all: change C_FILE with 103 in R; change C_STAT with 3 in R; change C_WEAKEXT with 111 in R; change C_EXT with 2 in R; cbn in R; apply ok_inj in R; try discriminate R.
  all: match goal with E : Some ?a = Some ?b |- _ => assert (b = a) by congruence; subst b end; cbn [yx_class yx_type yx_csect yx_smtyp yx_smclas]; repeat (split; [reflexivity|]).
  all: intro C; try (unfold csect_class in C; lia); try reflexivity.
Qed.
Definition fit (fl : xyflags) : Prop := u16_ok (yx_type fl) /\ byte_ok (yx_class fl) /\ yx_class fl <> 0 /\ (csect_class (yx_class fl) -> byte_ok (yx_smtyp fl) /\ byte_ok (yx_smclas fl)).
Lemma flags_fit xy o y fl : xo_symbol_ok xy o y -> written_flags xy o y fl -> fit fl.
Proof.
  intros (_ & _ & _ & _ & _ & H) E. unfold written_flags in E. unfold fit. destruct (sy_flags y) as [[| | |v]|]; try contradiction; [destruct (H v fl eq_refl E) as (K1 & K2 & K3 & K4 & K5); auto|]. destruct E as (E1 & E2 & E3 & E4). cbv zeta in E4.
  assert (C : yx_class fl = 103 \/ yx_class fl = 3 \/ yx_class fl = 111 \/ yx_class fl = 2) by (destruct (sy_kind y), (sy_scope y), (sy_weak y); auto). unfold u16_ok, byte_ok. split; [rewrite E2; destruct (_ && _); lia|]. split; [lia|]. split; [lia|]. intro K. specialize (E4 K).
  assert (Q : yx_smtyp fl = fst (yx_smtyp fl, yx_smclas fl) /\ yx_smclas fl = snd (yx_smtyp fl, yx_smclas fl)) by (split; reflexivity). rewrite E4 in Q. destruct Q as (-> & ->).
  destruct (sy_kind y), (sy_section y) as [| | | |id]; try destruct (zget (o_sections o) id) as [sc|]; try destruct (se_kind sc); cbn; lia.
Qed.
Lemma csect_class_iff c : is_csect_class c = true <-> csect_class c.
Proof. unfold is_csect_class, csect_class, C_EXT, C_WEAKEXT, C_HIDEXT. rewrite !orb_true_iff, !Z.eqb_eq. tauto. Qed.

(** * Names *)
Definition stored (tw : strtab) (T : strings) : Prop := forall id n, zget (st_strings tw) id = Some n -> exists off, st_get_offset tw id = Ok off /\ u32_ok off /\ xstring T off n.
Lemma first_nonzero n : str_ok n -> n <> [] -> exists b r, n = b :: r /\ b <> 0.
Proof. intros (_ & H) Hn. destruct n as [|b r]; [congruence|]. exists b, r. split; [reflexivity|]. intro K. apply H. left. exact K. Qed.
Lemma name_field tw T n id f : stored tw T -> str_ok n -> n <> [] -> (8 <? zlen n = true -> exists i, id = Some i /\ zget (st_strings tw) i = Some n) -> xw_name_field tw n id = Ok f -> zlen f = 8 /\ bytes_ok f /\ xfield T f n.
Proof.
  intros HS Hn Hne Hid. unfold xw_name_field. pose proof (zlen_nonneg n). destruct (Z.leb_spec (zlen n) 8) as [L|L].
  - intro E. apply ok_inj in E. subst f. split; [rewrite zlen_app, zlen_zeros; lia|]. split; [apply bytes_ok_app; split; [apply Hn|apply bytes_ok_zeros]|]. destruct (first_nonzero n Hn Hne) as (b & r & En & Hb).
    assert (G0 : forall l, zget (n ++ l) 0 = Some b) by (intro l; rewrite En; cbn [app]; apply zget_0). unfold xfield. rewrite G0. destruct (Z.eqb_spec b 0); [contradiction|]. split; [apply Hn|]. destruct (Z.eq_dec (zlen n) 8) as [->|N]; [left; change (zeros (8 - 8)) with (@nil Z); apply app_nil_r|].
    right. exists (zeros (8 - zlen n - 1)). f_equal. unfold zeros. replace (Z.to_nat (8 - zlen n)) with (S (Z.to_nat (8 - zlen n - 1))) by lia. reflexivity.
  - intro E. destruct Hid as (i & -> & G); [apply Z.ltb_lt; exact L|]. cbn [unwrap bind] in E. destruct (HS i n G) as (off & E1 & E2 & E3). rewrite E1 in E. cbn [bind] in E. apply ok_inj in E. subst f. split; [reflexivity|]. split; [apply bytes_ok_app; split; [apply bytes_ok_zeros|apply bytes_ok_write_u]|].
    unfold xfield. change (zget (zeros 4 ++ write_u Big 4 off) 0) with (Some 0). cbn [Z.eqb]. exists off. split; [exact E2|]. split; [reflexivity|exact E3].
Qed.

(** * Entries *)
Definition place_ok (is64 : bool) (addrs : list Z) (y : osym) (x : xsym) : Prop :=
  match sy_section y with
  | YNone => xy_scnum x = -2 /\ xy_value x = sy_value y mod xmod is64
  | YUndefined | YCommon => xy_scnum x = 0 /\ xy_value x = sy_value y mod xmod is64
  | YAbsolute => xy_scnum x = -1 /\ xy_value x = sy_value y mod xmod is64
  | YSec id => xy_scnum x = id + 1 /\ exists a, zget addrs id = Some a /\ xy_value x = (a + sy_value y) mod xmod is64
  end.
Definition aux_ok (is64 : bool) (T : strings) (ys : list xsoff) (y : osym) (s : xsoff) (x : xsym) (aux : list bytes) : Prop :=
  let fl := xo_flags s in
  if in_file s then exists b a, aux = [b] /\ zlen b = 18 /\ file_entry is64 b a /\ xfield T (xa_fname a) (sy_name y)
  else own_name {| xt_64 := is64; xt_entries := []; xt_strings := T |} x (sy_name y) /\
    (csect_class (yx_class fl) -> exists b a, aux = [b] /\ zlen b = 18 /\ csect_entry is64 b a /\ xc_smtyp a = yx_smtyp fl /\ xc_smclas a = yx_smclas fl /\ xc_parmhash a = 0 /\ xc_snhash a = 0 /\
       match yx_csect fl with None => xc_scnlen a = sy_size y mod xmod is64 | Some c => exists z, zget ys c = Some z /\ xc_scnlen a = xo_index z mod xmod is64 end).
Definition wrote (is64 : bool) (T : strings) (addrs : list Z) (ys : list xsoff) (p : osym * xsoff) (b : bytes) : Prop :=
  let '(y, s) := p in
  exists x aux, b = concat (xsym_enc is64 x :: aux) /\ xsym_ok is64 x /\ xy_naux x = xo_aux s /\ zlen aux = xo_aux s /\ xy_type x = yx_type (xo_flags s) /\ xy_class x = yx_class (xo_flags s) /\
    place_ok is64 addrs y x /\ aux_ok is64 T ys y s x aux /\ Forall bytes_ok aux.
Lemma csect_bytes is64 a len t c : 0 <= len < 2 ^ 64 -> byte_ok t -> byte_ok c -> a = {| xc_scnlen := len mod xmod is64; xc_parmhash := 0; xc_snhash := 0; xc_smtyp := t; xc_smclas := c |} ->
  let b := write_u Big 4 (wrap_u 32 len) ++ write_u Big 4 0 ++ write_u Big 2 0 ++ [t] ++ [c] ++ (if is64 then write_u Big 4 (wrap_u 32 (Z.shiftr len 32)) ++ [0] ++ [AUX_CSECT] else write_u Big 4 0 ++ write_u Big 2 0) in
  zlen b = 18 /\ csect_entry is64 b a.
Proof.
  intros Hl Ht Hc -> b. split; [unfold b; destruct is64; reflexivity|]. unfold csect_entry, b. cbn [xc_scnlen xc_parmhash xc_snhash xc_smtyp xc_smclas]. unfold u32_ok, u16_ok. unfold byte_ok in *. split; [lia|]. split; [lia|]. split; [exact Ht|]. split; [exact Hc|].
  split; [unfold xword, xmod, u64_ok, u32_ok; destruct is64; apply Z.mod_pos_bound; reflexivity|]. exists (if is64 then write_u Big 4 (wrap_u 32 (Z.shiftr len 32)) ++ [0] ++ [AUX_CSECT] else write_u Big 4 0 ++ write_u Big 2 0). rewrite !wu1 by lia. split.
  - unfold xmod, wrap_u. destruct is64; [rewrite (Z.mod_small len (2 ^ 64)) by lia|rewrite Zmod_mod]; reflexivity.
  - split; [destruct is64; reflexivity|]. split; [destruct is64; repeat (apply bytes_ok_app; split); try apply bytes_ok_write_u; repeat constructor; unfold byte_ok, AUX_CSECT; lia|]. intros ->. exists 0. unfold xmod, wrap_u. rewrite (Z.mod_small len (2 ^ 64)) by lia. rewrite Z.shiftr_div_pow2 by lia.
    rewrite (Z.mod_small (len / 2 ^ 32)); [reflexivity|]. split; [apply Z.div_pos; lia|apply Z.div_lt_upper_bound; lia].
Qed.
Lemma file_bytes (is64 : bool) f : zlen f = 8 ->
  let b := f ++ zeros 6 ++ [0] ++ (if is64 then zeros 2 ++ [AUX_FILE] else zeros 3) in zlen b = 18 /\ file_entry is64 b {| xa_fname := f; xa_ftype := 0 |}.
Proof.
  intros L b. split; [unfold b; rewrite zlen_app, L; destruct is64; reflexivity|]. exists (zeros 6), (if is64 then zeros 2 ++ [AUX_FILE] else zeros 3). cbn [xa_fname xa_ftype]. split; [reflexivity|]. split; [exact L|]. split; [reflexivity|]. split; [unfold byte_ok; lia|]. split; [destruct is64; reflexivity|]. intros ->. reflexivity.
Qed.
Lemma write_symbol_spec xy o is64 tw T file addrs ys y s w w' : stored tw T -> xo_symbol_ok xy o y -> srel xy o is64 tw file y s -> zlen (o_sections o) < 2 ^ 15 -> Forall (fun z => 0 <= xo_index z < 2 ^ 32) ys -> Forall (fun x => 0 <= x) addrs ->
  xw_write_symbol is64 tw file addrs ys (y, s) w = Ok w' -> exists b, w' = w ++ b /\ wrote is64 T addrs ys (y, s) b.
Proof.
  intros HS HY HR HN HI HA E. pose proof HY as (Hs & Hne & Hv & Hz & Hid & _). destruct HR as (R1 & R2 & R3 & R4). apply flags_written in R1. pose proof (flags_fit _ _ _ _ HY R1) as (F1 & F2 & F3 & F4). clear R1. unfold u64_ok, u16_ok, byte_ok in *.
  unfold xw_write_symbol in E. cbv zeta in E.
  match type of E with bind ?m _ = _ => destruct m as [v| |] eqn:EV; cbn [bind] in E; try discriminate end.
  match type of E with bind ?m _ = _ => destruct m as [n| |] eqn:EN; cbn [bind] in E; try discriminate end.
  match type of E with bind ?m _ = _ => destruct m as [nm| |] eqn:EM; cbn [bind] in E; try discriminate end.
  change (yx_class (xo_flags s) =? C_FILE) with (in_file s) in *.
  (* name *)
  assert (M : zlen nm = (if is64 then 4 else 8) /\ bytes_ok nm /\ (in_file s = false -> forall x, xy_field x = nm -> own_name {| xt_64 := is64; xt_entries := []; xt_strings := T |} x (sy_name y))).
  { clear E EV EN. unfold own_name. cbn [xt_64 xt_strings]. destruct is64.
    - assert (Q : exists i, (if in_file s then file else xo_str s) = Some i /\ (in_file s = false -> zget (st_strings tw) i = Some (sy_name y)) /\ exists q, zget (st_strings tw) i = Some q).
      { destruct (in_file s); [destruct (R3 eq_refl) as (i & E1 & E2)|destruct (R4 eq_refl) as (i & E1 & E2)]; exists i; (split; [exact E1|]); (split; [intro; (discriminate || exact E2)|eauto]). }
      destruct Q as (i & Q1 & Q2 & q & Q3). rewrite Q1 in EM. cbn [unwrap bind] in EM. destruct (HS i q Q3) as (off & S1 & S2 & S3). rewrite S1 in EM. cbn [bind] in EM. apply ok_inj in EM. subst nm. split; [apply zlen_write_u|]. split; [apply bytes_ok_write_u|].
      intros Q x ->. rewrite (Q2 Q) in Q3. assert (q = sy_name y) by congruence. subst q. exists off. auto.
    - destruct (in_file s) eqn:Q; [apply ok_inj in EM; subst nm; split; [reflexivity|]; split; [apply bytes_ok_forallb; vm_compute; reflexivity|discriminate]|].
      destruct (name_field tw T (sy_name y) (xo_str s) nm HS Hs Hne R4 EM) as (A1 & A2 & A3). split; [exact A1|]. split; [exact A2|]. intros _ x ->. exact A3. }
  destruct M as (M1 & M2 & M3). clear EM.
  set (x := {| xy_field := nm; xy_value := v mod xmod is64; xy_scnum := n; xy_type := yx_type (xo_flags s); xy_class := yx_class (xo_flags s); xy_naux := xo_aux s |}).
  assert (VN : 0 <= v /\ (is64 = true -> v < 2 ^ 64) /\ - 2 ^ 15 <= n < 2 ^ 15 /\ place_ok is64 addrs y x).
  { clear E. unfold place_ok. unfold x. cbn [xy_scnum xy_value]. destruct (sy_section y) as [| | | |id].
    - destruct (sy_kind y); try discriminate. apply ok_inj in EV, EN. subst v n. repeat split; lia.
    - apply ok_inj in EV, EN. subst v n. repeat split; lia.
    - apply ok_inj in EV, EN. subst v n. repeat split; lia.
    - apply ok_inj in EV, EN. subst v n. repeat split; lia.
    - specialize (Hid id eq_refl). destruct (zget addrs id) as [a|] eqn:G; cbn [unwrap bind] in EV; [|discriminate]. unfold padd in EV. destruct (Z.ltb_spec (a + sy_value y) (2 ^ 64)); [|discriminate]. apply ok_inj in EV. subst v.
      rewrite Forall_forall in HA. pose proof (HA a (zget_In _ _ _ G)). assert (W : wrap_s 16 id = id) by (unfold wrap_s; rewrite Z.mod_small by lia; lia). rewrite W in EN. destruct (Z.ltb_spec (id + 1) (2 ^ 15)); [|discriminate]. apply ok_inj in EN. subst n. split; [lia|]. split; [intros _; lia|]. split; [lia|]. split; [reflexivity|]. exists a. auto. }
  destruct VN as (V1 & V2 & V3 & V4). clear EV EN.
  assert (AX : 0 <= xo_aux s < 256) by (rewrite R2; destruct (_ || _); lia).
  assert (X : xsym_ok is64 x). { unfold xsym_ok, x. cbn [xy_field xy_value xy_scnum xy_type xy_class xy_naux]. unfold u16_ok, byte_ok. split; [exact M1|]. split; [exact M2|]. split; [unfold xword, xmod, u64_ok, u32_ok; destruct is64; apply Z.mod_pos_bound; reflexivity|]. auto. }
  set (w1 := w ++ (if is64 then write_u Big 8 v ++ nm else nm ++ write_u Big 4 (wrap_u 32 v)) ++ write_i Big 2 n ++ write_u Big 2 (yx_type (xo_flags s)) ++ [yx_class (xo_flags s)] ++ [xo_aux s]) in *.
  assert (W1 : w1 = w ++ xsym_enc is64 x). { unfold w1, xsym_enc, x, xw, xmod, wrap_u. cbn [xy_field xy_value xy_scnum xy_type xy_class xy_naux]. rewrite !wu1 by lia. destruct is64; [rewrite (Z.mod_small v) by (split; [lia|apply V2; reflexivity])|]; reflexivity. }
  unfold wrote, aux_ok. cbv zeta. destruct (in_file s) eqn:Q.
  - destruct (negb (xo_aux s =? 1)); [discriminate|]. destruct (xw_name_field tw (sy_name y) (xo_str s)) as [f| |] eqn:EF; cbn [bind] in E; try discriminate. apply ok_inj in E. subst w'.
    destruct (name_field tw T (sy_name y) (xo_str s) f HS Hs Hne R4 EF) as (A1 & A2 & A3). destruct (file_bytes is64 f A1) as (B1 & B2).
    exists (xsym_enc is64 x ++ (f ++ zeros 6 ++ [0] ++ (if is64 then zeros 2 ++ [AUX_FILE] else zeros 3))). split; [rewrite W1, <- app_assoc; reflexivity|]. exists x, [f ++ zeros 6 ++ [0] ++ (if is64 then zeros 2 ++ [AUX_FILE] else zeros 3)].
    split; [cbn [concat]; rewrite app_nil_r; reflexivity|]. split; [exact X|]. split; [reflexivity|]. split; [rewrite R2; reflexivity|]. split; [reflexivity|]. split; [reflexivity|]. split; [exact V4|]. split; [eexists _, _; split; [reflexivity|]; split; [exact B1|]; split; [exact B2|exact A3]|]. constructor; [|constructor]. repeat (apply bytes_ok_app; split); [exact A2|apply bytes_ok_zeros|repeat constructor; unfold byte_ok; lia|]. destruct is64; apply bytes_ok_forallb; vm_compute; reflexivity.
  - destruct (is_csect_class (yx_class (xo_flags s))) eqn:C.
    + apply csect_class_iff in C as C'. destruct (F4 C') as (F5 & F6). destruct (negb (xo_aux s =? 1)); [discriminate|]. match type of E with bind ?m _ = _ => destruct m as [len| |] eqn:EL; cbn [bind] in E; try discriminate end. apply ok_inj in E. subst w'.
      assert (L : 0 <= len < 2 ^ 64 /\ match yx_csect (xo_flags s) with None => len = sy_size y | Some c => exists z, zget ys c = Some z /\ len = xo_index z end).
      { destruct (yx_csect (xo_flags s)) as [c|]; [|apply ok_inj in EL; subst; split; [lia|reflexivity]]. destruct (zget ys c) as [z|] eqn:G; cbn [unwrap bind] in EL; [|discriminate]. apply ok_inj in EL. subst len. rewrite Forall_forall in HI. pose proof (HI z (zget_In _ _ _ G)). split; [lia|]. exists z. auto. }
      destruct L as (L1 & L2). destruct (csect_bytes is64 _ len (yx_smtyp (xo_flags s)) (yx_smclas (xo_flags s)) L1 F5 F6 eq_refl) as (B1 & B2).
      match type of B1 with zlen ?b = 18 => exists (xsym_enc is64 x ++ b); split; [rewrite W1, <- app_assoc; reflexivity|]; exists x, [b] end.
      split; [cbn [concat]; rewrite app_nil_r; reflexivity|]. split; [exact X|]. split; [reflexivity|]. split; [rewrite R2; reflexivity|]. split; [reflexivity|]. split; [reflexivity|]. split; [exact V4|]. split; [|constructor; [|constructor]; repeat (apply bytes_ok_app; split); try apply bytes_ok_write_u; try (repeat constructor; unfold byte_ok in *; lia); destruct is64; [apply bytes_ok_app; split; [apply bytes_ok_write_u|apply bytes_ok_forallb; vm_compute; reflexivity]|apply bytes_ok_app; split; apply bytes_ok_write_u]].
      split; [apply M3; reflexivity|]. intros _. eexists _, _. split; [reflexivity|]. split; [exact B1|]. split; [exact B2|]. cbn [xc_scnlen xc_parmhash xc_snhash xc_smtyp xc_smclas].
      repeat (split; [reflexivity|]). destruct (yx_csect (xo_flags s)); [destruct L2 as (zz & L2 & ->); exists zz; auto|rewrite L2; reflexivity].
    + apply ok_inj in E. subst w'. exists (xsym_enc is64 x). split; [exact W1|]. exists x, []. split; [cbn [concat]; rewrite app_nil_r; reflexivity|]. split; [exact X|]. split; [reflexivity|]. split; [rewrite R2; reflexivity|]. split; [reflexivity|]. split; [reflexivity|]. split; [exact V4|]. split; [|constructor]. split; [apply M3; reflexivity|].
      intro K. apply csect_class_iff in K. congruence.
Qed.

(** * Reading symbols back *)
Definition back1 (is64 : bool) (t : xsymtab) (addrs : list Z) (ys : list xsoff) (p : osym * xsoff) (q : Z * xsym) : Prop :=
  fst q = xo_index (snd p) /\ sym_name t (fst q) (snd q) (sy_name (fst p)) /\ place_ok is64 addrs (fst p) (snd q) /\ xy_type (snd q) = yx_type (xo_flags (snd p)) /\ xy_class (snd q) = yx_class (xo_flags (snd p)) /\
  (csect_class (yx_class (xo_flags (snd p))) -> exists a, csect_of t (fst q) (snd q) a /\ xc_smtyp a = yx_smtyp (xo_flags (snd p)) /\ xc_smclas a = yx_smclas (xo_flags (snd p)) /\ xc_parmhash a = 0 /\ xc_snhash a = 0 /\
     match yx_csect (xo_flags (snd p)) with None => xc_scnlen a = sy_size (fst p) mod xmod is64 | Some c => exists z, zget ys c = Some z /\ xc_scnlen a = xo_index z mod xmod is64 end).
Lemma walk_spec is64 T addrs ys l : Forall (fun p => yx_class (xo_flags (snd p)) <> 0 /\ xo_aux (snd p) = (if in_file (snd p) || is_csect_class (yx_class (xo_flags (snd p))) then 1 else 0)) l ->
  forall bs k k', Forall2 (wrote is64 T addrs ys) l bs -> chain k (map snd l) k' -> 0 <= k ->
  exists ents syms, concat ents = concat bs /\ Forall (fun e => zlen e = 18) ents /\ zlen ents = k' - k /\
    forall t pre, xt_64 t = is64 -> xt_strings t = T -> zlen pre = k -> xt_entries t = pre ++ ents -> xwalk t k syms k' /\ Forall2 (back1 is64 t addrs ys) l syms.
Proof.
  induction l as [|[y s] l IH]; intros HL bs k k' HW HC Hk.
  - inversion HW; subst. inversion HC; subst. exists [], []. split; [reflexivity|]. split; [constructor|]. split; [change (zlen (@nil bytes)) with 0; lia|]. intros t pre _ _ Hp He. rewrite app_nil_r in He. split; [apply xw_end; rewrite He; lia|constructor].
  - inversion HW as [|p0 b l0 bs0 W0 W1 Q1 Q2]; subst. cbn [map snd] in HC. inversion HC as [|s0 l0 k0 C1 Q1 Q2 Q3]; subst. destruct W0 as (x & aux & -> & X1 & X2 & X3 & X4 & X5 & X6 & X7 & X8). pose proof (Forall_inv HL) as (H1 & H2). cbn [snd] in H1, H2.
    assert (A : 0 <= xo_aux s <= 1) by (rewrite H2; destruct (_ || _); lia).
    destruct (IH (Forall_inv_tail HL) bs0 (xo_index s + 1 + xo_aux s) k' W1 C1 ltac:(lia)) as (ents & syms & E1 & E2 & E3 & E4).
    assert (LA : Forall (fun e => zlen e = 18) aux /\ (in_file s = true \/ is_csect_class (yx_class (xo_flags s)) = true -> exists b, aux = [b])).
    { unfold aux_ok in X7. cbv zeta in X7. rewrite H2 in X3. destruct (in_file s); [destruct X7 as (b & a & -> & L & _); split; [repeat constructor; exact L|eauto]|]. cbn [orb] in X3. destruct X7 as (_ & X7). destruct (is_csect_class _) eqn:C; [apply csect_class_iff in C; destruct (X7 C) as (b & a & -> & L & _); split; [repeat constructor; exact L|eauto]|].
      apply zlen_0_nil in X3. subst aux. split; [constructor|intros [?|?]; discriminate]. }
    destruct LA as (LA & LB). destruct (xsym_back is64 x X1) as (LX & _).
    exists ((xsym_enc is64 x :: aux) ++ ents), ((xo_index s, x) :: syms). split; [rewrite concat_app, E1; reflexivity|]. split; [apply Forall_app; split; [constructor; assumption|exact E2]|]. split; [rewrite zlen_app, zlen_cons, X3, E3; lia|].
    intros t pre T1 T2 Hp He.
    assert (EN : entry t (xo_index s) x). { split; [rewrite T1; exact X1|]. rewrite He, T1. rewrite zget_app2 by lia. rewrite <- Hp, Z.sub_diag. apply zget_0. }
    assert (AU : forall b, aux = [b] -> zget (xt_entries t) (xo_index s + 1) = Some b). { intros b ->. rewrite He. rewrite zget_app2 by lia. replace (xo_index s + 1 - zlen pre) with 1 by lia. cbn [app]. rewrite zget_S by lia. change (1 - 1) with 0. apply zget_0. }
    destruct (E4 t (pre ++ xsym_enc is64 x :: aux) T1 T2) as (E5 & E6); [rewrite zlen_app, zlen_cons; lia|rewrite He, <- app_assoc; reflexivity|].
    split; [apply xw_some; [exact EN|rewrite X5; exact H1|rewrite X2; exact E5]|]. constructor; [|exact E6]. unfold back1. cbn [fst snd]. split; [reflexivity|]. split; [|split; [exact X6|split; [exact X4|split; [exact X5|]]]].
    + unfold sym_name. rewrite X5, X2. unfold aux_ok in X7. cbv zeta in X7. change (yx_class (xo_flags s) =? 103) with (in_file s). destruct (in_file s) eqn:Q; cbn [orb andb] in *.
      * rewrite H2. cbn [Z.ltb Z.compare]. destruct X7 as (b & a & Eb & Lb & B1 & B2). exists b, a. split; [apply AU; exact Eb|]. rewrite T1, T2. auto.
      * destruct X7 as (X7 & _). unfold own_name in *. cbn [xt_64 xt_strings] in X7. rewrite T1, T2. exact X7.
    + intro C. unfold aux_ok in X7. cbv zeta in X7. assert (Q : in_file s = false) by (unfold in_file, C_FILE; destruct C as [->|[->| ->]]; reflexivity). rewrite Q in X7. destruct X7 as (_ & X7). destruct (X7 C) as (b & a & Eb & Lb & B1 & B2). exists a. split; [|exact B2].
      assert (A1 : xo_aux s = 1) by (rewrite H2; rewrite (proj2 (csect_class_iff _) C), orb_true_r; reflexivity).
      split; [rewrite X5; exact C|]. split; [rewrite X2; lia|]. exists b. rewrite X2, A1, T1. split; [apply AU; exact Eb|exact B1].
Qed.
Lemma chain_range ys : Forall (fun z => 0 <= xo_aux z) ys -> forall k k', chain k ys k' -> k <= k' /\ Forall (fun z => k <= xo_index z < k') ys.
Proof.
  induction ys as [|s ys IH]; intros HF k k' C; inversion C as [|s0 l0 k0 C1 Q1 Q2 Q3]; subst; [split; [lia|constructor]|]. pose proof (Forall_inv HF) as H0. cbn beta in H0. destruct (IH (Forall_inv_tail HF) _ _ C1) as (I1 & I2). split; [lia|].
  constructor; [lia|]. eapply Forall_impl; [|exact I2]. cbn beta. intros; lia.
Qed.
Lemma relocs_back is64 ys l bs : Forall2 (xrel_for is64 ys) l bs -> Forall (fun r => u64_ok (ol_offset r) /\ forall t z, ol_flags r = RFxcoff t z -> byte_ok t /\ byte_ok z) l -> Forall (fun z => 0 <= xo_index z < 2 ^ 32) ys ->
  exists rs, bs = map (xrel_enc is64) rs /\ Forall (xrel_ok is64) rs /\
    Forall2 (fun r x => xr_vaddr x = ol_offset r mod xmod is64 /\ (exists y, zget ys (ol_symbol r) = Some y /\ xr_symndx x = xo_index y) /\ ol_flags r = RFxcoff (xr_rtype x) (xr_rsize x)) l rs.
Proof.
  intros H HF HI. induction H as [|r b l bs (y & t & z & G & Fl & ->) H IH]; [exists []; repeat split; constructor|]. destruct (IH (Forall_inv_tail HF)) as (rs & -> & I1 & I2). destruct (Forall_inv HF) as (Hv & Hb). destruct (Hb t z Fl) as (B1 & B2).
  assert (IX : 0 <= xo_index y < 2 ^ 32) by (rewrite Forall_forall in HI; apply HI; apply (zget_In _ _ _ G)).
  exists ({| xr_vaddr := ol_offset r mod xmod is64; xr_symndx := wrap_u 32 (xo_index y); xr_rsize := z; xr_rtype := t |} :: rs). split; [reflexivity|]. assert (W : wrap_u 32 (xo_index y) = xo_index y) by (apply Z.mod_small; lia). split.
  - constructor; [|exact I1]. unfold xrel_ok. cbn [xr_vaddr xr_symndx xr_rsize xr_rtype]. rewrite W. split; [unfold xword, xmod, u64_ok, u32_ok; destruct is64; apply Z.mod_pos_bound; reflexivity|]. split; [exact IX|]. auto.
  - constructor; [|exact I2]. cbn [xr_vaddr xr_symndx xr_rsize xr_rtype]. split; [reflexivity|]. split; [exists y; split; [exact G|exact W]|exact Fl].
Qed.
Definition flags_match (s : osec) (v0 : Z) : Prop :=
  match se_flags s with
  | SFOther v => v0 = v
  | SFNone => match se_kind s with
              | SKText | SKReadOnlyData | SKReadOnlyString | SKReadOnlyDataWithRel => v0 = 32
              | SKData => v0 = 64 | SKUninitializedData => v0 = 128 | SKTls => v0 = 1024 | SKUninitializedTls => v0 = 2048
              | SKOtherString => v0 = 512 | SKDebug | SKDebugString => v0 = 8192 | SKOther | SKMetadata => v0 = 0
              | _ => False
              end
  | _ => False
  end.
Lemma flags_section is64 o s fl : xo_section_ok is64 o s -> xw_section_flags s = Ok fl -> flags_match s fl /\ u32_ok fl.
Proof.
  intros (_ & _ & H & _). unfold xw_section_flags, flags_match. destruct (se_flags s) as [| | | |v]; try discriminate.
  - destruct (se_kind s); cbn; try discriminate; intro E; apply ok_inj in E; subst fl; (split; [reflexivity|unfold u32_ok; lia]).
  - intro E. apply ok_inj in E. subst v. split; [reflexivity|apply H; reflexivity].
Qed.
