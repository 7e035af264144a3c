(** XCOFF writer: what the passes compute. *)
From Verif Require Import Core_proofs Util_proofs File_proofs Str_proofs Hash_proofs Pod_proofs ElfWR_proofs.
From Verif Require MachWR_proofs Pe_proofs PeI_proofs Mach_proofs Ar_spec Ar_proofs CoffR_proofs CoffI_proofs CoffW_proofs MachQ_proofs Mach_spec Fkind_proofs Rel_proofs.
From Verif Require Import Xcoff_spec Xcoff_proofs.

Tactic Notation "ok" hyp(H) ident(x) ident(E) := match type of H with bind ?m _ = Ok _ => destruct m as [x| |] eqn:E; cbn [bind] in H; [|discriminate H|discriminate H] end.
Lemma ok_inj {A} (a b : A) : Ok a = Ok b -> a = b. Proof. congruence. Qed.
Lemma wu1 v : 0 <= v < 256 -> write_u Big 1 v = [v].
Proof. intro H. cbn. rewrite Z.mod_small by lia. reflexivity. Qed.
(** * Loops that append *)
Lemma fold_app {X} (f : X -> bytes -> out bytes) (P : X -> bytes -> Prop) l : (forall x w w', In x l -> f x w = Ok w' -> exists b, w' = w ++ b /\ P x b) ->
  forall w w', fold_m f l w = Ok w' -> exists bs, w' = w ++ concat bs /\ Forall2 P l bs.
Proof.
  induction l as [|x l IH]; intros Hf w w' E; cbn [fold_m] in E; [exists []; split; [rewrite app_nil_r; congruence|constructor]|].
  ok E w1 E1. destruct (Hf x w w1 (or_introl eq_refl) E1) as (b & -> & Hb). destruct (IH (fun x w w' Hi => Hf x w w' (or_intror Hi)) _ _ E) as (bs & -> & Hbs).
  exists (b :: bs). split; [cbn [concat]; rewrite app_assoc; reflexivity|constructor; assumption].
Qed.
Lemma fold_grow {X} (f : X -> bytes -> out bytes) (Q : X -> bytes -> Prop) l : (forall x w w', In x l -> f x w = Ok w' -> exists b, w' = w ++ b /\ Q x w') -> (forall x w b, Q x w -> Q x (w ++ b)) ->
  forall w w', fold_m f l w = Ok w' -> exists b, w' = w ++ b /\ Forall (fun x => Q x w') l.
Proof.
  intros Hf Hm. induction l as [|x l IH]; intros w w' E; cbn [fold_m] in E; [exists []; split; [rewrite app_nil_r; congruence|constructor]|].
  ok E w1 E1. destruct (Hf x w w1 (or_introl eq_refl) E1) as (b & -> & Hb). destruct (IH (fun x w w' Hi => Hf x w w' (or_intror Hi)) _ _ E) as (bs & -> & Hbs).
  exists (b ++ bs). split; [rewrite app_assoc; reflexivity|]. constructor; [apply Hm; exact Hb|exact Hbs].
Qed.
(** * Layout *)
Lemma loaded_iff k : has_address k = true <-> k = SKText \/ k = SKData \/ k = SKUninitializedData.
Proof. destruct k; cbn; split; intro H; try discriminate; auto; destruct H as [H|[H|H]]; discriminate. Qed.
Lemma align_up4 x : 0 <= x -> align_up x 4 mod 4 = 0 /\ x <= align_up x 4 < x + 4.
Proof. intro H. unfold align_up. Z.to_euclidean_division_equations; lia. Qed.
Lemma place_spec l : forall o a ps st', 0 <= a -> map_m xw_place l (o, a) = Ok (ps, st') -> addresses a l (map fst ps) /\ zlen ps = zlen l.
Proof.
  induction l as [|s l IH]; intros o a ps st' Ha E; cbn [map_m] in E.
  - assert (ps = []) by congruence. subst. split; [constructor|reflexivity].
  - unfold xw_place at 1 in E. destruct (has_address (se_kind s)) eqn:K.
    + apply loaded_iff in K. pose proof (zlen_nonneg (se_data s)) as HL. unfold padd at 1 in E. destruct (a + zlen (se_data s) <? 2 ^ 64); cbn [bind] in E; [|discriminate]. destruct (align 64 (a + zlen (se_data s)) 4) as [n| |] eqn:EA; cbn [bind] in E; try discriminate.
      apply CoffW_proofs.align4_inv in EA; [|lia]. subst n. destruct (align_up4 (a + zlen (se_data s)) ltac:(lia)) as (A1 & A2).
      destruct (if negb (zlen (se_data s) =? 0) then _ else _) as [[d o']| |]; cbn [bind] in E; try discriminate. destruct (map_m xw_place l _) as [[ps1 s1]| |] eqn:E2; cbn [bind] in E; try discriminate.
      apply IH in E2 as (E2 & L2); [|lia]. assert (ps = (a, d) :: ps1) by congruence. subst ps. split; [|rewrite !zlen_cons; lia]. cbn [map fst]. eapply ad_some; eassumption.
    + assert (N : ~ (se_kind s = SKText \/ se_kind s = SKData \/ se_kind s = SKUninitializedData)) by (intro M; apply loaded_iff in M; congruence). cbn [bind] in E.
      destruct (if negb (zlen (se_data s) =? 0) then _ else _) as [[d o']| |]; cbn [bind] in E; try discriminate. destruct (map_m xw_place l _) as [[ps1 s1]| |] eqn:E2; cbn [bind] in E; try discriminate.
      apply IH in E2 as (E2 & L2); [|lia]. assert (ps = (0, d) :: ps1) by congruence. subst ps. split; [|rewrite !zlen_cons; lia]. cbn [map fst]. apply ad_none; assumption.
Qed.
Lemma addresses_nonneg a l r : 0 <= a -> addresses a l r -> Forall (fun x => 0 <= x) r.
Proof. intros Ha H. induction H as [a|a s l r n K M B H IH|a s l r K H IH]; [constructor| |]; (constructor; [lia|]); apply IH; pose proof (zlen_nonneg (se_data s)); lia. Qed.
(** * Data and relocations *)
Lemma data_spec x w w' : xw_data x w = Ok w' -> exists b, w' = w ++ b /\ (se_data (fst x) <> [] -> holds w' (snd x) (se_data (fst x))).
Proof.
  destruct x as [s d]. unfold xw_data. cbn [fst snd]. destruct (Z.eqb_spec (zlen (se_data s)) 0) as [E|E]; cbn [negb].
  - intro H. exists []. split; [rewrite app_nil_r; congruence|]. apply zlen_0_nil in E. congruence.
  - intro H. ok H x EA. destruct (Z.eqb_spec d x) as [->|]; cbn [negb] in H; [|discriminate]. apply CoffW_proofs.align4_inv in EA; [|apply zlen_nonneg]. destruct (align_up4 (zlen w) (zlen_nonneg w)) as (_ & A). rewrite <- EA in A.
    exists (zeros (x - zlen w) ++ se_data s). assert (w' = w ++ zeros (x - zlen w) ++ se_data s) by congruence. subst w'. split; [reflexivity|]. intros _. rewrite app_assoc. replace x with (zlen (w ++ zeros (x - zlen w))) at 2 by (rewrite zlen_app, zlen_zeros; lia). apply CoffW_proofs.holds_end.
Qed.
(** the encoding of a written relocation *)
Definition xrel_for (is64 : bool) (ys : list xsoff) (r : orel) (b : bytes) : Prop :=
  exists y t z, zget ys (ol_symbol r) = Some y /\ ol_flags r = RFxcoff t z /\ b = xrel_enc is64 {| xr_vaddr := ol_offset r mod xmod is64; xr_symndx := wrap_u 32 (xo_index y); xr_rsize := z; xr_rtype := t |}.
Lemma reloc_spec is64 ys r w w' : u64_ok (ol_offset r) -> (forall t z, ol_flags r = RFxcoff t z -> byte_ok t /\ byte_ok z) -> xw_reloc is64 ys r w = Ok w' -> exists b, w' = w ++ b /\ xrel_for is64 ys r b.
Proof.
  intros Hv Hb. unfold xw_reloc. destruct (ol_flags r) as [| | | |t z] eqn:E; try discriminate. intro H. destruct (zget ys (ol_symbol r)) as [y|] eqn:G2; cbn [unwrap bind] in H; [|discriminate]. destruct (Hb t z eq_refl) as (B1 & B2). unfold byte_ok, u64_ok in *.
  apply ok_inj in H. subst w'. eexists. split; [reflexivity|]. exists y, t, z. split; [exact G2|]. split; [exact E|]. unfold xrel_enc, xw, xmod, wrap_u. cbn [xr_vaddr xr_symndx xr_rsize xr_rtype]. rewrite !wu1 by lia. destruct is64; [rewrite (Z.mod_small (ol_offset r)) by lia|]; rewrite <- ?app_assoc; reflexivity.
Qed.
Lemma relocs_spec is64 ys x w w' : Forall (fun r => u64_ok (ol_offset r) /\ forall t z, ol_flags r = RFxcoff t z -> byte_ok t /\ byte_ok z) (se_relocs (fst x)) -> xw_relocs is64 ys x w = Ok w' ->
  exists b, w' = w ++ b /\ exists bs, Forall2 (xrel_for is64 ys) (se_relocs (fst x)) bs /\ (se_relocs (fst x) <> [] -> holds w' (snd x) (concat bs)).
Proof.
  destruct x as [s d]. unfold xw_relocs. cbn [fst snd]. intros FA H. destruct (se_relocs s) as [|r l] eqn:E.
  - exists []. split; [rewrite app_nil_r; congruence|]. exists []. split; [constructor|congruence].
  - destruct (Z.eqb_spec d (zlen w)) as [->|]; cbn [negb] in H; [|discriminate]. rewrite Forall_forall in FA.
    destruct (fold_app (xw_reloc is64 ys) (xrel_for is64 ys) (r :: l)) with (w := w) (w' := w') as (bs & -> & F2); [|exact H|].
    { intros r0 w0 w1 Hi. destruct (FA r0 Hi) as (K1 & K2). apply reloc_spec; assumption. }
    exists (concat bs). split; [reflexivity|]. exists bs. split; [exact F2|]. intros _. apply CoffW_proofs.holds_end.
Qed.
Lemma xrel_for_len is64 ys r b : u64_ok (ol_offset r) -> xrel_for is64 ys r b -> zlen b = xrel_size is64.
Proof. intros _ (y & t & z & _ & _ & ->). unfold xrel_enc, xw. destruct is64; rewrite !zlen_app, !zlen_write_u; reflexivity. Qed.
(** * Section headers *)
Definition xsec_for (is64 : bool) (x : osec * ((Z * Z) * Z)) (b : bytes) : Prop :=
  let '(s, ((addr, doff), roff)) := x in
  zlen (se_name s) <= 8 /\ exists fl, xw_section_flags s = Ok fl /\
    b = xsec_enc is64 {| xs_name := se_name s ++ zeros (8 - zlen (se_name s)); xs_paddr := addr mod xmod is64; xs_vaddr := addr mod xmod is64; xs_size := zlen (se_data s) mod xmod is64;
          xs_scnptr := doff mod xmod is64; xs_relptr := roff mod xmod is64; xs_lnnoptr := 0; xs_nreloc := zlen (se_relocs s) mod (if is64 then 2 ^ 32 else 2 ^ 16); xs_nlnno := 0; xs_flags := fl; xs_reserve := 0 |}.
Lemma header_spec is64 x w w' : xw_section_header is64 x w = Ok w' -> exists b, w' = w ++ b /\ xsec_for is64 x b.
Proof.
  destruct x as [s [[a d] r]]. unfold xw_section_header, xsec_for. destruct (Z.ltb_spec 8 (zlen (se_name s))); [discriminate|]. intro H0. ok H0 fl EF. apply ok_inj in H0. subst w'. eexists. split; [reflexivity|]. split; [lia|]. exists fl. split; [reflexivity|].
  assert (M : forall v n, write_u Big n (v mod 2 ^ (8 * Z.of_nat n)) = write_u Big n v) by (intros; apply MachWR_proofs.write_u_mod).
  unfold xsec_enc, xw, xmod, wrap_u. cbn [xs_name xs_paddr xs_vaddr xs_size xs_scnptr xs_relptr xs_lnnoptr xs_nreloc xs_nlnno xs_flags xs_reserve]. destruct is64; rewrite <- ?app_assoc; [|reflexivity].
  change (2 ^ 64) with (2 ^ (8 * Z.of_nat 8)). rewrite !M. reflexivity.
Qed.

(** * Symbols: the first pass *)
Record tnv (t : strtab) (file : option Z) (n : Z) : Prop := {
  tn_t : tinv t; tn_o : st_in_order t = false; tn_ne : ~ In [] (st_strings t); tn_len : zlen (st_strings t) <= n;
  tn_file : forall id, file = Some id -> zget (st_strings t) id = Some (str ".file") }.
Lemma tnv_mono t file n m : tnv t file n -> n <= m -> tnv t file m.
Proof. intros [? ? ? ? ?] ?. split; try assumption. lia. Qed.
Definition keeps (t t' : strtab) : Prop := exists x, st_strings t' = st_strings t ++ x.
Lemma keeps_refl t : keeps t t. Proof. exists []. symmetry. apply app_nil_r. Qed.
Lemma keeps_trans a b c : keeps a b -> keeps b c -> keeps a c.
Proof. intros (x & H1) (y & H2). exists (x ++ y). rewrite H2, H1, <- app_assoc. reflexivity. Qed.
Lemma keeps_get a b i s : keeps a b -> zget (st_strings a) i = Some s -> zget (st_strings b) i = Some s.
Proof. intros (x & ->) H. apply zget_Some_lt in H as HB. rewrite zget_app1 by lia. exact H. Qed.
Lemma add_spec t file n s id t' : tnv t file n -> n < 2 ^ 32 -> str_ok s -> s <> [] -> xw_add t s = Ok (id, t') -> tnv t' file (n + 1) /\ keeps t t' /\ zget (st_strings t') id = Some s.
Proof.
  intros [H1 H2 H3 H4 H5] Hn Hs Hne E. unfold xw_add in E. destruct (st_add_spec t s H1 Hs ltac:(lia)) as (i & t1 & Ea & Ht & (ex & Hex & Hc) & Hg & Hid & Ho & Hb). rewrite Ea in E. assert (id = i) by congruence. assert (t' = t1) by congruence. subst id t'.
  assert (K : keeps t t1) by (exists ex; exact Hex). split; [|split; [exact K|exact Hg]]. split.
  - exact Ht.
  - congruence.
  - rewrite Hex. intro K2. apply in_app_or in K2 as [K2|K2]; [contradiction|]. destruct Hc as [(-> & _)| ->]; [contradiction|]. destruct K2 as [K2|[]]. congruence.
  - rewrite Hex, zlen_app. destruct Hc as [(-> & _)| ->]; [change (zlen (@nil bytes)) with 0|change (zlen [s]) with 1]; lia.
  - intros j Hj. apply (keeps_get t t1); [exact K|]. apply H5. exact Hj.
Qed.
Definition in_file (y : xsoff) : bool := yx_class (xo_flags y) =? C_FILE.
(** what the first pass computes for a symbol *)
Definition srel (xy : Z -> option xyflags) (o : obj) (is64 : bool) (t : strtab) (file : option Z) (y : osym) (s : xsoff) : Prop :=
  xw_symbol_flags xy o y = Ok (xo_flags s) /\ xo_aux s = (if in_file s || is_csect_class (yx_class (xo_flags s)) then 1 else 0) /\
  (in_file s && is64 = true -> exists id, file = Some id /\ zget (st_strings t) id = Some (str ".file")) /\
  ((if in_file s then 8 <? zlen (sy_name y) else is64 || (8 <? zlen (sy_name y))) = true -> exists id, xo_str s = Some id /\ zget (st_strings t) id = Some (sy_name y)).
Definition fkeeps (f f' : option Z) : Prop := forall id, f = Some id -> f' = Some id.
Lemma srel_mono xy o is64 t f t' f' y s : keeps t t' -> fkeeps f f' -> srel xy o is64 t f y s -> srel xy o is64 t' f' y s.
Proof.
  intros K Fk (H1 & H2 & H3 & H4). split; [exact H1|]. split; [exact H2|]. split.
  - intro Q. destruct (H3 Q) as (id & E1 & E2). exists id. split; [apply Fk; exact E1|apply (keeps_get t t'); assumption].
  - intro Q. destruct (H4 Q) as (id & E1 & E2). exists id. split; [exact E1|apply (keeps_get t t'); assumption].
Qed.
Lemma str_file : str_ok (str ".file") /\ str ".file" <> [].
Proof. split; [split; [apply bytes_ok_forallb; vm_compute; reflexivity|vm_compute; intuition discriminate]|discriminate]. Qed.
Lemma symbol_spec xy o is64 y k t file n s k' t' file' : xo_symbol_ok xy o y -> tnv t file n -> n + 2 < 2 ^ 32 -> xw_symbol xy o is64 y (k, t, file) = Ok (s, (k', t', file')) ->
  tnv t' file' (n + 2) /\ keeps t t' /\ fkeeps file file' /\ xo_index s = k /\ k' = k + 1 + xo_aux s /\ srel xy o is64 t' file' y s.
Proof.
  intros (Hs & Hne & _) T Hn E. unfold xw_symbol in E. unfold padd at 1 in E. destruct (k + 1 <? 2 ^ 64); cbn [bind] in E; [|discriminate]. destruct (xw_symbol_flags xy o y) as [fl| |] eqn:EF; cbn [bind] in E; try discriminate.
  match type of E with bind ?m _ = _ => destruct m as [[[sx t1] f1]| |] eqn:EM; cbn [bind] in E; try discriminate end.
  assert (A : tnv t1 f1 (n + 2) /\ keeps t t1 /\ fkeeps file f1 /\ ((yx_class fl =? C_FILE) && is64 = true -> exists id, f1 = Some id /\ zget (st_strings t1) id = Some (str ".file")) /\
    ((if yx_class fl =? C_FILE then 8 <? zlen (sy_name y) else is64 || (8 <? zlen (sy_name y))) = true -> exists id, sx = Some id /\ zget (st_strings t1) id = Some (sy_name y))).
  { clear E. destruct (yx_class fl =? C_FILE).
    - destruct str_file as (F1 & F2).
      assert (B : exists t2 f2, tnv t2 f2 (n + 1) /\ keeps t t2 /\ fkeeps file f2 /\ (is64 = true -> exists id, f2 = Some id) /\
        (if 8 <? zlen (sy_name y) then ' (id, t) <- xw_add t2 (sy_name y) ;; Ok (Some id, t, f2) else Ok (None, t2, f2)) = Ok (sx, t1, f1)).
      { destruct (is64 && match file with None => true | Some _ => false end) eqn:Q.
        - destruct (xw_add t (str ".file")) as [[id t2]| |] eqn:E1; cbn [bind] in EM; try discriminate. destruct (add_spec t file n (str ".file") id t2 T ltac:(lia) F1 F2 E1) as ([B1 B2 B3 B4 B5] & B6 & B7). apply andb_true_iff in Q as (Q1 & Q2). destruct file; [discriminate|].
          exists t2, (Some id). split; [split; try assumption; intros j Hj; assert (j = id) by congruence; subst j; exact B7|]. split; [exact B6|]. split; [intros j Hj; discriminate|]. split; [eauto|exact EM].
        - cbn [bind] in EM. exists t, file. split; [apply (tnv_mono _ _ n); [exact T|lia]|]. split; [apply keeps_refl|]. split; [intros j Hj; exact Hj|]. split; [|exact EM]. intros ->. cbn [andb] in Q. destruct file as [j|]; [eauto|discriminate]. }
      destruct B as (t2 & f2 & B1 & B2 & B3 & B4 & B5). clear EM. destruct (8 <? zlen (sy_name y)).
      + destruct (xw_add t2 (sy_name y)) as [[id t3]| |] eqn:E1; cbn [bind] in B5; try discriminate. destruct (add_spec t2 f2 (n + 1) (sy_name y) id t3 B1 ltac:(lia) Hs Hne E1) as (C1 & C2 & C3).
        assert (sx = Some id) by congruence. assert (t1 = t3) by congruence. assert (f1 = f2) by congruence. subst sx t1 f1. replace (n + 1 + 1) with (n + 2) in C1 by lia. split; [exact C1|]. split; [apply (keeps_trans _ t2); assumption|]. split; [exact B3|]. split; [|eauto].
        cbn [andb]. intro Q. destruct (B4 Q) as (j & ->). exists j. split; [reflexivity|]. apply (tn_file _ _ _ C1). reflexivity.
      + assert (t1 = t2) by congruence. assert (f1 = f2) by congruence. subst t1 f1. split; [apply (tnv_mono _ _ (n + 1)); [exact B1|lia]|]. split; [exact B2|]. split; [exact B3|]. split; [|discriminate]. cbn [andb]. intro Q. destruct (B4 Q) as (j & ->). exists j. split; [reflexivity|]. apply (tn_file _ _ _ B1). reflexivity.
    - destruct (is64 || (8 <? zlen (sy_name y))) eqn:Q.
      + destruct (xw_add t (sy_name y)) as [[id t3]| |] eqn:E1; cbn [bind] in EM; try discriminate. destruct (add_spec t file n (sy_name y) id t3 T ltac:(lia) Hs Hne E1) as (C1 & C2 & C3).
        assert (sx = Some id) by congruence. assert (t1 = t3) by congruence. assert (f1 = file) by congruence. subst sx t1 f1. split; [apply (tnv_mono _ _ (n + 1)); [exact C1|lia]|]. split; [exact C2|]. split; [intros j Hj; exact Hj|]. split; [discriminate|eauto].
      + assert (t1 = t) by congruence. assert (f1 = file) by congruence. subst t1 f1. split; [apply (tnv_mono _ _ n); [exact T|lia]|]. split; [apply keeps_refl|]. split; [intros j Hj; exact Hj|]. split; discriminate. }
  destruct A as (A1 & A2 & A3 & A4 & A5).
  assert (R : xo_index s = k /\ k' = k + 1 + xo_aux s /\ t' = t1 /\ file' = f1 /\ xo_flags s = fl /\ xo_str s = sx /\ xo_aux s = (if (yx_class fl =? C_FILE) || is_csect_class (yx_class fl) then 1 else 0)).
  { clear EM EF A1 A2 A3 A4 A5. destruct ((yx_class fl =? C_FILE) || is_csect_class (yx_class fl)).
    - unfold padd in E. destruct (k + 1 + 1 <? 2 ^ 64); cbn [bind] in E; [|discriminate]. apply ok_inj in E. assert (s = {| xo_index := k; xo_str := sx; xo_aux := 1; xo_flags := fl |}) by congruence. assert (k' = k + 1 + 1) by congruence. assert (t' = t1) by congruence. assert (file' = f1) by congruence. subst. auto 10.
    - apply ok_inj in E. assert (s = {| xo_index := k; xo_str := sx; xo_aux := 0; xo_flags := fl |}) by congruence. assert (k' = k + 1) by congruence. assert (t' = t1) by congruence. assert (file' = f1) by congruence. subst. cbn [xo_index xo_aux xo_str xo_flags]. rewrite Z.add_0_r. auto 10. }
  destruct R as (R1 & R2 & -> & -> & R3 & R4 & R5). split; [exact A1|]. split; [exact A2|]. split; [exact A3|]. split; [exact R1|]. split; [exact R2|]. unfold srel, in_file. rewrite R3, R4. auto.
Qed.
Inductive chain : Z -> list xsoff -> Z -> Prop :=
| ch_nil k : chain k [] k
| ch_cons s l k' : chain (xo_index s + 1 + xo_aux s) l k' -> chain (xo_index s) (s :: l) k'.
Lemma symbols_spec xy o is64 l : forall k t file n ys k' t' file', Forall (xo_symbol_ok xy o) l -> tnv t file n -> n + 2 * zlen l < 2 ^ 32 -> map_m (xw_symbol xy o is64) l (k, t, file) = Ok (ys, (k', t', file')) ->
  tnv t' file' (n + 2 * zlen l) /\ keeps t t' /\ fkeeps file file' /\ chain k ys k' /\ Forall2 (srel xy o is64 t' file') l ys.
Proof.
  induction l as [|y l IH]; intros k t file n ys k' t' file' Hl T Hn E; cbn [map_m] in E.
  - apply ok_inj in E. assert (ys = []) by congruence. assert (k' = k) by congruence. assert (t' = t) by congruence. assert (file' = file) by congruence. subst. change (zlen (@nil osym)) with 0. split; [apply (tnv_mono _ _ n); [exact T|lia]|]. split; [apply keeps_refl|]. split; [intros j Hj; exact Hj|]. split; constructor.
  - rewrite zlen_cons in *. pose proof (zlen_nonneg l). destruct (xw_symbol xy o is64 y (k, t, file)) as [[s [[k1 t1] f1]]| |] eqn:E1; cbn [bind] in E; try discriminate.
    destruct (symbol_spec xy o is64 y k t file n s k1 t1 f1 (Forall_inv Hl) T ltac:(lia) E1) as (A1 & A2 & A3 & A4 & A5 & A6).
    destruct (map_m (xw_symbol xy o is64) l (k1, t1, f1)) as [[ys1 [[k2 t2] f2]]| |] eqn:E2; cbn [bind] in E; try discriminate. apply ok_inj in E. assert (ys = s :: ys1) by congruence. assert (k' = k2) by congruence. assert (t' = t2) by congruence. assert (file' = f2) by congruence. subst ys k' t' file'.
    destruct (IH k1 t1 f1 (n + 2) ys1 k2 t2 f2 (Forall_inv_tail Hl) A1 ltac:(lia) E2) as (B1 & B2 & B3 & B4 & B5). split; [replace (n + 2 * (1 + zlen l)) with (n + 2 + 2 * zlen l) by lia; exact B1|]. split; [apply (keeps_trans _ t1); assumption|]. split; [intros j Hj; apply B3, A3, Hj|].
    split; [rewrite <- A4; constructor; rewrite A4, <- A5; exact B4|]. constructor; [apply (srel_mono _ _ _ t1 f1); assumption|exact B5].
Qed.
