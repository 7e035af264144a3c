(** Iteration over COFF symbols and COMDATs, for any file; then for a written file. *)
From Verif Require Import Coff_proofs Core_proofs Util_proofs File_proofs Str_proofs Pod_proofs Map_proofs Hash_proofs Rel_proofs ElfR_proofs Obj_proofs Ar_proofs ArSym_proofs Kind_proofs Ver_proofs.
From Verif Require Import Coff_spec CoffW_proofs CoffR_proofs.
From Verif Require Import Ar_spec.

Definition table_ok (t : csymtab) : Prop :=
  zlen (ct_entries t) < 2 ^ 63 /\ Forall (fun b => zlen b = coff_sym_size (ct_big t) /\ bytes_ok b) (ct_entries t).
Lemma chunks_ok n k l : 0 <= n -> bytes_ok l -> n * Z.of_nat k <= zlen l -> Forall (fun b => zlen b = n /\ bytes_ok b) (chunks n k l).
Proof.
  intro Hn. revert l. induction k as [|k IH]; intros l Hl HL; cbn [chunks]; [constructor|]. constructor.
  - split; [apply zlen_ztake; nia|apply bytes_ok_ztake; exact Hl].
  - apply IH; [apply bytes_ok_zdrop; exact Hl|]. rewrite zlen_zdrop; nia.
Qed.
Lemma slice_bytes_inv F off n k cs o' : file_ok F -> 0 < n -> 0 <= k -> 0 <= off -> rr_read_slice F off n k = (Ok cs, o') ->
  Forall (fun b => zlen b = n /\ bytes_ok b) cs /\ zlen cs = k /\ k < 2 ^ 63.
Proof.
  intros [Hb HF] Hn Hk Ho E. unfold rr_read_slice, cmul in E. destruct (Z.ltb_spec (k * n) (2 ^ 64)); [|discriminate].
  destruct (rr_read_bytes F off (k * n)) as [[b| |] o1] eqn:Er; try discriminate.
  destruct (slice_from_bytes b n k) as [[cs' r]| |] eqn:Es; try discriminate. injection E as <- <-.
  unfold slice_from_bytes, cmul in Es. destruct (k * n <? 2 ^ 64); cbn [of_opt bind] in Es; [|discriminate].
  destruct (get_from b (k * n)) as [tl|] eqn:Eg; cbn [of_opt bind] in Es; [|discriminate]. injection Es as <- <-.
  rewrite get_from_eq in Eg by nia. destruct (_ && _) eqn:Eb in Eg; [|discriminate].
  assert (Hbb : bytes_ok b /\ zlen b <= zlen F).
  { unfold rr_read_bytes in Er. rewrite rr_read_bytes_at_eq in Er by nia. destruct (k * n =? 0); [injection Er as <- <-; split; [constructor|apply zlen_nonneg]|].
    destruct (Z.leb_spec (off + k * n) (zlen F)); [|discriminate]. injection Er as <- <-. split; [apply bytes_ok_zslice; exact Hb|]. rewrite zlen_zslice; nia. }
  destruct Hbb as [Hbb Hlb]. split; [apply chunks_ok; [lia|exact Hbb|nia]|]. rewrite zlen_chunks, Z2Nat.id by lia. split; [reflexivity|nia].
Qed.
Lemma header_parse_inv big F h o' : file_ok F -> coff_header_parse big F = Ok (h, o') -> zlen h = coff_header_size big /\ bytes_ok h /\ 0 <= o' < 2 ^ 64.
Proof.
  intros [Hb HF] E. unfold coff_header_parse in E. assert (Hs : 0 < coff_header_size big <= 56) by (destruct big; cbn; lia).
  rewrite rr_read_eq in E by lia. destruct (Z.leb_spec (0 + coff_header_size big) (zlen F)); [|discriminate].
  assert (Hz : zlen (zslice 0 (coff_header_size big) F) = coff_header_size big /\ bytes_ok (zslice 0 (coff_header_size big) F)) by (split; [apply zlen_zslice; lia|apply bytes_ok_zslice; exact Hb]).
  destruct big.
  - destruct (_ || _) in E; [discriminate|]. assert (h = zslice 0 (coff_header_size true) F /\ o' = 0 + coff_header_size true) as [-> ->] by (split; congruence). split; [apply Hz|]. split; [apply Hz|lia].
  - pose proof (fld_bound Little 16 2 _ (proj2 Hz)) as Hf. unfold ch_opt, cadd in E. destruct (Z.ltb_spec (0 + coff_header_size false + fld Little 16 2 (zslice 0 (coff_header_size false) F)) (2 ^ 64)); cbn [of_opt bind] in E; [|discriminate].
    assert (h = zslice 0 (coff_header_size false) F /\ o' = 0 + coff_header_size false + fld Little 16 2 (zslice 0 (coff_header_size false) F)) as [-> ->] by (split; congruence). split; [apply Hz|]. split; [apply Hz|lia].
Qed.
Lemma parse_inv big F f : file_ok F -> coff_parse big F = Ok f -> table_ok (cf_symbols f) /\ cf_data f = F /\ cf_big f = big /\ ct_big (cf_symbols f) = big.
Proof.
  intros HF E. unfold coff_parse in E. destruct (coff_header_parse big F) as [[h o']| |] eqn:Eh; cbn [bind] in E; try discriminate.
  destruct (header_parse_inv _ _ _ _ HF Eh) as (Hz & Hb & Ho).
  destruct (coff_sections_parse big h F o') as [s| |]; cbn [bind] in E; try discriminate.
  destruct (coff_symbols_parse big h F) as [y| |] eqn:Ey; cbn [bind] in E; try discriminate. injection E as <-. cbn [cf_symbols cf_data cf_big].
  unfold coff_symbols_parse in Ey. destruct (Z.eqb_spec (ch_symptr big h) 0).
  - injection Ey as <-. cbn [ct_big]. split; [split; [cbn; lia|constructor]|auto].
  - destruct (rr_read_slice F (ch_symptr big h) (coff_sym_size big) (ch_nsyms big h)) as [[l| |] o2] eqn:Es; try discriminate.
    destruct (rr_read_at F o2 4); cbn [bind] in Ey; try discriminate. destruct (cadd 64 o2 _); cbn [of_opt bind] in Ey; try discriminate. injection Ey as <-. cbn [ct_big ct_entries].
    assert (B : 0 <= ch_nsyms big h /\ 0 <= ch_symptr big h).
    { unfold ch_nsyms, ch_symptr. destruct big; pose proof (fld_bound Little 52 4 h Hb); pose proof (fld_bound Little 12 4 h Hb); pose proof (fld_bound Little 48 4 h Hb); pose proof (fld_bound Little 8 4 h Hb); lia. }
    apply slice_bytes_inv in Es; [|exact HF|destruct big; cbn; lia|lia|lia]. destruct Es as (A1 & A2 & A3). split; [split; [cbn [ct_entries]; lia|exact A1]|auto].
Qed.
Lemma parse_no_panic big F : file_ok F -> coff_parse big F <> Panic.
Proof.
  intros HF. unfold coff_parse. assert (Hh : coff_header_parse big F <> Panic).
  { unfold coff_header_parse. pose proof (rr_read_no_panic F 0 (coff_header_size big)). destruct (rr_read _ _ _) as [[h| |] o'] ; cbn [fst] in *; try congruence.
    destruct big; [destruct (_ || _); discriminate|]. destruct (cadd _ _ _); discriminate. }
  destruct (coff_header_parse big F) as [[h o']| |] eqn:Eh; cbn [bind]; try congruence.
  assert (Hs : coff_sections_parse big h F o' <> Panic).
  { unfold coff_sections_parse, rr_read_slice_at. pose proof (rr_read_slice_no_panic F o' coff_sec_size (ch_nsections big h)). destruct (fst _); cbn [bind]; congruence. }
  destruct (coff_sections_parse big h F o'); cbn [bind]; try congruence.
  assert (Hy : coff_symbols_parse big h F <> Panic).
  { unfold coff_symbols_parse. destruct (_ =? 0); [discriminate|]. pose proof (rr_read_slice_no_panic F (ch_symptr big h) (coff_sym_size big) (ch_nsyms big h)).
    destruct (rr_read_slice _ _ _ _) as [[l| |] o2]; cbn [fst] in *; try congruence. pose proof (rr_read_at_no_panic F o2 4). destruct (rr_read_at F o2 4); cbn [bind]; try congruence.
    destruct (cadd _ _ _); discriminate. }
  destruct (coff_symbols_parse big h F); cbn [bind]; congruence.
Qed.

(** ** Symbols *)
Lemma coff_get_eq t index offset size : table_ok t -> 0 <= index -> 0 <= offset -> 0 <= size <= 18 ->
  coff_get t index offset size = match zget (ct_entries t) (index + offset) with Some b => Ok (ztake size b) | None => Err end.
Proof.
  intros [Hl Ht] Hi Ho Hs. unfold coff_get, cadd. destruct (Z.ltb_spec (index + offset) (2 ^ 64)); cbn [of_opt bind].
  - destruct (zget (ct_entries t) (index + offset)) as [b|] eqn:Eg; cbn [of_opt bind]; [|reflexivity].
    pose proof (Forall_zget _ _ _ _ Ht Eg) as [L _]. cbn beta in L. assert (18 <= zlen b) by (rewrite L; destruct (ct_big t); cbn; lia).
    unfold b_read, from_bytes. rewrite get_from_eq. replace (0 <=? size) with true by lia. replace (size <=? zlen b) with true by lia. reflexivity.
  - replace (zget (ct_entries t) (index + offset)) with (@None bytes); [reflexivity|]. symmetry. apply zget_None. lia.
Qed.
Lemma coff_symbol_eq t index : table_ok t -> 0 <= index ->
  coff_symbol t index = match zget (ct_entries t) index with Some b => Ok (csym_of (ct_big t) b) | None => Err end.
Proof.
  intros HT Hi. unfold coff_symbol, coff_get, cadd. rewrite Z.add_0_r. destruct HT as [Hl Ht]. destruct (Z.ltb_spec index (2 ^ 64)); cbn [of_opt bind].
  - destruct (zget (ct_entries t) index) as [b|] eqn:Eg; cbn [of_opt bind]; [|reflexivity].
    pose proof (Forall_zget _ _ _ _ Ht Eg) as [L _]. cbn beta in L.
    unfold b_read. rewrite from_bytes_all by (symmetry; exact L). reflexivity.
  - replace (zget (ct_entries t) index) with (@None bytes); [reflexivity|]. symmetry. apply zget_None. lia.
Qed.
Lemma naux_range t k b : table_ok t -> zget (ct_entries t) k = Some b -> 0 <= y_naux (csym_of (ct_big t) b) < 256.
Proof.
  intros [_ Ht] Hg. pose proof (Forall_zget _ _ _ _ Ht Hg) as [_ Hb]. cbn beta in Hb. unfold csym_of. destruct (ct_big t); cbn [y_naux]; apply (fld_bound Little _ 1 b Hb); lia.
Qed.
Lemma walk_exists t : table_ok t -> forall k, 0 <= k -> exists l k', walk t k l k' /\ (length l <= Z.to_nat (zlen (ct_entries t) - k))%nat.
Proof.
  intros HT k. remember (Z.to_nat (zlen (ct_entries t) - k)) as m eqn:Em. revert k Em. induction m as [m IH] using lt_wf_ind. intros k -> Hk.
  destruct (Z_le_dec (zlen (ct_entries t)) k).
  - exists [], k. split; [constructor; lia|cbn; lia].
  - destruct (zget_lt_Some (ct_entries t) k ltac:(lia)) as [b Hb]. pose proof (naux_range _ _ _ HT Hb).
    destruct (IH (Z.to_nat (zlen (ct_entries t) - (k + 1 + y_naux (csym_of (ct_big t) b))))) with (k := k + 1 + y_naux (csym_of (ct_big t) b)) as (l & k' & Hw & Hl); [lia|reflexivity|lia|].
    eexists (_ :: l), k'. split; [econstructor; eassumption|]. cbn [length]. lia.
Qed.
Lemma walk_len t k l k' : table_ok t -> 0 <= k -> walk t k l k' -> (length l <= Z.to_nat (zlen (ct_entries t) - k))%nat.
Proof.
  intros HT Hk H. revert Hk. induction H as [k Hk'|k b l k' Hg Hw IH]; intro Hk; cbn [length]; [lia|].
  pose proof (naux_range _ _ _ HT Hg). apply zget_Some_lt in Hg. specialize (IH ltac:(lia)). lia.
Qed.
Lemma step_ok t k b : table_ok t -> zget (ct_entries t) k = Some b ->
  padd 64 k (1 + y_naux (csym_of (ct_big t) b)) = Ok (k + 1 + y_naux (csym_of (ct_big t) b)).
Proof.
  intros HT Hg. pose proof (naux_range _ _ _ HT Hg). apply zget_Some_lt in Hg. destruct HT as [HT _]. unfold padd.
  destruct (Z.ltb_spec (k + (1 + y_naux (csym_of (ct_big t) b))) (2 ^ 64)); [|lia]. f_equal. lia.
Qed.
Lemma symbol_none t k : table_ok t -> 0 <= k -> zlen (ct_entries t) <= k -> coff_symbol t k = Err.
Proof. intros HT Hk Hl. rewrite coff_symbol_eq by assumption. rewrite (proj2 (zget_None (ct_entries t) k)) by lia. reflexivity. Qed.
Lemma symbol_some t k b : table_ok t -> zget (ct_entries t) k = Some b -> coff_symbol t k = Ok (csym_of (ct_big t) b).
Proof. intros HT Hg. pose proof (zget_Some_lt _ _ _ Hg). rewrite coff_symbol_eq by (assumption || lia). rewrite Hg. reflexivity. Qed.
Lemma walk_runs t k l k' : table_ok t -> 0 <= k -> walk t k l k' -> runs (coff_sym_next t) k l false k'.
Proof.
  intros HT Hk H. revert Hk. induction H as [k Hl|k b l k' Hg Hw IH]; intro Hk.
  - apply runs_done. unfold coff_sym_next. rewrite symbol_none by assumption. reflexivity.
  - pose proof (naux_range _ _ _ HT Hg). eapply runs_more; [|apply IH; lia]. unfold coff_sym_next. rewrite (symbol_some _ _ _ HT Hg), (step_ok _ _ _ HT Hg). reflexivity.
Qed.
Lemma walk_det t k l k' : walk t k l k' -> forall m k2, walk t k m k2 -> l = m /\ k' = k2.
Proof.
  intro H. induction H as [k Hl|k b l k' Hg Hw IH]; intros m k2 H2; inversion H2; subst.
  - auto.
  - match goal with H : zget _ _ = Some _ |- _ => apply zget_Some_lt in H end. lia.
  - apply zget_Some_lt in Hg. lia.
  - match goal with H : zget _ _ = Some ?x |- _ => assert (x = b) by congruence; subst x end.
    match goal with H : walk _ _ _ k2 |- _ => destruct (IH _ _ H) as [-> ->] end. auto.
Qed.
(** ** COMDATs *)
(** the first symbol of section [n] *)
Definition first_in (n : Z) (l : list (Z * csym)) : option Z := option_map fst (find (fun iy => n =? y_secnum (snd iy)) l).
Lemma comdat_symbol_walk t n : table_ok t -> forall l k b k' fuel, 0 <= k -> zget (ct_entries t) k = Some b -> walk t (k + 1 + y_naux (csym_of (ct_big t) b)) l k' -> (length l < fuel)%nat ->
  comdat_symbol fuel t n k (csym_of (ct_big t) b) = Ok (first_in n l).
Proof.
  intros HT. induction l as [|[j y] l IH]; intros k b k' fuel Hk Hg Hw Hf; (destruct fuel as [|fuel]; [cbn in Hf; lia|]); pose proof (naux_range _ _ _ HT Hg) as Hn; cbn [comdat_symbol].
  - rewrite (step_ok _ _ _ HT Hg). cbn [bind]. inversion Hw; subst. rewrite symbol_none by (assumption || lia). reflexivity.
  - rewrite (step_ok _ _ _ HT Hg). cbn [bind]. inversion Hw; subst. match goal with H : zget _ (k + 1 + _) = Some ?x |- _ => rename H into Hg2; rename x into b2 end.
    rewrite (symbol_some _ _ _ HT Hg2). unfold first_in. cbn [find snd]. destruct (n =? y_secnum (csym_of (ct_big t) b2)); [reflexivity|].
    apply (IH _ _ k'); [lia|exact Hg2|assumption|cbn in Hf; lia].
Qed.
Lemma aux_section_no_panic t k : table_ok t -> 0 <= k -> coff_aux_section t k <> Panic.
Proof. intros HT Hk. unfold coff_aux_section. rewrite coff_get_eq by (assumption || lia). destruct (zget _ _); discriminate. Qed.
(** what a symbol says about COMDATs, given the symbols after it *)
Definition comdat_at (f : cfile) (k : Z) (y : csym) (l : list (Z * csym)) : option ccomdat :=
  if has_aux_section y && (0 <? y_secnum y) then
    match coff_aux_section (cf_symbols f) k with
    | Ok a => if (x_sel a =? 0) || (x_sel a =? 5) then None else
        option_map (fun i => {| cc_symbol := i; cc_section := y_secnum y; cc_sel := x_sel a |}) (first_in (y_secnum y) l)
    | _ => None
    end
  else None.
Lemma comdat_parse_walk f k b l k' : table_ok (cf_symbols f) -> zget (ct_entries (cf_symbols f)) k = Some b ->
  walk (cf_symbols f) (k + 1 + y_naux (csym_of (ct_big (cf_symbols f)) b)) l k' ->
  comdat_parse f (csym_of (ct_big (cf_symbols f)) b) k = Ok (comdat_at f k (csym_of (ct_big (cf_symbols f)) b) l).
Proof.
  intros HT Hg Hw. pose proof (zget_Some_lt _ _ _ Hg) as Hk. pose proof (naux_range _ _ _ HT Hg). unfold comdat_parse, comdat_at. destruct (has_aux_section _); cbn [negb andb]; [|reflexivity].
  unfold secnum_index. destruct (0 <? y_secnum _); [|reflexivity]. pose proof (aux_section_no_panic _ k HT ltac:(lia)).
  destruct (coff_aux_section (cf_symbols f) k) as [a| |]; [|reflexivity|congruence]. change SELECT_ASSOCIATIVE with 5. destruct (_ || _); [reflexivity|].
  assert (Hk0 : 0 <= k + 1 + y_naux (csym_of (ct_big (cf_symbols f)) b)) by lia. pose proof (walk_len _ _ _ _ HT Hk0 Hw) as HL. unfold zlen in HL.
  rewrite (comdat_symbol_walk _ _ HT l k b k') by (assumption || lia). reflexivity.
Qed.
Fixpoint comdats_of (f : cfile) (l : list (Z * csym)) : list ccomdat :=
  match l with [] => [] | (k, y) :: l => match comdat_at f k y l with Some c => c :: comdats_of f l | None => comdats_of f l end end.
Lemma comdat_next_walk f : table_ok (cf_symbols f) -> forall l k k' fuel, 0 <= k -> walk (cf_symbols f) k l k' -> (length l < fuel)%nat ->
  (comdats_of f l = [] /\ comdat_next fuel f k = (Ok None, k')) \/
  (exists c l2 k2, comdats_of f l = c :: comdats_of f l2 /\ comdat_next fuel f k = (Ok (Some c), k2) /\ 0 <= k2 /\ walk (cf_symbols f) k2 l2 k' /\ (length l2 < length l)%nat).
Proof.
  intros HT. induction l as [|[j y] l IH]; intros k k' fuel Hk Hw Hf; (destruct fuel as [|fuel]; [cbn in Hf; lia|]); cbn [comdat_next]; inversion Hw; subst.
  - left. split; [reflexivity|]. rewrite symbol_none by assumption. reflexivity.
  - match goal with H : zget _ _ = Some ?x |- _ => rename H into Hg; rename x into b end. match goal with H : walk _ (_ + _) _ _ |- _ => rename H into Hw2 end. pose proof (naux_range _ _ _ HT Hg).
    rewrite (symbol_some _ _ _ HT Hg), (step_ok _ _ _ HT Hg), (comdat_parse_walk _ _ _ _ _ HT Hg Hw2). cbn [comdats_of].
    destruct (comdat_at f j (csym_of (ct_big (cf_symbols f)) b) l) as [c|].
    + right. exists c, l. eexists. split; [reflexivity|]. split; [reflexivity|]. split; [lia|]. split; [exact Hw2|cbn; lia].
    + destruct (IH (j + 1 + y_naux (csym_of (ct_big (cf_symbols f)) b)) k' fuel ltac:(lia) Hw2 ltac:(cbn in Hf; lia)) as [[E1 E2]|(c & l2 & k2 & E1 & E2 & E3 & E4 & E5)]; [left; auto|].
      right. exists c, l2, k2. repeat (split; [assumption|]). cbn; lia.
Qed.
Lemma comdats_run f k l k' : table_ok (cf_symbols f) -> 0 <= k -> walk (cf_symbols f) k l k' -> runs (coff_comdat_next f) k (comdats_of f l) false k'.
Proof.
  intros HT. remember (length l) as m eqn:Em. revert k l Em. induction m as [m IH] using lt_wf_ind. intros k l -> Hk Hw.
  assert (Hf : (length l < S (length (ct_entries (cf_symbols f))))%nat) by (pose proof (walk_len _ _ _ _ HT Hk Hw) as HL; unfold zlen in HL; lia).
  destruct (comdat_next_walk f HT l k k' _ Hk Hw Hf) as [[E1 E2]|(c & l2 & k2 & E1 & E2 & E3 & E4 & E5)].
  - rewrite E1. apply runs_done. exact E2.
  - rewrite E1. eapply runs_more; [exact E2|]. apply (IH _ E5 k2 l2 eq_refl E3 E4).
Qed.
(** sections of a COMDAT *)
Definition member_of_group (f : cfile) (section : Z) (iy : Z * csym) : option Z :=
  let '(k, y) := iy in
  if has_aux_section y && (0 <? y_secnum y) then
    match coff_aux_section (cf_symbols f) k with
    | Ok a => if (if x_sel a =? 5 then aux_number (cf_big f) a =? section else negb (x_sel a =? 0) && (y_secnum y =? section)) then Some (y_secnum y) else None
    | _ => None
    end
  else None.
Lemma sec_next_walk f section : table_ok (cf_symbols f) -> forall l k k' fuel, 0 <= k -> walk (cf_symbols f) k l k' -> (length l < fuel)%nat ->
  (select (member_of_group f section) l = [] /\ comdat_sec_next fuel f section k = (Ok None, k')) \/
  (exists c l2 k2, select (member_of_group f section) l = c :: select (member_of_group f section) l2 /\ comdat_sec_next fuel f section k = (Ok (Some c), k2) /\
     0 <= k2 /\ walk (cf_symbols f) k2 l2 k' /\ (length l2 < length l)%nat).
Proof.
  intros HT. induction l as [|[j y] l IH]; intros k k' fuel Hk Hw Hf; (destruct fuel as [|fuel]; [cbn in Hf; lia|]); cbn [comdat_sec_next]; inversion Hw; subst.
  - left. split; [reflexivity|]. rewrite symbol_none by assumption. reflexivity.
  - match goal with H : zget _ _ = Some ?x |- _ => rename H into Hg; rename x into b end. match goal with H : walk _ (_ + _) _ _ |- _ => rename H into Hw2 end. pose proof (naux_range _ _ _ HT Hg) as Hnr.
    rewrite (symbol_some _ _ _ HT Hg), (step_ok _ _ _ HT Hg). cbn [select]. set (y := csym_of (ct_big (cf_symbols f)) b) in *. remember (member_of_group f section (j, y)) as m eqn:Em.
    assert (Skip : m = None ->
      (match m with Some z => z :: select (member_of_group f section) l | None => select (member_of_group f section) l end = [] /\ comdat_sec_next fuel f section (j + 1 + y_naux y) = (Ok None, k')) \/
      (exists c l2 k2, match m with Some z => z :: select (member_of_group f section) l | None => select (member_of_group f section) l end = c :: select (member_of_group f section) l2 /\ comdat_sec_next fuel f section (j + 1 + y_naux y) = (Ok (Some c), k2) /\
        0 <= k2 /\ walk (cf_symbols f) k2 l2 k' /\ (length l2 < length ((j, y) :: l))%nat)).
    { intro Hm; rewrite Hm. destruct (IH (j + 1 + y_naux y) k' fuel ltac:(lia) Hw2 ltac:(cbn in Hf; lia)) as [[E1 E2]|(c & l2 & k2 & E1 & E2 & E3 & E4 & E5)]; [left; auto|].
      right. exists c, l2, k2. repeat (split; [assumption|]). cbn; lia. }
    assert (Take : forall s, m = Some s ->
      (match m with Some z => z :: select (member_of_group f section) l | None => select (member_of_group f section) l end = [] /\ (@Ok (option Z) (Some s), j + 1 + y_naux y) = (Ok None, k')) \/
      (exists c l2 k2, match m with Some z => z :: select (member_of_group f section) l | None => select (member_of_group f section) l end = c :: select (member_of_group f section) l2 /\ (@Ok (option Z) (Some s), j + 1 + y_naux y) = (Ok (Some c), k2) /\
        0 <= k2 /\ walk (cf_symbols f) k2 l2 k' /\ (length l2 < length ((j, y) :: l))%nat)).
    { intros s Hm; rewrite Hm. right. exists s, l, (j + 1 + y_naux y). split; [reflexivity|]. split; [reflexivity|]. split; [lia|]. split; [exact Hw2|cbn; lia]. }
    unfold member_of_group in Em.
    destruct (has_aux_section y) eqn:Ea; cbn [negb andb] in Em |- *; [|apply Skip; exact Em].
    unfold secnum_index. destruct (0 <? y_secnum y) eqn:Esn; [|apply Skip; exact Em]. pose proof (aux_section_no_panic _ j HT ltac:(lia)).
    destruct (coff_aux_section (cf_symbols f) j) as [a| |] eqn:Eax; [| |congruence].
    + change SELECT_ASSOCIATIVE with 5. destruct (x_sel a =? 5); [destruct (_ =? section); [apply Take; exact Em|apply Skip; exact Em]|].
      destruct (negb (x_sel a =? 0)); cbn [andb] in Em |- *; [|apply Skip; exact Em]. destruct (_ =? section); [apply Take; exact Em|apply Skip; exact Em].
    + rewrite Em. left. unfold coff_aux_section in Eax. rewrite coff_get_eq in Eax by (assumption || lia). destruct (zget _ (j + 1)) eqn:Eg1; [discriminate|].
      apply zget_None in Eg1. assert (Hl : zlen (ct_entries (cf_symbols f)) <= j + 1) by lia. inversion Hw2; subst; [split; reflexivity|].
      match goal with H : zget _ (j + 1 + _) = Some _ |- _ => apply zget_Some_lt in H end. lia.
Qed.
Lemma secs_run f section k l k' : table_ok (cf_symbols f) -> 0 <= k -> walk (cf_symbols f) k l k' -> runs (coff_comdat_sec_next f section) k (select (member_of_group f section) l) false k'.
Proof.
  intros HT. remember (length l) as m eqn:Em. revert k l Em. induction m as [m IH] using lt_wf_ind. intros k l -> Hk Hw.
  assert (Hf : (length l < S (length (ct_entries (cf_symbols f))))%nat) by (pose proof (walk_len _ _ _ _ HT Hk Hw) as HL; unfold zlen in HL; lia).
  destruct (sec_next_walk f section HT l k k' _ Hk Hw Hf) as [[E1 E2]|(c & l2 & k2 & E1 & E2 & E3 & E4 & E5)].
  - rewrite E1. apply runs_done. exact E2.
  - rewrite E1. eapply runs_more; [exact E2|]. apply (IH _ E5 k2 l2 eq_refl E3 E4).
Qed.

(** * Section names *)
Lemma off10_iff l : forall x o, 0 <= x -> (x + 1) * 10 ^ zlen l <= 2 ^ 32 -> bytes_ok l ->
  off10 l x <> Panic /\ (off10 l x = Ok o <-> exists ds rest, l = map (fun d => 48 + d) ds ++ rest /\ Forall (fun d => 0 <= d < 10) ds /\ (rest = [] \/ exists r, rest = 0 :: r) /\
    o = fold_left (fun n d => n * 10 + d) ds x).
Proof.
  induction l as [|b l IH]; intros x o Hx Hb Hl; cbn [off10].
  - split; [discriminate|]. split.
    + intros [= <-]. exists [], []. repeat split; [constructor|left; reflexivity].
    + intros (ds & rest & E & _ & _ & ->). symmetry in E. apply app_eq_nil in E as [E _]. apply map_eq_nil in E as ->. reflexivity.
  - pose proof (zlen_nonneg l) as Hln. rewrite zlen_cons, Z.pow_add_r in Hb by lia. change (10 ^ 1) with 10 in Hb. assert (Hp : 0 < 10 ^ zlen l) by (apply Z.pow_pos_nonneg; lia).
    destruct (_ && _) eqn:Ed.
    + assert (Hd : 0 <= b - 48 < 10) by lia. assert (Hm : x * 10 + (b - 48) < 2 ^ 32) by nia. unfold pmul, padd. destruct (Z.ltb_spec (x * 10) (2 ^ 32)); [|lia]. cbn [bind].
      destruct (Z.ltb_spec (x * 10 + (b - 48)) (2 ^ 32)); [|lia]. cbn [bind].
      destruct (IH (x * 10 + (b - 48)) o ltac:(lia) ltac:(nia) ltac:(inversion Hl; assumption)) as [N I]. split; [exact N|]. rewrite I. split.
      * intros (ds & rest & -> & HF & HR & ->). exists ((b - 48) :: ds), rest. split; [cbn [map app]; f_equal; lia|]. split; [constructor; assumption|]. split; [exact HR|reflexivity].
      * intros (ds & rest & E & HF & HR & ->). destruct ds as [|d ds]; cbn [map app] in E.
        -- subst rest. destruct HR as [HR|[r HR]]; [discriminate|]. injection HR as Hb00 _. lia.
        -- assert (E1 : 48 + d = b) by congruence. pose proof (f_equal (@tl Z) E) as E2; cbn [tl] in E2. exists ds, rest. split; [exact E2|]. split; [inversion HF; assumption|]. split; [exact HR|]. cbn [fold_left]. replace (b - 48) with d by lia. reflexivity.
    + destruct (Z.eqb_spec b 0) as [->|Hb0].
      * split; [discriminate|]. split.
        -- intros [= <-]. exists [], (0 :: l). split; [reflexivity|]. split; [constructor|]. split; [right; exists l; reflexivity|reflexivity].
        -- intros (ds & rest & E & HF & HR & ->). destruct ds as [|d ds]; [reflexivity|]. cbn [map app] in E. assert (E1 : 48 + d = 0) by congruence. pose proof (f_equal (@tl Z) E) as E2; cbn [tl] in E2. pose proof (Forall_inv HF). cbn beta in *. lia.
      * split; [discriminate|]. split; [discriminate|]. intros (ds & rest & E & HF & HR & ->). destruct ds as [|d ds]; cbn [map app] in E.
        -- subst rest. destruct HR as [HR|[r HR]]; [discriminate|]. injection HR as Hb00 _. lia.
        -- assert (E1 : 48 + d = b) by congruence. pose proof (f_equal (@tl Z) E) as E2; cbn [tl] in E2. pose proof (Forall_inv HF). cbn beta in *. lia.
Qed.
Lemma digit64_iff b d : byte_ok b -> digit64 b = Some d <-> zget alphabet d = Some b.
Proof.
  intro Hb.
  assert (H1 : forallb (fun k => let b := Z.of_nat k in match digit64 b with Some d => match zget alphabet d with Some c => c =? b | None => false end | None => true end) (seq 0 256) = true) by (vm_compute; reflexivity).
  assert (H2 : forallb (fun k => let d := Z.of_nat k in match zget alphabet d with Some b => match digit64 b with Some x => x =? d | None => false end | None => true end) (seq 0 64) = true) by (vm_compute; reflexivity).
  rewrite forallb_forall in H1, H2. unfold byte_ok in Hb. split; intro E.
  - specialize (H1 (Z.to_nat b)). cbv zeta in H1. rewrite Z2Nat.id, E in H1 by lia. specialize (H1 ltac:(apply in_seq; lia)). destruct (zget alphabet d); [|discriminate]. f_equal. lia.
  - pose proof (zget_Some_lt _ _ _ E) as Hd. change (zlen alphabet) with 64 in Hd. specialize (H2 (Z.to_nat d)). cbv zeta in H2. rewrite Z2Nat.id, E in H2 by lia. specialize (H2 ltac:(apply in_seq; lia)).
    destruct (digit64 b); [|discriminate]. f_equal. lia.
Qed.
Lemma off64_iff l : forall x o, bytes_ok l ->
  off64 l x <> Panic /\ (off64 l x = Ok o <-> exists ds, Forall2 (fun c d => zget alphabet d = Some c) l ds /\ o = fold_left (fun n d => n * 64 + d) ds x).
Proof.
  induction l as [|b l IH]; intros x o Hl; cbn [off64].
  - split; [discriminate|]. split; [intros [= <-]; exists []; split; [constructor|reflexivity]|intros (ds & HF & ->); inversion HF; reflexivity].
  - pose proof (Forall_inv Hl) as Hb. pose proof (Forall_inv_tail Hl) as Hl'. destruct (digit64 b) as [d|] eqn:Ed.
    + destruct (IH (x * 64 + d) o Hl') as [N I]. split; [exact N|]. rewrite I. apply digit64_iff in Ed; [|exact Hb]. split.
      * intros (ds & HF & ->). exists (d :: ds). split; [constructor; assumption|reflexivity].
      * intros (ds & HF & ->). inversion HF as [|? d' ? ds' E1 E2]; subst. assert (d' = d).
        { apply digit64_iff in E1; [|exact Hb]. apply digit64_iff in Ed; [|exact Hb]. congruence. } subst d'. exists ds'. split; [assumption|reflexivity].
    + split; [discriminate|]. split; [discriminate|]. intros (ds & HF & _). inversion HF as [|? d' ? ds' E1 E2]; subst. apply digit64_iff in E1; [|exact Hb]. congruence.
Qed.
Lemma name_offset_iff s : zlen (c_name s) = 8 -> bytes_ok (c_name s) ->
  coff_name_offset s <> Panic /\ (forall off, coff_name_offset s = Ok (Some off) <-> name_designates (c_name s) off) /\
  (coff_name_offset s = Ok None <-> zget (c_name s) 0 <> Some 47).
Proof.
  intros Hl Hb. unfold coff_name_offset, name_designates. set (b := c_name s) in *. clearbody b.
  destruct (zget_lt_Some b 0 ltac:(lia)) as [b0 E0]. destruct (zget_lt_Some b 1 ltac:(lia)) as [b1 E1]. rewrite E0. cbn [unwrap bind].
  destruct (Z.eqb_spec b0 47) as [->|Hn]; cbn [negb].
  2:{ split; [discriminate|]. split; [|split; [intros _ [= H]; contradiction|reflexivity]]. intro off. split; [discriminate|]. intros [[= H] _]. contradiction. }
  rewrite E1. cbn [unwrap bind]. destruct (Z.eqb_spec b1 47) as [->|Hn1].
  - assert (H64 : forall off, off64 (zdrop 2 b) 0 <> Panic /\ (off64 (zdrop 2 b) 0 = Ok off <-> exists ds, Forall2 (fun c d => zget alphabet d = Some c) (zdrop 2 b) ds /\ off = number_in 64 ds))
      by (intro off; apply off64_iff; apply bytes_ok_zdrop; exact Hb).
    destruct (off64 (zdrop 2 b) 0) as [q| |] eqn:Eq; cbn [bind].
    + destruct (proj1 (proj2 (H64 q)) eq_refl) as (ds & HF & Eqd). split; [destruct (_ <? _); discriminate|]. split.
      * intro off. unfold name_base64. split.
        -- destruct (Z.ltb_spec q (2 ^ 32)); [|discriminate]. intros [= <-]. split; [reflexivity|]. exists ds. auto.
        -- intros [_ (ds' & HF' & Eo & Ho)]. assert (Hq : @Ok Z q = Ok off) by (apply H64; exists ds'; auto). injection Hq as ->. destruct (Z.ltb_spec off (2 ^ 32)); [reflexivity|lia].
      * split; [destruct (_ <? _); discriminate|congruence].
    + split; [discriminate|]. split; [|split; [discriminate|congruence]]. intro off. split; [discriminate|]. intros [_ (ds & HF & Eo & Ho)]. destruct (H64 off) as [_ H6]. assert (Err = Ok off); [|discriminate]. apply H6. exists ds. auto.
    + exfalso. apply (H64 0). reflexivity.
  - assert (Hif : (match b1 with 47 => true | _ => false end) = false). { destruct (Z.eq_dec b1 47); [contradiction|]. repeat (match goal with |- context [match ?x with _ => _ end] => destruct x; try reflexivity end). contradiction. }
    rewrite Hif. assert (H10 : forall off, off10 (zdrop 1 b) 0 <> Panic /\ (off10 (zdrop 1 b) 0 = Ok off <-> name_decimal b off)).
    { intro off. apply (off10_iff (zdrop 1 b) 0 off); [lia|rewrite zlen_zdrop by lia; rewrite Hl; lia|apply bytes_ok_zdrop; exact Hb]. }
    destruct (off10 (zdrop 1 b) 0) as [q| |] eqn:Eq; cbn [bind].
    + split; [discriminate|]. split; [|split; [discriminate|congruence]]. intro off. split.
      * intros [= <-]. split; [reflexivity|]. apply H10. reflexivity.
      * intros [_ H]. apply H10 in H. congruence.
    + split; [discriminate|]. split; [|split; [discriminate|congruence]]. intro off. split; [discriminate|]. intros [_ H]. apply H10 in H. discriminate.
    + exfalso. apply (H10 0). reflexivity.
Qed.

(** * Nothing panics *)
Lemma csec_name b : zlen b = 40 -> bytes_ok b -> zlen (c_name (csec_of b)) = 8 /\ bytes_ok (c_name (csec_of b)).
Proof. intros Hl Hb. cbn [csec_of c_name]. split; [apply zlen_zslice; lia|apply bytes_ok_zslice; exact Hb]. Qed.
Lemma sections_inv big F f : file_ok F -> coff_parse big F = Ok f -> forall s, In s (cf_sections f) -> exists b, s = csec_of b /\ zlen b = 40 /\ bytes_ok b.
Proof.
  intros HF E s Hs. unfold coff_parse in E. destruct (coff_header_parse big F) as [[h o']| |] eqn:Eh; cbn [bind] in E; try discriminate.
  destruct (header_parse_inv _ _ _ _ HF Eh) as (Hz & Hb & Ho).
  destruct (coff_sections_parse big h F o') as [l| |] eqn:Es; cbn [bind] in E; try discriminate.
  destruct (coff_symbols_parse big h F) as [y| |]; cbn [bind] in E; try discriminate. injection E as <-. cbn [cf_sections] in Hs.
  unfold coff_sections_parse, rr_read_slice_at in Es. destruct (rr_read_slice F o' coff_sec_size (ch_nsections big h)) as [[cs| |] o2] eqn:Er; cbn [fst bind] in Es; try discriminate. injection Es as <-.
  apply in_map_iff in Hs as (b & <- & Hb'). exists b. split; [reflexivity|].
  apply slice_bytes_inv in Er; [|exact HF|unfold coff_sec_size; lia| |lia].
  - destruct Er as (Er & _). rewrite Forall_forall in Er. apply (Er b Hb').
  - unfold ch_nsections. destruct big; pose proof (fld_bound Little 44 4 h Hb); pose proof (fld_bound Little 2 2 h Hb); lia.
Qed.
Lemma section_no_panic big F f s : file_ok F -> coff_parse big F = Ok f -> In s (cf_sections f) ->
  cs_name f s <> Panic /\ coff_data F s <> Panic /\ coff_relocations F s <> Panic.
Proof.
  intros HF E Hs. destruct (sections_inv _ _ _ HF E s Hs) as (b & -> & Hl & Hb). destruct (csec_name b Hl Hb) as [Hn1 Hn2]. destruct (name_offset_iff _ Hn1 Hn2) as [Hn3 _]. split; [|split].
  - unfold cs_name, coff_section_name. destruct (coff_name_offset (csec_of b)) as [[q|]| |]; cbn [bind]; try congruence. unfold strings_get. destruct (ct_strings (cf_symbols f)) as [[d p] q']. apply strtab_get_no_panic.
  - unfold coff_data. destruct (coff_file_range _) as [[p q]|]; [apply rr_read_bytes_at_no_panic|discriminate].
  - unfold coff_relocations. destruct (_ && _) eqn:Ec.
    + pose proof (rr_read_at_no_panic F (c_relptr (csec_of b)) coff_rel_size). destruct (rr_read_at F (c_relptr (csec_of b)) coff_rel_size) as [rb| |] eqn:Er; cbn [bind]; try congruence.
      destruct (Z.eqb_spec (fld Little 0 4 rb) 0); cbn [bind]; [discriminate|].
      pose proof (fld_bound Little 24 4 b Hb) as Bp. unfold padd. cbn [csec_of c_relptr]. unfold coff_rel_size at 1. destruct (Z.ltb_spec (fld Little 24 4 b + 10) (2 ^ 64)); [|lia]. cbn [bind].
      assert (Brb : 0 <= fld Little 0 4 rb).
      { assert (bytes_ok rb); [|pose proof (fld_bound Little 0 4 rb); lia]. destruct HF as [HFb HFl]. unfold rr_read_at in Er.
        rewrite rr_read_eq in Er by (try (unfold coff_rel_size; lia); cbn [csec_of c_relptr]; lia). destruct (_ <=? _); cbn [fst] in Er; [|discriminate]. injection Er as <-. apply bytes_ok_zslice; exact HFb. }
      unfold psub. destruct (Z.leb_spec 1 (fld Little 0 4 rb)); [|lia]. cbn [bind]. unfold rr_read_slice_at. pose proof (rr_read_slice_no_panic F (fld Little 24 4 b + 10) coff_rel_size (fld Little 0 4 rb - 1)).
      destruct (fst _); cbn [bind]; congruence.
    + cbn [bind]. unfold rr_read_slice_at. pose proof (rr_read_slice_no_panic F (c_relptr (csec_of b)) coff_rel_size (c_nrel (csec_of b))). destruct (fst _); cbn [bind]; congruence.
Qed.
Lemma symbol_no_panic f k y : table_ok (cf_symbols f) -> 0 <= k -> coff_symbol (cf_symbols f) k = Ok y -> cy_name f k y <> Panic.
Proof.
  intros HT Hk E. rewrite coff_symbol_eq in E by assumption. destruct (zget (ct_entries (cf_symbols f)) k) as [b|] eqn:Eg; [|discriminate]. injection E as <-.
  destruct HT as [HL HT]. pose proof (Forall_zget _ _ _ _ HT Eg) as [Hl Hb]. cbn beta in Hl, Hb. assert (Hl18 : 18 <= zlen b) by (rewrite Hl; destruct (ct_big _); cbn; lia).
  assert (Hn : y_name (csym_of (ct_big (cf_symbols f)) b) = zslice 0 8 b) by (unfold csym_of; destruct (ct_big _); reflexivity).
  unfold cy_name. destruct (has_aux_file_name _).
  - unfold coff_aux_file_name. destruct (cadd 64 k 1); cbn [of_opt bind]; [|discriminate]. destruct (cadd 64 _ _); cbn [of_opt bind]; [|discriminate]. destruct (get_range _ _ _); cbn [of_opt bind]; discriminate.
  - unfold coff_symbol_name. rewrite Hn. destruct (zget_lt_Some (zslice 0 8 b) 0) as [b0 ->]; [rewrite zlen_zslice; lia|]. cbn [unwrap bind]. destruct (b0 =? 0); [|discriminate].
    unfold strings_get. destruct (ct_strings (cf_symbols f)) as [[d p] q']. apply strtab_get_no_panic.
Qed.
Lemma iterates big F f : file_ok F -> coff_parse big F = Ok f -> exists l k', walk (cf_symbols f) 0 l k' /\ runs (coff_sym_next (cf_symbols f)) 0 l false k' /\
  (exists cs, runs (coff_comdat_next f) 0 cs false k' /\ zlen cs <= zlen l) /\ (forall n, exists ss, runs (coff_comdat_sec_next f n) 0 ss false k' /\ zlen ss <= zlen l).
Proof.
  intros HF E. destruct (parse_inv _ _ _ HF E) as (HT & _). destruct (walk_exists _ HT 0 ltac:(lia)) as (l & k' & W & _). exists l, k'. split; [exact W|].
  split; [apply walk_runs; [exact HT|lia|exact W]|]. split.
  - exists (comdats_of f l). split; [apply comdats_run; [exact HT|lia|exact W]|]. clear. induction l as [|[k y] l IH]; [cbn; lia|]. cbn [comdats_of]. rewrite zlen_cons. destruct (comdat_at f k y l); [rewrite zlen_cons|]; lia.
  - intro n. exists (select (member_of_group f n) l). split; [apply secs_run; [exact HT|lia|exact W]|]. clear. induction l as [|x l IH]; [cbn; lia|]. cbn [select]. rewrite zlen_cons. destruct (member_of_group f n x); [rewrite zlen_cons|]; lia.
Qed.

(** * Written files *)
Lemma fold_inv {X S} (f : X -> S -> out S) (P : S -> Prop) xs : (forall x s s', In x xs -> P s -> f x s = Ok s' -> P s') ->
  forall s s', P s -> fold_m f xs s = Ok s' -> P s'.
Proof.
  induction xs as [|x xs IH]; intros Hf s s' Hs E; cbn [fold_m] in E; [congruence|].
  destruct (f x s) as [s1| |] eqn:E1; cbn [bind] in E; try discriminate. apply (IH (fun x s s' Hi => Hf x s s' (or_intror Hi)) s1); [|exact E].
  apply (Hf x s s1); [left; reflexivity|exact Hs|exact E1].
Qed.
Lemma sel_set_get l i g l' : sel_set l i g = Ok l' -> 0 <= i < zlen l /\ exists x, zget l i = Some x /\ forall k, zget l' k = if k =? i then Some (g x) else zget l k.
Proof.
  unfold sel_set. destruct (zget l i) as [x|] eqn:E; cbn [unwrap bind]; [|discriminate]. intros [= <-]. pose proof (zget_Some_lt _ _ _ E).
  split; [lia|]. exists x. split; [reflexivity|]. intro k. apply zget_zset. lia.
Qed.
Lemma sel_set_len l i g l' : sel_set l i g = Ok l' -> zlen l' = zlen l.
Proof.
  unfold sel_set. destruct (zget l i) eqn:E; cbn [unwrap bind]; [|discriminate]. intros [= <-]. apply zlen_zset. apply zget_Some_lt in E. lia.
Qed.
Lemma comdat_sel_spec k sel : comdat_sel k = Some sel -> 1 <= sel <= 7 /\ sel <> 5 /\ comdat_kind sel = k.
Proof.
  unfold comdat_sel. intro H.
  repeat match type of H with (if ?a =? ?b then _ else _) = _ => destruct (Z.eqb_spec a b); [injection H as <-; subst; repeat split; (lia || reflexivity)|] end. discriminate.
Qed.
Definition sel_fits (p : Z * Z) : Prop := 0 <= fst p < 256 /\ 0 <= snd p < 2 ^ 16.
Lemma sels_fit o sels : zlen (o_sections o) <= 65279 -> csels o sels -> forall id p, zget sels id = Some p -> sel_fits p.
Proof.
  intros Hn E. unfold csels in E.
  assert (HP : (zlen sels = zlen (o_sections o) /\ forall id p, zget sels id = Some p -> sel_fits p)).
  { apply (fold_inv (comdat_flags o) (fun l => zlen l = zlen (o_sections o) /\ forall id p, zget l id = Some p -> sel_fits p) (o_comdats o)) with (s := map (fun _ => (0, 0)) (o_sections o)); [| |exact E].
    2:{ split; [unfold zlen; rewrite map_length; reflexivity|]. intros id p Hp. rewrite zget_map in Hp. destruct (zget (o_sections o) id); cbn [option_map] in Hp; [|discriminate]. injection Hp as <-. split; cbn; lia. }
    intros c l l' _ [HL HP] Ec. unfold comdat_flags in Ec. destruct (zget (o_symbols o) (oc_symbol c)) as [y|]; cbn [unwrap bind] in Ec; [|discriminate].
    destruct (sy_section y) as [| | | |sec]; try discriminate. destruct (comdat_sel (oc_kind c)) as [sel|] eqn:Es; cbn [of_opt bind] in Ec; [|discriminate]. apply comdat_sel_spec in Es as (Es & _).
    destruct (sel_set l sec _) as [l1| |] eqn:E1; cbn [bind] in Ec; try discriminate.
    assert (H1 : zlen l1 = zlen (o_sections o) /\ forall id p, zget l1 id = Some p -> sel_fits p).
    { split; [rewrite (sel_set_len _ _ _ _ E1); exact HL|]. apply sel_set_get in E1 as (B & x & Ex & G). intros id p Hp. rewrite G in Hp. destruct (id =? sec); [|exact (HP _ _ Hp)].
      injection Hp as <-. destruct x as [a b]. pose proof (HP _ _ Ex) as [_ Hb]. split; cbn [fst snd] in *; lia. }
    assert (Hsec : 0 <= sec < 65279) by (apply sel_set_get in E1 as (B & _); lia).
    revert Ec. apply (fold_inv (comdat_member o sec) (fun l => zlen l = zlen (o_sections o) /\ forall id p, zget l id = Some p -> sel_fits p)); [|exact H1].
    intros id s s' _ [HL2 HP2] Em. unfold comdat_member in Em. destruct (zget (o_sections o) id) as [sc|]; cbn [unwrap bind] in Em; [|discriminate].
    destruct (se_symbol sc); [|discriminate]. destruct (id =? sec); [injection Em as <-; split; assumption|].
    split; [rewrite (sel_set_len _ _ _ _ Em); exact HL2|]. apply sel_set_get in Em as (B & x & Ex & G). intros id' p Hp. rewrite G in Hp. destruct (id' =? id); [|exact (HP2 _ _ Hp)].
    injection Hp as <-. unfold sel_fits. cbn [fst snd]. rewrite wrap_u_id by lia. unfold SELECT_ASSOCIATIVE. lia. }
  apply HP.
Qed.
Lemma members_get o sec ids : forall l l', 0 <= sec < 2 ^ 32 -> fold_m (comdat_member o sec) ids l = Ok l' ->
  (forall id, In id ids -> id <> sec -> zget l' id = Some (5, sec + 1)) /\ (forall id, ~ In id ids \/ id = sec -> zget l' id = zget l id).
Proof.
  induction ids as [|i ids IH]; intros l l' Hs E; cbn [fold_m] in E; [injection E as <-; split; [intros ? []|reflexivity]|].
  destruct (comdat_member o sec i l) as [l1| |] eqn:E1; cbn [bind] in E; try discriminate. destruct (IH l1 l' Hs E) as [A B].
  assert (H1 : (i <> sec -> zget l1 i = Some (5, sec + 1)) /\ forall id, id <> i \/ id = sec -> zget l1 id = zget l id).
  { unfold comdat_member in E1. destruct (zget (o_sections o) i); cbn [unwrap bind] in E1; [|discriminate]. destruct (se_symbol _); [|discriminate].
    destruct (Z.eqb_spec i sec); [injection E1 as <-; split; [congruence|reflexivity]|]. apply sel_set_get in E1 as (Bd & x & Ex & G).
    split; [intros _; rewrite G, Z.eqb_refl, wrap_u_id by lia; reflexivity|]. intros id Hid. rewrite G. destruct (Z.eqb_spec id i); [|reflexivity]. exfalso. destruct Hid; congruence. }
  destruct H1 as [H1 H2]. split.
  - intros id [->|Hin] Hne; [|apply A; assumption]. destruct (in_dec Z.eq_dec id ids); [apply A; assumption|]. rewrite B by (left; assumption). apply H1. exact Hne.
  - intros id Hid. rewrite B by (destruct Hid as [Hid|Hid]; [left; intro; apply Hid; right; assumption|right; exact Hid]). apply H2.
    destruct Hid as [Hid|Hid]; [left; intros ->; apply Hid; left; reflexivity|right; exact Hid].
Qed.
Lemma flags_get o c leader l l' : zlen l <= 65279 -> comdat_ok o c leader -> comdat_flags o c l = Ok l' ->
  exists sel p, comdat_sel (oc_kind c) = Some sel /\ zget l leader = Some p /\ zget l' leader = Some (sel, snd p) /\
    (forall id, In id (oc_sections c) -> id <> leader -> zget l' id = Some (5, leader + 1)) /\ (forall id, ~ In id (oc_sections c) -> zget l' id = zget l id).
Proof.
  intros Hl (Hin & _ & _ & i & y & _ & _ & Hy & Hs & _) E. unfold comdat_flags in E. rewrite Hy in E. cbn [unwrap bind] in E. rewrite Hs in E.
  destruct (comdat_sel (oc_kind c)) as [sel|]; cbn [of_opt bind] in E; [|discriminate].
  destruct (sel_set l leader _) as [l1| |] eqn:E1; cbn [bind] in E; try discriminate. apply sel_set_get in E1 as (Bd & x & Ex & G).
  apply members_get in E; [|lia]. destruct E as [A B]. exists sel, x. split; [reflexivity|]. split; [exact Ex|].
  split; [rewrite B by (right; reflexivity); rewrite G, Z.eqb_refl; destruct x; reflexivity|]. split; [exact A|].
  intros id Hid. rewrite B by (left; exact Hid). rewrite G. destruct (Z.eqb_spec id leader) as [->|]; [contradiction|reflexivity].
Qed.
Definition disjoint (cs : list ocomdat) : Prop :=
  forall a b c d id, zget cs a = Some c -> zget cs b = Some d -> In id (oc_sections c) -> In id (oc_sections d) -> a = b.
Lemma sels_get o cs : forall l l', zlen l <= 65279 -> disjoint cs -> (forall c, In c cs -> exists leader, comdat_ok o c leader) -> fold_m (comdat_flags o) cs l = Ok l' ->
  (forall c leader, In c cs -> comdat_ok o c leader -> exists sel p, comdat_sel (oc_kind c) = Some sel /\ zget l leader = Some p /\ zget l' leader = Some (sel, snd p) /\
    forall id, In id (oc_sections c) -> id <> leader -> zget l' id = Some (5, leader + 1)) /\
  (forall id, (forall c, In c cs -> ~ In id (oc_sections c)) -> zget l' id = zget l id).
Proof.
  induction cs as [|c0 cs IH]; intros l l' Hl Hd Hc E; cbn [fold_m] in E; [injection E as <-; split; [intros ? ? []|reflexivity]|].
  destruct (comdat_flags o c0 l) as [l1| |] eqn:E1; cbn [bind] in E; try discriminate. pose proof (comdat_flags_len _ _ _ _ E1) as Hl1.
  assert (Hd0 : forall c id, In c cs -> In id (oc_sections c) -> ~ In id (oc_sections c0)).
  { intros c id Hin Hid Hid0. apply In_zget in Hin as [b Hb]. pose proof (zget_Some_lt _ _ _ Hb). specialize (Hd 0 (b + 1) c0 c id (zget_0 _ _)). rewrite zget_S in Hd by lia. replace (b + 1 - 1) with b in Hd by lia. specialize (Hd Hb Hid0 Hid). lia. }
  assert (Hd1 : disjoint cs).
  { intros a b c d id Ha Hb Hid Hid'. pose proof (zget_Some_lt _ _ _ Ha). pose proof (zget_Some_lt _ _ _ Hb). specialize (Hd (a + 1) (b + 1) c d id). rewrite !zget_S in Hd by lia.
    replace (a + 1 - 1) with a in Hd by lia. replace (b + 1 - 1) with b in Hd by lia. specialize (Hd Ha Hb Hid Hid'). lia. }
  destruct (IH l1 l' ltac:(lia) Hd1 (fun c H => Hc c (or_intror H)) E) as [A B]. destruct (Hc c0 (or_introl eq_refl)) as [ld0 Hld0].
  destruct (flags_get _ _ _ _ _ Hl Hld0 E1) as (sel0 & p0 & S1 & S2 & S3 & S4 & S5).
  split.
  - intros c leader [->|Hin] Hco.
    + assert (Hll : leader = ld0). { destruct Hco as (_ & _ & _ & ? & ? & _ & _ & Q1 & Q2 & _). destruct Hld0 as (_ & _ & _ & ? & ? & _ & _ & Q3 & Q4 & _). congruence. }
      subst ld0. exists sel0, p0. split; [exact S1|]. split; [exact S2|]. assert (Hin : In leader (oc_sections c)) by apply Hco.
      split; [rewrite B; [exact S3|intros d Hdin Hid; exact (Hd0 _ _ Hdin Hid Hin)]|].
      intros id Hid Hne. rewrite B; [apply S4; assumption|]. intros d Hdin Hid'. exact (Hd0 _ _ Hdin Hid' Hid).
    + destruct (A c leader Hin Hco) as (sel & p & Q1 & Q2 & Q3 & Q4). exists sel, p. split; [exact Q1|]. split; [|split; assumption].
      rewrite <- Q2. symmetry. apply S5. apply (Hd0 c); [exact Hin|apply Hco].
  - intros id Hid. rewrite B by (intros c Hin; apply Hid; right; exact Hin). apply S5. apply Hid. left; reflexivity.
Qed.
Lemma sels_spec o sels : zlen (o_sections o) <= 65279 -> comdats_ok o -> csels o sels ->
  (forall c leader, In c (o_comdats o) -> comdat_ok o c leader -> exists sel, comdat_sel (oc_kind c) = Some sel /\ zget sels leader = Some (sel, 0) /\
    forall id, In id (oc_sections c) -> id <> leader -> zget sels id = Some (5, leader + 1)) /\
  (forall id, 0 <= id < zlen (o_sections o) -> (forall c, In c (o_comdats o) -> ~ In id (oc_sections c)) -> zget sels id = Some (0, 0)).
Proof.
  intros Hn (_ & Hc & Hd & _) E. unfold csels in E.
  assert (Hl : zlen (map (fun _ : osec => (0, 0)) (o_sections o)) = zlen (o_sections o)) by (unfold zlen; rewrite map_length; reflexivity).
  destruct (sels_get o (o_comdats o) _ _ ltac:(rewrite Hl; exact Hn) Hd Hc E) as [A B]. split.
  - intros c leader Hin Hco. destruct (A c leader Hin Hco) as (sel & p & Q1 & Q2 & Q3 & Q4). exists sel. split; [exact Q1|]. split; [|exact Q4].
    rewrite zget_map in Q2. destruct (zget (o_sections o) leader); cbn [option_map] in Q2; [|discriminate]. injection Q2 as <-. exact Q3.
  - intros id Hid Hno. rewrite B by exact Hno. rewrite zget_map. destruct (zget_lt_Some (o_sections o) id Hid) as [s0 ->]. reflexivity.
Qed.
Section image.
Context (crc : bytes -> Z) (o : obj) (fl : Z) (F : bytes) (machine so : Z) (t : strtab) (tab : bytes) (ys : list (option soff * soff))
  (sels : list (Z * Z)) (hs : list bytes) (blks : list (list bytes)).
Context (HF : zlen F < 2 ^ 32) (Hok : coff_ok o fl) (IM : image crc o fl F machine so t tab ys sels hs blks) (Hm : 0 <= machine < 2 ^ 16).
Local Notation nsec := (zlen (o_sections o)).
Local Notation nsym := (total (o_symbols o)).
Local Notation file := (read_file o fl F machine so hs blks).
Lemma field_bytes c f n : named t n c -> sym_field t c f -> str_ok n -> bytes_ok f.
Proof.
  intros [[-> Hl]|(id & -> & Hl & Hg)] Hf Hn; cbn [sym_field] in Hf.
  - subst f. apply bytes_ok_app. split; [apply Hn|apply bytes_ok_zeros].
  - destruct Hf as (off & _ & ->). apply bytes_ok_app. split; [apply bytes_ok_zeros|apply bytes_ok_write_u].
Qed.
Lemma sym_bytes_ok f a b c d e : bytes_ok f -> 0 <= d < 256 -> 0 <= e < 256 -> bytes_ok (sym_bytes f a b c d e).
Proof. intros H Hd He. unfold sym_bytes. repeat (apply bytes_ok_app; split; [first [exact H|apply bytes_ok_write_u|constructor; [unfold byte_ok; lia|constructor]]|]). constructor; [unfold byte_ok; lia|constructor]. Qed.
Lemma blk_bytes i blk : zget blks i = Some blk -> Forall bytes_ok blk.
Proof.
  intro Hb. apply zget_Some_lt in Hb as Hi. rewrite (im_blen _ _ _ _ _ _ _ _ _ _ _ _ IM) in Hi. destruct (zget_lt_Some (o_symbols o) i Hi) as [y Hy].
  assert (Hsy : Forall (sym_ok o) (o_symbols o)) by apply Hok. assert (Hyo : sym_ok o y) by exact (Forall_zget _ _ _ _ Hsy Hy).
  destruct (im_sym _ _ _ _ _ _ _ _ _ _ _ _ IM _ _ Hy) as (wk & s & blk' & _ & (R1 & R2 & R3 & R4) & Hb' & _ & W). assert (blk' = blk) by congruence. subst blk'.
  destruct W as (typ & class & f & Ef & Hf & W). pose proof Hyo as (Hstr & Hne & _).
  destruct (flags_bound o machine so Hm _ _ _ Hyo Ef) as (_ & Bc & _). pose proof (naux_bound o _ Hyo) as Bn. rewrite <- R2 in Bn.
  assert (He : str_ok (entry_name y)).
  { unfold entry_name. destruct (_ && _); [|exact Hstr]. split; [apply bytes_ok_forallb; reflexivity|cbn; intuition lia]. }
  destruct (sy_weak y) eqn:Ew.
  - destruct W as (d & fd & n & Ed & Hfd & _ & ->). destruct R4 as (d' & Ed' & _ & R4). assert (d' = d) by congruence. subst d'.
    constructor; [apply sym_bytes_ok; [apply (field_bytes _ _ _ R4 Hfd); apply (wu_ok o machine tab Hm); assumption|unfold CLASS_EXTERNAL; lia|lia]|]. constructor; [apply sym_bytes_ok; [exact (field_bytes _ _ _ R3 Hf He)|exact Bc|exact Bn]|].
    constructor; [|constructor]. unfold aux_weak_bytes. repeat (apply bytes_ok_app; split; [apply bytes_ok_write_u|]). apply bytes_ok_zeros.
  - destruct W as (n & auxs & _ & -> & HA & _ & _). constructor; [apply sym_bytes_ok; [exact (field_bytes _ _ _ R3 Hf He)|exact Bc|exact Bn]|].
    unfold aux_of in HA. destruct (sy_kind y); try (subst auxs; constructor).
    + destruct (sy_section y); try (subst auxs; constructor). destruct HA as (sc & sel & assoc & _ & Hsel & ->). constructor; [|constructor].
      apply (sels_fit o) in Hsel; [|apply Hok|apply IM]. destruct Hsel as [Hsel _]. cbn [fst] in Hsel.
      unfold aux_sec_bytes. do 5 (apply bytes_ok_app; split; [apply bytes_ok_write_u|]). constructor; [unfold byte_ok; lia|]. constructor; [unfold byte_ok; lia|]. apply bytes_ok_write_u.
    + assert (Hc : bytes_ok (concat auxs)) by (rewrite HA; apply bytes_ok_app; split; [apply Hstr|apply bytes_ok_zeros]). apply Forall_concat in Hc. exact Hc.
Qed.
Lemma written_table : table_ok (cf_symbols file).
Proof.
  split; cbn [cf_symbols read_file ct_entries ct_big].
  - rewrite (im_slen _ _ _ _ _ _ _ _ _ _ _ _ IM). pose proof (bounds _ _ _ _ _ _ _ _ _ _ _ _ HF Hok IM) as (_ & B & _). lia.
  - apply Forall_forall. intros b Hb. split; [pose proof (im_s18 _ _ _ _ _ _ _ _ _ _ _ _ IM) as H; rewrite Forall_forall in H; exact (H _ Hb)|].
    apply in_concat in Hb as (blk & Hblk & Hb). apply In_zget in Hblk as [i Hi]. pose proof (blk_bytes _ _ Hi) as H. rewrite Forall_forall in H. exact (H _ Hb).
Qed.
(** the symbol at an index *)
Definition at_index (k : Z) : csym := match zget (concat blks) k with Some b => csym_of false b | None => csym_of false [] end.
Lemma written_walk suf : forall pre, o_symbols o = pre ++ suf ->
  walk (cf_symbols file) (total pre) (map (fun k => (k, at_index k)) (indices (total pre) suf)) nsym.
Proof.
  induction suf as [|y suf IH]; intros pre E.
  - rewrite app_nil_r in E. cbn [indices map]. rewrite <- E. constructor. cbn [cf_symbols read_file ct_entries]. rewrite (im_slen _ _ _ _ _ _ _ _ _ _ _ _ IM). lia.
  - assert (Hi : zget (o_symbols o) (zlen pre) = Some y) by (rewrite E, zget_app2 by lia; replace (zlen pre - zlen pre) with 0 by lia; apply zget_0).
    assert (Hp : ztake (zlen pre) (o_symbols o) = pre) by (rewrite E; apply ztake_app). pose proof (total_nonneg pre) as Hpos.
    assert (Hidx : sym_index o (zlen pre) = total pre + (if sy_weak y then 1 else 0)) by (unfold sym_index; rewrite Hi, Hp; reflexivity).
    destruct (symbol_ok' crc o fl F machine so t tab ys sels hs blks HF Hok IM Hm (zlen pre) y Hi) as (x & Hx & _ & _ & _ & Hnaux & _).
    assert (Hget : forall k x, 0 <= k -> coff_symbol (cf_symbols file) k = Ok x -> exists b, zget (concat blks) k = Some b /\ x = csym_of false b /\ at_index k = x).
    { intros k x0 Hk Hx0. rewrite coff_symbol_eq in Hx0 by (exact written_table || exact Hk). cbn [cf_symbols read_file ct_entries ct_big] in Hx0.
      unfold at_index. destruct (zget (concat blks) k) as [b|]; [|discriminate]. injection Hx0 as <-. exists b. auto. }
    specialize (IH (pre ++ [y])). rewrite <- app_assoc in IH. specialize (IH E). rewrite total_app, total_one in IH.
    rewrite Hidx in Hx. destruct (Hget (total pre + (if sy_weak y then 1 else 0)) x ltac:(destruct (sy_weak y); lia) Hx) as (b & Hb & -> & Hat).
    cbn [indices]. destruct (sy_weak y) eqn:Ew.
    + destruct (weak_ok crc o fl F machine so t tab ys sels hs blks HF Hok IM Hm (zlen pre) y Hi Ew) as (d & nm & Hd & _ & _ & _ & _ & Hdn & _).
      rewrite Hidx in Hd. replace (total pre + 1 - 1) with (total pre) in Hd by lia. destruct (Hget (total pre) d ltac:(lia) Hd) as (bd & Hbd & -> & Hatd).
      cbn [app map]. rewrite Hat, Hatd. apply (walk_more (cf_symbols file) (total pre) bd); [exact Hbd|].
      cbn [cf_symbols read_file ct_big]. rewrite Hdn. replace (total pre + 1 + 0) with (total pre + 1) by lia.
      apply (walk_more (cf_symbols file) (total pre + 1) b); [exact Hb|]. cbn [cf_symbols read_file ct_big]. rewrite Hnaux.
      replace (total pre + 1 + 1 + (entries y - 1 - 1)) with (total pre + entries y) by lia. exact IH.
    + cbn [app map]. rewrite Z.add_0_r in *. rewrite Hat. apply (walk_more (cf_symbols file) (total pre) b); [exact Hb|]. cbn [cf_symbols read_file ct_big]. rewrite Hnaux.
      replace (total pre + 1 + (entries y - 1 - 0)) with (total pre + entries y) by lia. exact IH.
Qed.
Lemma written_runs : exists l, runs (coff_sym_next (cf_symbols file)) 0 l false nsym /\ map fst l = indices 0 (o_symbols o).
Proof.
  eexists. split; [apply walk_runs; [exact written_table|lia|exact (written_walk (o_symbols o) [] eq_refl)]|].
  rewrite map_map. apply map_id.
Qed.

(** ** COMDATs of a written file *)
Context (Hcrc : forall b, 0 <= crc b < 2 ^ 32) (Hco : comdats_ok o).
Definition item (k : Z) : Z * csym := (k, at_index k).
Definition after (i : Z) : list (Z * csym) := map item (indices (total (ztake i (o_symbols o))) (zdrop i (o_symbols o))).
Lemma after_step i y : zget (o_symbols o) i = Some y ->
  after i = (if sy_weak y then [item (sym_index o i - 1); item (sym_index o i)] else [item (sym_index o i)]) ++ after (i + 1).
Proof.
  intro Hi. unfold after. rewrite (zdrop_cons _ _ _ Hi), (ztake_step _ _ _ Hi), total_app, total_one. cbn [indices]. rewrite map_app. f_equal.
  unfold sym_index. rewrite Hi. destruct (sy_weak y); cbn [map]; [|rewrite Z.add_0_r; reflexivity]. f_equal. f_equal. lia.
Qed.
Lemma after_end i : zlen (o_symbols o) <= i -> after i = [].
Proof. intro H. unfold after. pose proof (zlen_nonneg (o_symbols o)). replace (zdrop i (o_symbols o)) with (@nil osym); [reflexivity|]. symmetry. apply skipn_all2. unfold zlen in *. lia. Qed.
Lemma after_ind (P : Z -> Prop) : (forall i, zlen (o_symbols o) <= i -> P i) -> (forall i y, zget (o_symbols o) i = Some y -> P (i + 1) -> P i) -> forall i, 0 <= i -> P i.
Proof.
  intros H0 H1 i. remember (Z.to_nat (zlen (o_symbols o) - i)) as m eqn:Em. revert i Em. induction m as [|m IH]; intros i Em Hi; [apply H0; lia|].
  destruct (zget_lt_Some (o_symbols o) i ltac:(lia)) as [y Hy]. apply (H1 i y Hy). apply IH; lia.
Qed.
Lemma after_split i : 0 <= i -> forall A k y B, after i = A ++ (k, y) :: B ->
  exists j z, i <= j /\ zget (o_symbols o) j = Some z /\ y = at_index k /\ ((k = sym_index o j /\ B = after (j + 1)) \/ (sy_weak z = true /\ k = sym_index o j - 1)).
Proof.
  revert i. apply (after_ind (fun i => forall A k y B, after i = A ++ (k, y) :: B ->
    exists j z, i <= j /\ zget (o_symbols o) j = Some z /\ y = at_index k /\ ((k = sym_index o j /\ B = after (j + 1)) \/ (sy_weak z = true /\ k = sym_index o j - 1)))).
  - intros i Hi A k y B E. rewrite after_end in E by exact Hi. destruct A; discriminate.
  - intros i y Hi IH A k y' B E. rewrite (after_step _ _ Hi) in E.
    assert (Rec : forall A', after (i + 1) = A' ++ (k, y') :: B -> exists j z, i <= j /\ zget (o_symbols o) j = Some z /\ y' = at_index k /\ ((k = sym_index o j /\ B = after (j + 1)) \/ (sy_weak z = true /\ k = sym_index o j - 1))).
    { intros A' E'. destruct (IH _ _ _ _ E') as (j & z & Hj & H). exists j, z. split; [lia|exact H]. }
    assert (Hcons : forall (a b : Z * csym) l m, a :: l = b :: m -> a = b /\ l = m) by (intros; split; congruence).
    assert (Hit : forall q, item q = (k, y') -> k = q /\ y' = at_index k) by (unfold item; intros q Hq; split; congruence).
    destruct (sy_weak y) eqn:Ew; cbn [app] in E.
    + destruct A as [|a A]; cbn [app] in E; apply Hcons in E as [E1 E].
      * apply Hit in E1 as [-> ->]. exists i, y. split; [lia|]. split; [exact Hi|]. split; [reflexivity|]. right. auto.
      * destruct A as [|a' A]; cbn [app] in E; apply Hcons in E as [E2 E]; [|exact (Rec _ E)].
        apply Hit in E2 as [-> ->]. exists i, y. split; [lia|]. split; [exact Hi|]. split; [reflexivity|]. left. auto.
    + destruct A as [|a A]; cbn [app] in E; apply Hcons in E as [E1 E]; [|exact (Rec _ E)].
      apply Hit in E1 as [-> ->]. exists i, y. split; [lia|]. split; [exact Hi|]. split; [reflexivity|]. left. auto.
Qed.
Lemma after_has j y : zget (o_symbols o) j = Some y -> forall i, 0 <= i -> i <= j -> exists A, after i = A ++ item (sym_index o j) :: after (j + 1).
Proof.
  intro Hj. apply (after_ind (fun i => i <= j -> exists A, after i = A ++ item (sym_index o j) :: after (j + 1))).
  - intros i Hi Hij. apply zget_Some_lt in Hj. lia.
  - intros i z Hi IH Hij. rewrite (after_step _ _ Hi). destruct (Z.eq_dec i j) as [->|Hne].
    + assert (z = y) by congruence. subst z. destruct (sy_weak y); [exists [item (sym_index o j - 1)]; reflexivity|exists []; reflexivity].
    + destruct (IH ltac:(lia)) as [A EA]. rewrite EA. eexists. rewrite app_assoc. reflexivity.
Qed.
Lemma at_of k x : 0 <= k -> coff_symbol (cf_symbols file) k = Ok x -> at_index k = x.
Proof.
  intros Hk Hx. rewrite coff_symbol_eq in Hx by (exact written_table || exact Hk). cbn [cf_symbols read_file ct_entries ct_big] in Hx.
  unfold at_index. destruct (zget (concat blks) k); [congruence|discriminate].
Qed.
Lemma at_symbol i y : zget (o_symbols o) i = Some y -> 0 <= sym_index o i /\ y_secnum (at_index (sym_index o i)) = sym_number y /\
  sym_flags y = Ok (y_typ (at_index (sym_index o i)), y_class (at_index (sym_index o i))) /\ y_naux (at_index (sym_index o i)) = entries y - 1 - (if sy_weak y then 1 else 0).
Proof.
  intro Hi. destruct (sym_index_bound o i y Hi) as [B _]. destruct (symbol_ok' crc o fl F machine so t tab ys sels hs blks HF Hok IM Hm i y Hi) as (x & Hx & _ & _ & H1 & H2 & H3).
  rewrite (at_of (sym_index o i) x) by (assumption || lia). split; [lia|]. auto.
Qed.
Lemma at_default i y : zget (o_symbols o) i = Some y -> sy_weak y = true -> y_naux (at_index (sym_index o i - 1)) = 0 /\ y_secnum (at_index (sym_index o i - 1)) = match sy_section y with YSec id => id + 1 | _ => -1 end.
Proof.
  intros Hi Hw. destruct (weak_ok crc o fl F machine so t tab ys sels hs blks HF Hok IM Hm i y Hi Hw) as (d & nm & Hd & _ & _ & _ & _ & H1 & _ & H2 & _).
  assert (0 <= sym_index o i - 1) by (unfold sym_index; rewrite Hi, Hw; pose proof (total_nonneg (ztake i (o_symbols o))); lia).
  rewrite (at_of (sym_index o i - 1) d) by assumption. auto.
Qed.
Lemma aux_iff i y : zget (o_symbols o) i = Some y -> has_aux_section (at_index (sym_index o i)) = true <-> exists id, is_section_symbol o i id.
Proof.
  intro Hi. destruct (at_symbol _ _ Hi) as (_ & _ & Hf & Hn). destruct Hco as (_ & _ & _ & Hnone). pose proof (Forall_zget _ _ _ _ Hnone Hi) as Hfl. cbn beta in Hfl.
  unfold has_aux_section. set (x := at_index (sym_index o i)) in *. clearbody x. unfold sym_flags in Hf. rewrite Hfl in Hf. unfold coff_symbol_flags in Hf. split.
  - intro H. apply andb_true_iff in H as [H Ht]. apply andb_true_iff in H as [Hna Hc]. rewrite Hn in Hna. unfold CLASS_STATIC in Hc. unfold entries in Hna.
    unfold CLASS_WEAK, CLASS_FILE, CLASS_STATIC, CLASS_SECTION, CLASS_LABEL, CLASS_EXTERNAL in Hf. destruct (sy_weak y) eqn:Ew; [cbn in Hf; assert (y_class x = 105) by congruence; lia|].
    destruct (sy_kind y) eqn:Ek; try lia.
    + destruct (sy_section y) as [| | | |id] eqn:Es; try lia. exists id, y. auto.
    + cbn in Hf. assert (y_class x = 103) by congruence. lia.
  - intros (id & y' & Hy' & Hw & Hk & Hs). assert (y' = y) by congruence. subst y'. rewrite Hn. unfold entries. rewrite Hw, Hk, Hs in *. unfold has_section in Hf. rewrite Hs in Hf. cbn in Hf.
    assert (Hc : y_class x = CLASS_STATIC) by congruence. assert (Ht : y_typ x = 0) by congruence. rewrite Hc, Ht. reflexivity.
Qed.
Lemma aux_default i y : zget (o_symbols o) i = Some y -> sy_weak y = true -> has_aux_section (at_index (sym_index o i - 1)) = false.
Proof. intros Hi Hw. destruct (at_default _ _ Hi Hw) as [Hn _]. unfold has_aux_section. rewrite Hn. reflexivity. Qed.
Lemma secsym_number i id : is_section_symbol o i id -> 0 <= id < nsec /\ y_secnum (at_index (sym_index o i)) = id + 1.
Proof.
  intros (y & Hi & Hw & Hk & Hs). destruct (at_symbol _ _ Hi) as (_ & H & _). rewrite H. unfold sym_number. rewrite Hw, Hs.
  assert (Hsy : Forall (sym_ok o) (o_symbols o)) by apply Hok. pose proof (Forall_zget _ _ _ _ Hsy Hi) as (_ & _ & _ & Hid & _). split; [apply Hid; exact Hs|reflexivity].
Qed.
Lemma secsym_aux i id : is_section_symbol o i id -> exists a p, coff_aux_section (cf_symbols file) (sym_index o i) = Ok a /\ zget sels id = Some p /\ x_sel a = fst p /\ x_number a = snd p.
Proof.
  intros (y & Hi & Hw & Hk & Hs). destruct (aux_entry crc o fl F machine so t tab ys sels hs blks HF Hok IM i y id Hi Hw Hk Hs Hcrc) as (s & sel & assoc & _ & H2 & H3).
  { intros sel assoc Hp. apply (sels_fit o) in Hp; [exact Hp|apply Hok|apply IM]. }
  eexists. exists (sel, assoc). split; [exact H3|]. split; [exact H2|]. split; reflexivity.
Qed.
Lemma first_after n j y : zget (o_symbols o) j = Some y -> sy_weak y = false -> sy_section y = YSec n -> 0 <= n ->
  forall i, 0 <= i -> i <= j -> (forall k z, i <= k < j -> zget (o_symbols o) k = Some z -> sy_section z <> YSec n) -> first_in (n + 1) (after i) = Some (sym_index o j).
Proof.
  intros Hj Hw Hs Hn. apply (after_ind (fun i => i <= j -> (forall k z, i <= k < j -> zget (o_symbols o) k = Some z -> sy_section z <> YSec n) -> first_in (n + 1) (after i) = Some (sym_index o j))).
  - intros i Hi Hij. apply zget_Some_lt in Hj. lia.
  - intros i z Hi IH Hij Hno. rewrite (after_step _ _ Hi). destruct (at_symbol _ _ Hi) as (_ & Hsn & _). destruct (Z.eq_dec i j) as [->|Hne].
    + assert (z = y) by congruence. subst z. rewrite Hw. unfold first_in, item. cbn [app find snd]. rewrite Hsn. unfold sym_number. rewrite Hw, Hs, Z.eqb_refl. reflexivity.
    + assert (Hz : sy_section z <> YSec n) by (apply (Hno i z); [lia|exact Hi]).
      assert (Hnn : (n + 1 =? y_secnum (at_index (sym_index o i))) = false).
      { apply Z.eqb_neq. rewrite Hsn. unfold sym_number. destruct (sy_weak z); [lia|]. destruct (sy_section z) as [| | | |id]; try lia. intro Hid. apply Hz. f_equal. lia. }
      assert (Hrec : first_in (n + 1) (after (i + 1)) = Some (sym_index o j)) by (apply IH; [lia|intros k z' Hk; apply Hno; lia]). unfold first_in in Hrec |- *.
      destruct (sy_weak z) eqn:Ewz; unfold item; cbn [app find snd]; rewrite Hnn; [|exact Hrec].
      destruct (at_default _ _ Hi Ewz) as [_ Hd].
      replace (n + 1 =? y_secnum (at_index (sym_index o i - 1))) with false; [exact Hrec|]. symmetry. apply Z.eqb_neq. rewrite Hd. destruct (sy_section z) as [| | | |id]; try lia. intro Hid. apply Hz. f_equal. lia.
Qed.
Lemma in_comdats f l r : In r (comdats_of f l) <-> exists A k y B, l = A ++ (k, y) :: B /\ comdat_at f k y B = Some r.
Proof.
  induction l as [|[k y] l IH]; cbn [comdats_of].
  - split; [intros []|intros (A & k & y & B & E & _); destruct A; discriminate].
  - split.
    + intro H. destruct (comdat_at f k y l) as [c|] eqn:Ec.
      * destruct H as [<-|H]; [exists [], k, y, l; split; [reflexivity|exact Ec]|]. apply IH in H as (A & k' & y' & B & -> & E). exists ((k, y) :: A), k', y', B. split; [reflexivity|exact E].
      * apply IH in H as (A & k' & y' & B & -> & E). exists ((k, y) :: A), k', y', B. split; [reflexivity|exact E].
    + intros (A & k' & y' & B & E & Ec). destruct A as [|a A]; cbn [app] in E.
      * inversion E. subst k' y' B. rewrite Ec. left. reflexivity.
      * assert (El : l = A ++ (k', y') :: B) by congruence. assert (Hr : In r (comdats_of f l)) by (apply IH; exists A, k', y', B; auto). destruct (comdat_at f k y l); [right|]; exact Hr.
Qed.
Lemma in_select {A B} (g : A -> option B) l r : In r (select g l) <-> exists x, In x l /\ g x = Some r.
Proof.
  induction l as [|x l IH]; cbn [select]; [split; [intros []|intros (? & [] & _)]|].
  split.
  - intro H. destruct (g x) eqn:Eg; [destruct H as [<-|H]; [exists x; split; [left; reflexivity|exact Eg]|]|]; apply IH in H as (x' & Hx & E); exists x'; split; (right; exact Hx) || exact E.
  - intros (x' & [->|Hx] & E); [rewrite E; left; reflexivity|]. assert (In r (select g l)) by (apply IH; exists x'; auto). destruct (g x); [right|]; assumption.
Qed.
(** numbers of the sections with a section symbol *)
Definition numbered (l : list (Z * csym)) : list Z := map (fun iy => y_secnum (snd iy)) (filter (fun iy => has_aux_section (snd iy)) l).
Lemma numbered_after : forall i, 0 <= i -> NoDup (numbered (after i)) /\ forall n, In n (numbered (after i)) -> exists j id, i <= j /\ is_section_symbol o j id /\ n = id + 1.
Proof.
  apply (after_ind (fun i => NoDup (numbered (after i)) /\ forall n, In n (numbered (after i)) -> exists j id, i <= j /\ is_section_symbol o j id /\ n = id + 1)).
  - intros i Hi. rewrite after_end by exact Hi. split; [constructor|intros n []].
  - intros i y Hi [IH1 IH2]. rewrite (after_step _ _ Hi).
    assert (E : numbered ((if sy_weak y then [item (sym_index o i - 1); item (sym_index o i)] else [item (sym_index o i)]) ++ after (i + 1)) =
      (if has_aux_section (at_index (sym_index o i)) then [y_secnum (at_index (sym_index o i))] else []) ++ numbered (after (i + 1))).
    { unfold numbered. destruct (sy_weak y) eqn:Ew; cbn [app filter item snd]; [rewrite (aux_default _ _ Hi Ew)|]; destruct (has_aux_section _); reflexivity. }
    rewrite E. destruct (has_aux_section (at_index (sym_index o i))) eqn:Ea; cbn [app].
    + apply (aux_iff _ _ Hi) in Ea as [id Hid]. destruct (secsym_number _ _ Hid) as [_ Hn]. rewrite Hn. split.
      * constructor; [|exact IH1]. intro H. destruct (IH2 _ H) as (j & id' & Hj & Hs & Heq). assert (id' = id) by lia. subst id'. destruct Hco as (Hu & _). specialize (Hu _ _ _ Hid Hs). lia.
      * intros n [<-|H]; [exists i, id; split; [lia|auto]|]. destruct (IH2 _ H) as (j & id' & Hj & Hs). exists j, id'. split; [lia|exact Hs].
    + split; [exact IH1|]. intros n H. destruct (IH2 _ H) as (j & id' & Hj & Hs). exists j, id'. split; [lia|exact Hs].
Qed.
Lemma comdat_at_sec f k y l r : comdat_at f k y l = Some r -> has_aux_section y = true /\ cc_section r = y_secnum y.
Proof.
  unfold comdat_at. destruct (has_aux_section y); cbn [andb]; [|discriminate]. destruct (0 <? y_secnum y); [|discriminate]. destruct (coff_aux_section _ _) as [a| |]; try discriminate.
  destruct (_ || _); [discriminate|]. destruct (first_in _ _); cbn [option_map]; [|discriminate]. intros [= <-]. split; reflexivity.
Qed.
Lemma comdats_nodup f l : NoDup (numbered l) -> NoDup (comdats_of f l) /\ forall r, In r (comdats_of f l) -> In (cc_section r) (numbered l).
Proof.
  induction l as [|[k y] l IH]; intro H; cbn [comdats_of]; [split; [constructor|intros r []]|].
  assert (E : numbered ((k, y) :: l) = if has_aux_section y then y_secnum y :: numbered l else numbered l) by (unfold numbered; cbn [filter snd]; destruct (has_aux_section y); reflexivity).
  rewrite E in *. destruct (has_aux_section y) eqn:Ea.
  - apply NoDup_cons_iff in H as [H1 H2]. destruct (IH H2) as [A B]. destruct (comdat_at f k y l) as [c|] eqn:Ec; [|split; [exact A|intros r Hr; right; exact (B _ Hr)]].
    destruct (comdat_at_sec _ _ _ _ _ Ec) as [_ Hc]. split; [constructor; [|exact A]|]. { intro Hin. apply B in Hin. congruence. }
    intros r [<-|Hr]; [left; congruence|right; exact (B _ Hr)].
  - destruct (IH H) as [A B]. destruct (comdat_at f k y l) as [c|] eqn:Ec; [destruct (comdat_at_sec _ _ _ _ _ Ec); congruence|]. auto.
Qed.
Lemma member_sec f n k y r : member_of_group f n (k, y) = Some r -> has_aux_section y = true /\ r = y_secnum y.
Proof.
  unfold member_of_group. destruct (has_aux_section y); cbn [andb]; [|discriminate]. destruct (0 <? y_secnum y); [|discriminate]. destruct (coff_aux_section _ _) as [a| |]; try discriminate.
  match goal with |- (if ?x then _ else _) = _ -> _ => destruct x end; [|discriminate]. intros [= <-]. auto.
Qed.
Lemma members_nodup f n l : NoDup (numbered l) -> NoDup (select (member_of_group f n) l) /\ forall r, In r (select (member_of_group f n) l) -> In r (numbered l).
Proof.
  induction l as [|[k y] l IH]; intro H; cbn [select]; [split; [constructor|intros r []]|].
  assert (E : numbered ((k, y) :: l) = if has_aux_section y then y_secnum y :: numbered l else numbered l) by (unfold numbered; cbn [filter snd]; destruct (has_aux_section y); reflexivity).
  rewrite E in *. destruct (has_aux_section y) eqn:Ea.
  - apply NoDup_cons_iff in H as [H1 H2]. destruct (IH H2) as [A B]. destruct (member_of_group f n (k, y)) as [c|] eqn:Ec; [|split; [exact A|intros r Hr; right; exact (B _ Hr)]].
    destruct (member_sec _ _ _ _ _ Ec) as [_ ->]. split; [constructor; [|exact A]|]. { intro Hin. apply B in Hin. congruence. }
    intros r [<-|Hr]; [left; reflexivity|right; exact (B _ Hr)].
  - destruct (IH H) as [A B]. destruct (member_of_group f n (k, y)) as [c|] eqn:Ec; [destruct (member_sec _ _ _ _ _ Ec); congruence|]. auto.
Qed.
Lemma after_0 : after 0 = map (fun k => (k, at_index k)) (indices 0 (o_symbols o)).
Proof. reflexivity. Qed.
Lemma kind_inj (a b : Z) : comdat_kind a = comdat_kind b -> comdat_kind b <> 0 -> a = b.
Proof.
  unfold comdat_kind. intros E H.
  repeat match goal with
  | E : context [if ?x =? ?y then _ else _] |- _ => destruct (Z.eqb_spec x y)
  | H : context [if ?x =? ?y then _ else _] |- _ => destruct (Z.eqb_spec x y) end; congruence || lia.
Qed.
Lemma comdats_sound r : In r (comdats_of file (after 0)) <-> exists c, In c (o_comdats o) /\ reads_comdat o c r.
Proof.
  assert (Hns : nsec <= 65279) by apply Hok. destruct (sels_spec o sels Hns Hco (im_sels _ _ _ _ _ _ _ _ _ _ _ _ IM)) as [S1 S2].
  rewrite in_comdats. split.
  - intros (A & k & y & B & E & Ec). destruct (after_split 0 ltac:(lia) _ _ _ _ E) as (j & z & Hj & Hz & -> & [[-> ->]|[Hw ->]]).
    2:{ destruct (comdat_at_sec _ _ _ _ _ Ec) as [Ha _]. rewrite (aux_default _ _ Hz Hw) in Ha. discriminate. }
    destruct (comdat_at_sec _ _ _ _ _ Ec) as [Ha _]. apply (aux_iff _ _ Hz) in Ha as [id Hid]. destruct (secsym_number _ _ Hid) as [Bid Hn].
    destruct (secsym_aux _ _ Hid) as (a & p & Ea & Ep & Exs & _). unfold comdat_at in Ec. destruct (_ && _) in Ec; [|discriminate]. rewrite Ea, Exs, Hn in Ec.
    destruct (_ || _) eqn:Esel in Ec; [discriminate|]. destruct (first_in (id + 1) (after (j + 1))) as [q|] eqn:Eq; cbn [option_map] in Ec; [|discriminate].
    assert (Hin : exists c, In c (o_comdats o) /\ In id (oc_sections c)).
    { destruct (existsb (fun c => if in_dec Z.eq_dec id (oc_sections c) then true else false) (o_comdats o)) eqn:Ex.
      - apply existsb_exists in Ex as (c & Hc & Hd). exists c. split; [exact Hc|]. destruct (in_dec _ _ _); [assumption|discriminate].
      - exfalso. rewrite (S2 id Bid) in Ep. + injection Ep as <-. cbn in Esel. discriminate.
        + intros c Hc Hid'. assert (Hex : existsb (fun c => if in_dec Z.eq_dec id (oc_sections c) then true else false) (o_comdats o) = true); [|congruence].
          apply existsb_exists. exists c. split; [exact Hc|]. destruct (in_dec _ _ _); [reflexivity|contradiction]. }
    destruct Hin as (c & Hc & Hidc). destruct Hco as (Hu & Hcl & _ & _). destruct (Hcl c Hc) as [leader Hld]. destruct (S1 c leader Hc Hld) as (sel & Q1 & Q2 & Q3).
    destruct (Z.eq_dec id leader) as [->|Hne].
    2:{ rewrite (Q3 id Hidc Hne) in Ep. injection Ep as <-. cbn in Esel. discriminate. }
    rewrite Q2 in Ep. injection Ep as <-. cbn [fst] in *. injection Ec as <-. exists c. split; [exact Hc|]. exists leader. split; [exact Hld|]. cbn [cc_symbol cc_section cc_sel].
    pose proof Hld as (_ & _ & _ & i0 & y0 & H1 & H2 & H3 & H4 & H5 & H6). assert (i0 = j) by (apply (Hu _ _ _ H1 Hid)). subst i0.
    rewrite (first_after leader (oc_symbol c) y0 H3 H5 H4 ltac:(lia) (j + 1)) in Eq; [|lia|lia|intros k z' Hk; apply H6; lia].
    injection Eq as <-. split; [reflexivity|]. split; [reflexivity|]. apply (comdat_sel_spec _ _ Q1).
  - intros (c & Hc & leader & Hld & R1 & R2 & R3). destruct (S1 c leader Hc Hld) as (sel & Q1 & Q2 & Q3).
    pose proof Hld as (_ & _ & _ & i0 & y0 & H1 & H2 & H3 & H4 & H5 & H6). destruct (secsym_number _ _ H1) as [Bid Hn]. destruct (secsym_aux _ _ H1) as (a & p & Ea & Ep & Exs & _).
    pose proof H1 as (z & Hz & Hzw & Hzk & Hzs). pose proof (zget_Some_lt _ _ _ Hz).
    destruct (after_has _ _ Hz 0 ltac:(lia) ltac:(lia)) as [A EA]. exists A, (sym_index o i0), (at_index (sym_index o i0)), (after (i0 + 1)). split; [exact EA|].
    unfold comdat_at. rewrite (proj2 (aux_iff _ _ Hz)) by (exists leader; exact H1). rewrite Hn, Ea. rewrite Q2 in Ep. injection Ep as <-. cbn [fst] in Exs. rewrite Exs.
    destruct (Z.ltb_spec 0 (leader + 1)); [|lia]. cbn [andb]. destruct (comdat_sel_spec _ _ Q1) as (B1 & B2 & B3).
    destruct (Z.eqb_spec sel 0); [lia|]. destruct (Z.eqb_spec sel 5); [lia|]. cbn [orb].
    rewrite (first_after leader (oc_symbol c) y0 H3 H5 H4 ltac:(lia) (i0 + 1)); [|lia|lia|intros k z' Hk; apply H6; lia]. cbn [option_map]. f_equal.
    destruct r as [rs rc rl]. cbn [cc_symbol cc_section cc_sel] in *. rewrite R1, R2. f_equal. symmetry.
    apply kind_inj; [congruence|]. rewrite B3. intro Hz0. rewrite Hz0 in Q1. discriminate.
Qed.
Lemma members_sound c leader n : In c (o_comdats o) -> comdat_ok o c leader ->
  In n (select (member_of_group file (leader + 1)) (after 0)) <-> exists id, In id (oc_sections c) /\ n = id + 1.
Proof.
  intros Hc Hld. assert (Hns : nsec <= 65279) by apply Hok. destruct (sels_spec o sels Hns Hco (im_sels _ _ _ _ _ _ _ _ _ _ _ _ IM)) as [S1 S2].
  destruct (S1 c leader Hc Hld) as (sel & Q1 & Q2 & Q3). destruct (comdat_sel_spec _ _ Q1) as (B1 & B2 & B3). pose proof Hco as (Hu & Hcl & Hdj & _).
  assert (Hlead : 0 <= leader < nsec) by (destruct Hld as (_ & _ & _ & ? & ? & H & _); apply secsym_number in H as [H _]; exact H).
  assert (Same : forall d, In d (o_comdats o) -> forall id, In id (oc_sections c) -> In id (oc_sections d) -> d = c).
  { intros d Hd id Hi1 Hi2. apply In_zget in Hd as [x Hx]. apply In_zget in Hc as [x' Hx']. assert (x = x') by (apply (Hdj _ _ _ _ _ Hx Hx' Hi2 Hi1)). congruence. }
  rewrite in_select. split.
  - intros ([k y] & Hin & E). apply in_split in Hin as (A & B & EA). destruct (after_split 0 ltac:(lia) _ _ _ _ EA) as (j & z & Hj & Hz & -> & [[-> ->]|[Hw ->]]).
    2:{ destruct (member_sec _ _ _ _ _ E) as [Ha _]. rewrite (aux_default _ _ Hz Hw) in Ha. discriminate. }
    destruct (member_sec _ _ _ _ _ E) as [Ha Hn]. apply (aux_iff _ _ Hz) in Ha as [id Hid]. destruct (secsym_number _ _ Hid) as [Bid Hsn]. exists id. split; [|congruence].
    destruct (secsym_aux _ _ Hid) as (a & p & Ea & Ep & Exs & Exn). unfold member_of_group in E. destruct (_ && _) in E; [|discriminate]. rewrite Ea, Exs, Hsn in E.
    destruct (in_dec Z.eq_dec id (oc_sections c)) as [|Hno]; [assumption|exfalso].
    assert (Hin : (exists d, In d (o_comdats o) /\ In id (oc_sections d)) \/ forall d, In d (o_comdats o) -> ~ In id (oc_sections d)).
    { clear -o. induction (o_comdats o) as [|d l IH]; [right; intros ? []|]. destruct (in_dec Z.eq_dec id (oc_sections d)); [left; exists d; split; [left; reflexivity|assumption]|].
      destruct IH as [(d' & H1 & H2)|H]; [left; exists d'; split; [right; exact H1|exact H2]|right; intros d' [<-|H']; [assumption|exact (H _ H')]]. }
    destruct Hin as [(d & Hd & Hidd)|Hnone].
    + destruct (Hcl d Hd) as [ld Hldd]. destruct (S1 d ld Hd Hldd) as (sel' & Q1' & Q2' & Q3'). destruct (comdat_sel_spec _ _ Q1') as (B1' & B2' & B3').
      destruct (Z.eq_dec id ld) as [->|Hne].
      * rewrite Q2' in Ep. injection Ep as <-. cbn [fst snd] in *. destruct (Z.eqb_spec sel' 5); [lia|]. destruct (Z.eqb_spec sel' 0); [lia|]. cbn [negb andb] in E.
        destruct (Z.eqb_spec (ld + 1) (leader + 1)); [|discriminate]. apply Hno. assert (ld = leader) by lia. subst ld. apply Hld.
      * rewrite (Q3' id Hidd Hne) in Ep. injection Ep as <-. cbn [fst snd] in *. change (5 =? 5) with true in E. cbv iota in E. unfold aux_number in E. cbn [read_file cf_big] in E. rewrite Exn in E.
        destruct (Z.eqb_spec (ld + 1) (leader + 1)); [|discriminate]. assert (ld = leader) by lia. subst ld.
        assert (Hdc : d = c) by (apply (Same d Hd leader); [apply Hld|apply Hldd]). subst d. contradiction.
    + rewrite (S2 id Bid Hnone) in Ep. injection Ep as <-. cbn [fst snd] in *. change (0 =? 5) with false in E. change (0 =? 0) with true in E. cbn [negb andb] in E. discriminate.
  - intros (id & Hid & ->). pose proof Hld as (_ & _ & Hss & _). destruct (Hss id Hid) as [j Hj]. destruct (secsym_number _ _ Hj) as [Bid Hsn]. destruct (secsym_aux _ _ Hj) as (a & p & Ea & Ep & Exs & Exn).
    pose proof Hj as (z & Hz & _). pose proof (zget_Some_lt _ _ _ Hz). destruct (after_has _ _ Hz 0 ltac:(lia) ltac:(lia)) as [A EA].
    exists (item (sym_index o j)). split; [rewrite EA; apply in_app_iff; right; left; reflexivity|]. unfold member_of_group, item.
    rewrite (proj2 (aux_iff _ _ Hz)) by (exists id; exact Hj). rewrite Hsn, Ea, Exs. destruct (Z.ltb_spec 0 (id + 1)); [|lia]. cbn [andb].
    destruct (Z.eq_dec id leader) as [->|Hne].
    + rewrite Q2 in Ep. injection Ep as <-. cbn [fst]. destruct (Z.eqb_spec sel 5); [lia|]. destruct (Z.eqb_spec sel 0); [lia|]. rewrite Z.eqb_refl. reflexivity.
    + rewrite (Q3 id Hid Hne) in Ep. injection Ep as <-. cbn [fst snd] in *. change (5 =? 5) with true. cbv iota. unfold aux_number. cbn [read_file cf_big]. rewrite Exn, Z.eqb_refl. reflexivity.
Qed.
Lemma written_comdats : 
  (exists l st, runs (coff_comdat_next file) 0 l false st /\ NoDup l /\ forall r, In r l <-> exists c, In c (o_comdats o) /\ reads_comdat o c r) /\
  (forall c leader, In c (o_comdats o) -> comdat_ok o c leader ->
     exists l st, runs (coff_comdat_sec_next file (leader + 1)) 0 l false st /\ NoDup l /\ forall n, In n l <-> exists id, In id (oc_sections c) /\ n = id + 1).
Proof.
  pose proof (written_walk (o_symbols o) [] eq_refl) as W. change (total []) with 0 in W. rewrite <- after_0 in W. destruct (numbered_after 0 ltac:(lia)) as [N _]. split.
  - exists (comdats_of file (after 0)), nsym. split; [apply comdats_run; [exact written_table|lia|exact W]|]. split; [apply comdats_nodup; exact N|exact comdats_sound].
  - intros c leader Hc Hld. exists (select (member_of_group file (leader + 1)) (after 0)), nsym. split; [apply secs_run; [exact written_table|lia|exact W]|].
    split; [apply members_nodup; exact N|intro n; apply members_sound; assumption].
Qed.
End image.
Lemma fl_any_2 v j k : 0 <= j -> 0 <= k -> fl_any v (Z.lor (2 ^ j) (2 ^ k)) = Z.testbit v j || Z.testbit v k.
Proof.
  intros Hj Hk. unfold fl_any. rewrite Z.land_lor_distr_r.
  assert (Hb : forall m, 0 <= m -> Z.land v (2 ^ m) = if Z.testbit v m then 2 ^ m else 0).
  { intros m Hm. apply Z.bits_inj'. intros n Hn. rewrite Z.land_spec, Z.pow2_bits_eqb by lia. destruct (Z.eqb_spec m n) as [->|Hne].
    - rewrite andb_true_r. destruct (Z.testbit v n); [rewrite Z.pow2_bits_true by lia; reflexivity|rewrite Z.bits_0; reflexivity].
    - rewrite andb_false_r. destruct (Z.testbit v m); [rewrite Z.pow2_bits_false by lia; reflexivity|rewrite Z.bits_0; reflexivity]. }
  rewrite !Hb by assumption. pose proof (Z.pow_pos_nonneg 2 j ltac:(lia) Hj). pose proof (Z.pow_pos_nonneg 2 k ltac:(lia) Hk).
  assert (Hl : forall a b, 0 < a -> 0 <= b -> Z.lor a b <> 0) by (intros a b Ha Hb0 E; apply Z.lor_eq_0_iff in E; lia).
  destruct (Z.testbit v j), (Z.testbit v k); cbn [orb]; rewrite ?Z.lor_0_r, ?Z.lor_0_l; try reflexivity; apply negb_true_iff, Z.eqb_neq; try lia.
  apply Hl; lia.
Qed.
Section api.
Context (crc : bytes -> Z) (o : obj) (fl : Z) (F : bytes) (machine so : Z) (t : strtab) (tab : bytes) (ys : list (option soff * soff))
  (sels : list (Z * Z)) (hs : list bytes) (blks : list (list bytes)).
Context (HF : zlen F < 2 ^ 32) (Hok : coff_ok o fl) (IM : image crc o fl F machine so t tab ys sels hs blks) (Hm : 0 <= machine < 2 ^ 16).
Local Notation file := (read_file o fl F machine so hs blks).
Lemma aux_ok i y id : (forall b, 0 <= crc b < 2 ^ 32) -> zget (o_symbols o) i = Some y -> sy_weak y = false -> sy_kind y = YSection -> sy_section y = YSec id -> reads_aux crc o file i id.
Proof.
  intros Hcrc Hi Hw Hk Hs. destruct (aux_entry crc o fl F machine so t tab ys sels hs blks HF Hok IM i y id Hi Hw Hk Hs Hcrc) as (s & sel & assoc & H1 & H2 & H3).
  { intros sel assoc Hp. apply (sels_fit o) in Hp; [exact Hp|apply Hok|apply IM]. }
  eexists. exists s. split; [exact H3|]. split; [exact H1|]. cbn [x_length x_nrel x_sum]. split; [reflexivity|]. split; [|reflexivity].
  rewrite wrap_u_id; [reflexivity|]. pose proof (zlen_nonneg (se_relocs s)). split; [lia|].
  destruct (im_sec _ _ _ _ _ _ _ _ _ _ _ _ IM _ _ H1) as (? & ? & ? & ? & ? & ? & ? & ? & ? & _ & _ & _ & _ & _ & _ & _ & _ & _ & Hov). lia.
Qed.
Lemma vaddr_0 id : 0 <= id < zlen (o_sections o) -> exists x, coff_section (cf_sections file) (id + 1) = Ok x /\ c_vaddr x = 0.
Proof.
  intro Hid. destruct (zget_lt_Some (o_sections o) id Hid) as [s Hs]. destruct (section_ok crc o fl F machine so t tab ys sels hs blks HF Hok IM id s Hs) as (x & Hx & _ & Hv & _).
  exists x. split; [|exact Hv]. unfold coff_section. replace (id + 1 - 1) with id by lia. rewrite wrap_u_id by (destruct Hok; lia). rewrite Hx. reflexivity.
Qed.
Lemma reports_ok i y : (forall b, 0 <= crc b < 2 ^ 32) -> zget (o_symbols o) i = Some y -> sy_flags y = None -> reports_symbol o file i y.
Proof.
  intros Hcrc Hi Hfl. destruct (symbol_ok' crc o fl F machine so t tab ys sels hs blks HF Hok IM Hm i y Hi) as (x & Hx & _ & Hv & Hn & Ha & Hf).
  exists x. split; [exact Hx|]. assert (Hsy : Forall (sym_ok o) (o_symbols o)) by apply Hok. pose proof (Forall_zget _ _ _ _ Hsy Hi) as (_ & _ & _ & Hid & _).
  unfold sym_flags in Hf. rewrite Hfl in Hf. unfold coff_symbol_flags, CLASS_WEAK, CLASS_FILE, CLASS_STATIC, CLASS_SECTION, CLASS_LABEL, CLASS_EXTERNAL in Hf.
  destruct (sy_weak y) eqn:Ew.
  { (* weak *) assert (Hc : y_class x = 105) by (destruct (sy_kind y); cbn in Hf; congruence). assert (Ht : y_typ x = match sy_kind y with YText => 32 | _ => 0 end) by (cbn in Hf; destruct (sy_kind y); congruence).
    unfold sym_number in Hn. rewrite Ew in Hn. unfold sym_value in Hv. rewrite Ew in Hv.
    unfold cy_kind, cy_section, cy_is_weak, cy_is_global, cy_is_local, cy_scope, cy_address, cy_size, coff_address, expected_kind, expected_section, expected_global, expected_address, expected_size, cy_is_global, secnum_index, IMAGE_SYM_UNDEFINED.
    rewrite Hc, Hn, Ht, Ew. repeat split; try reflexivity; [destruct (sy_kind y); reflexivity|]. cbn. destruct (sy_section y), (sy_kind y); reflexivity. }
  assert (Haux : match sy_kind y, sy_section y with YSection, YSec id => exists a s, coff_aux_section (cf_symbols file) (sym_index o i) = Ok a /\ zget (o_sections o) id = Some s /\ x_length a = se_size s mod 2 ^ 32 | _, _ => True end).
  { destruct (sy_kind y) eqn:Ek; try exact I. destruct (sy_section y) eqn:Es; try exact I. destruct (aux_ok i y id Hcrc Hi Ew Ek Es) as (a & s & A1 & A2 & A3 & _). exists a, s. auto. }
  assert (Hvad : match sy_section y with YSec id => exists z, coff_section (cf_sections file) (id + 1) = Ok z /\ c_vaddr z = 0 /\ 0 <= id | _ => True end).
  { destruct (sy_section y); try exact I. specialize (Hid _ eq_refl). destruct (vaddr_0 id Hid) as (z & A1 & A2). exists z. split; [exact A1|]. split; [exact A2|lia]. }
  assert (Hvb : 0 <= sym_value y < 2 ^ 32) by (apply sym_value_bound).
  assert (Hval : match sy_section y with YCommon => True | _ => sym_value y = sy_value y mod 2 ^ 32 end) by (unfold sym_value; rewrite Ew; destruct (sy_section y); reflexivity || exact I).
  unfold entries in Ha. rewrite Ew in Ha.
  unfold cy_kind, cy_section, cy_is_weak, cy_is_global, cy_is_local, cy_scope, cy_address, cy_size, coff_address, expected_kind, expected_section, expected_global, expected_address, expected_size, cy_is_global, has_aux_section, has_aux_function, plain_kind.
  unfold sym_number in Hn. rewrite Ew in *. rewrite Hv. clear Hv Hx. set (v := sym_value y) in *. clearbody v.
  assert (Hown : exists n, own_secnum y n).
  { destruct (im_sym _ _ _ _ _ _ _ _ _ _ _ _ IM _ _ Hi) as (wk & s & blk & _ & _ & _ & _ & W). destruct W as (ty & cl & f & _ & _ & W). rewrite Ew in W. destruct W as (n & auxs & Hn' & _). exists n; exact Hn'. }
  destruct Hown as [n0 Hown]. unfold own_secnum in Hown.
  destruct (sy_kind y) eqn:Ek, (sy_section y) as [| | | |id] eqn:Es; unfold has_section in Hf; rewrite ?Es in Hf; cbn in Hf; try discriminate; try (destruct Hown; congruence);
    try (destruct (sy_scope y); cbn in Hf; try discriminate);
    (let Hc := fresh "Hc" in let Ht := fresh "Ht" in
     match type of Hf with Ok (?a, ?b) = _ => assert (Hc : y_class x = b) by congruence; assert (Ht : y_typ x = a) by congruence end; rewrite Hc, Ht, Hn);
    try rewrite Ha; try (destruct Haux as (a0 & s0 & Ea & Es0 & El); rewrite Ea, Es0, El);
    try (destruct Hvad as (z & Ez & Evz & Hid0); assert (Hsi : secnum_index (id + 1) = Some (id + 1)) by (unfold secnum_index; destruct (Z.ltb_spec 0 (id + 1)); [reflexivity|lia]);
         rewrite Hsi, Ez; cbn [bind]; rewrite Evz; assert (Hw1 : wrap_u 64 (wrap_u 64 (0 + 0) + v) = v) by (change (wrap_u 64 (0 + 0)) with 0; apply wrap_u_id; lia); rewrite Hw1;
         assert (Hq0 : (id + 1 =? IMAGE_SYM_UNDEFINED) = false) by (apply Z.eqb_neq; unfold IMAGE_SYM_UNDEFINED; lia); assert (Hq1 : (id + 1 =? IMAGE_SYM_ABSOLUTE) = false) by (apply Z.eqb_neq; unfold IMAGE_SYM_ABSOLUTE; lia);
         assert (Hq2 : (id + 1 =? IMAGE_SYM_DEBUG) = false) by (apply Z.eqb_neq; unfold IMAGE_SYM_DEBUG; lia); rewrite ?Hq0, ?Hq1, ?Hq2);
    repeat split; try reflexivity; try (cbn; congruence).
  all: exact Hval.
Qed.
Lemma skind_ok i s : zget (o_sections o) i = Some s -> se_flags s = SFNone ->
  exists x, zget (cf_sections file) i = Some x /\ coff_section_kind x = expected_skind (se_kind s).
Proof.
  intros Hi Hfl. assert (Hsec : Forall (sec_ok o) (o_sections o)) by apply Hok. pose proof (Forall_zget _ _ _ _ Hsec Hi) as Hs. cbn beta in Hs.
  destruct (im_sec _ _ _ _ _ _ _ _ _ _ _ _ IM _ _ Hi) as (nm & f & c & a & a0 & e0 & cs & sel & assoc & Hsel & Hnm & Hf & Hc & Ha & Hh & Hd & Hr & HR & Hov).
  pose proof (holds_bounds _ _ _ Hd) as [Bd1 Bd2]. pose proof (holds_bounds _ _ _ Hr) as [Br1 Br2].
  destruct (char_bound _ _ _ Hs Hc) as (Hcb & _).
  assert (Hfl8 : zlen f = 8) by exact (sec_field_len _ _ _ _ _ (im_stored _ _ _ _ _ _ _ _ _ _ _ _ IM) Hnm Hf).
  pose proof (hdr_flags_bound s c a sel Hcb) as Hfb. pose proof (zlen_nonneg (overflow_rel s ++ concat (map enc_rel cs))). pose proof (zlen_nonneg (se_data s)). pose proof (zlen_nonneg (se_relocs s)) as Hrl.
  set (rp := match se_data s with [] => 0 | _ => a0 end) in *. set (rlp := match se_relocs s with [] => 0 | _ => e0 end) in *.
  assert (Hrp : 0 <= rp < 2 ^ 32) by (subst rp; destruct (se_data s); lia).
  assert (Hrlp : 0 <= rlp < 2 ^ 32) by (subst rlp; destruct (se_relocs s); lia).
  assert (Hsz : 0 <= wrap_u 32 (se_size s) < 2 ^ 32) by (apply Z.mod_pos_bound; lia).
  pose proof (csec_hdr f _ _ _ _ _ Hfl8 Hsz Hrp Hrlp Hrl Hfb) as Ex.
  eexists. split; [cbn [cf_sections read_file]; rewrite zget_map, Hh; reflexivity|]. rewrite Ex. unfold coff_section_kind. cbn [c_flags].
  change SCN_CODE with (2 ^ 5). change SCN_EXECUTE with (2 ^ 29). change SCN_INIT with (2 ^ 6). change SCN_DISCARDABLE with (2 ^ 25).
  change SCN_WRITE with (2 ^ 31). change SCN_UNINIT with (2 ^ 7). change SCN_INFO with (2 ^ 9).
  rewrite fl_any_2, !fl_has_bit by lia. rewrite !hdr_flags_bit by (lia || reflexivity).
  unfold sec_characteristics in Hc. rewrite Hfl in Hc. destruct (se_kind s); cbn [coff_section_flags of_opt] in Hc; try discriminate;
    match type of Hc with Ok ?v = _ => assert (c = v) as -> by congruence end; reflexivity.
Qed.
Lemma header_ok sub : coff_machine (o_arch o) sub (o_endian o) = Some machine ->
  ch_flags false (cf_header file) = fl /\ coff_endian file = (match o_arch o with APowerPc | APowerPc64 => o_endian o | _ => Little end) /\
  coff_arch file = (match o_arch o with APowerPc64 => APowerPc | a => a end) /\
  coff_arm64ec file = (match sub with Some SubArm64EC => true | _ => false end).
Proof.
  intro Em. destruct (bounds crc o fl F machine so t tab ys sels hs blks HF Hok IM) as (B1 & B2 & B3 & B4).
  assert (Hh : ch_machine false (cf_header file) = machine /\ ch_flags false (cf_header file) = fl).
  { cbn [cf_header read_file ch_machine ch_flags]. unfold file_header. split; fld_norm; reflexivity. }
  destruct Hh as [H1 H2]. split; [exact H2|]. unfold coff_endian, coff_arch, coff_arm64ec. cbn [cf_big read_file]. change (cf_header _) with (cf_header file). rewrite H1.
  unfold coff_machine in Em. destruct sub as [[|]|]; try discriminate; destruct (o_arch o); try discriminate; try (destruct (o_endian o)); injection Em as <-; repeat split; reflexivity.
Qed.
End api.
