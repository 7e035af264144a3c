(** Proofs about the headers and resources of PE images. *)
From Verif Require Import Core_proofs Util_proofs File_proofs Str_proofs Map_proofs Pod_proofs Iter_proofs Ar_proofs ArSym_proofs Rel_proofs ElfR_proofs Kind_proofs CoffW_proofs CoffR_proofs CoffI_proofs.
From Verif Require Import Pe_spec Pe_proofs PeX_proofs PeI_proofs.

Lemma rslice_iff F o n k cs : zlen F < 2 ^ 63 -> 0 <= o <= zlen F -> 0 < n -> 0 <= k ->
  fst (rr_read_slice F o n k) = Ok cs <-> holds F o (concat cs) /\ Forall (fun c => zlen c = n) cs /\ zlen cs = k.
Proof.
  intros HF Ho Hn Hk. split.
  - intro E. destruct (Z.eq_dec k 0) as [->|Hk0].
    + assert (cs = []) as ->. { unfold rr_read_slice, cmul in E. change (0 * n <? 2 ^ 64) with true in E. cbn iota in E. rewrite rr_read_bytes_eq in E by lia. destruct (Z.leb_spec (o + 0 * n) (zlen F)); [|lia]. cbn [fst] in E.
        unfold slice_from_bytes, cmul in E. change (0 * n <? 2 ^ 64) with true in E. cbn [of_opt bind] in E. destruct (get_from _ _); [|discriminate]. cbn [of_opt bind chunks Z.to_nat] in E. congruence. }
      split; [apply holds_nil; lia|]. split; [constructor|reflexivity].
    + change (fst (rr_read_slice F o n k)) with (rr_read_slice_at F o n k) in E. rewrite rr_read_slice_at_eq in E by lia. destruct (Z.leb_spec (o + k * n) (zlen F)) as [L|L]; [|discriminate].
      assert (cs = chunks n (Z.to_nat k) (zdrop o F)) as -> by congruence. destruct (chunks_concat n (Z.to_nat k) (zdrop o F)) as [Hc Hf]; [lia|rewrite zlen_zdrop; lia|].
      rewrite Z2Nat.id in Hc by lia. rewrite Hc. split; [change (ztake (k * n) (zdrop o F)) with (zslice o (k * n) F); apply holds_zslice; nia|]. split; [apply Hf|]. rewrite zlen_chunks. lia.
  - intros (Hh & Hf & Hz). rewrite (read_slice_ok F o cs n k); try assumption; try lia. reflexivity.
Qed.
Lemma rslice_b F o n k cs : zlen F < 2 ^ 63 -> 0 <= o <= zlen F -> 0 < n -> 0 <= k -> fst (rr_read_slice F o n k) = Ok cs <-> b_read_slice_at F o n k = Ok cs.
Proof. intros. rewrite rslice_iff by assumption. rewrite slice_at_iff by lia. reflexivity. Qed.
Lemma rslice_np F o n k : fst (rr_read_slice F o n k) <> Panic.
Proof. apply rr_read_slice_no_panic. Qed.
Lemma holds_half S o x : bytes_ok S -> 0 <= o -> o + 2 <= zlen S -> holds S o (half x) /\ u16_ok x <-> x = fld Little o 2 S.
Proof.
  intros HS Ho Hl. unfold fld. pose proof (bytes_ok_zslice o 2 S HS) as Hb. assert (Hz : zlen (zslice o 2 S) = 2) by (apply zlen_zslice; lia). split.
  - intros [H Hx]. apply holds_slice in H. rewrite zlen_half in H. rewrite H. unfold half. rewrite read_write_u_small; [reflexivity|]. exact Hx.
  - intros ->. split.
    + unfold half. replace 2%nat with (length (zslice o 2 S)) by (unfold zlen in Hz; lia). rewrite write_read_u by exact Hb. apply holds_zslice; lia.
    + pose proof (read_u_bound Little _ Hb) as B. rewrite Hz in B. exact B.
Qed.
Lemma rtable_exact S o t : file_ok S -> 0 <= o -> rtable_parse S o = Ok t <-> resource_table S o t.
Proof.
  intros [HS HL] Ho. unfold rtable_parse, resource_table. rewrite rr_read_eq by lia. destruct (Z.leb_spec (o + 16) (zlen S)) as [L|L].
  - set (h := zslice o 16 S). assert (Hz : zlen h = 16) by (apply zlen_zslice; lia). assert (Hb : bytes_ok h) by (apply bytes_ok_zslice; exact HS). assert (Hh : holds S o h) by (apply holds_zslice; lia).
    pose proof (fld_bound Little 12 2 h Hb ltac:(lia) ltac:(lia)) as B1. pose proof (fld_bound Little 14 2 h Hb ltac:(lia) ltac:(lia)) as B2. change (2 ^ (8 * 2)) with 65536 in B1, B2.
    unfold padd. destruct (Z.ltb_spec (fld Little 14 2 h + fld Little 12 2 h) (2 ^ 64)); [|lia]. cbn [bind].
    pose proof (pairs_at_iff S (o + 16) (fld Little 14 2 h + fld Little 12 2 h) (rt_entries t) HS ltac:(lia) ltac:(lia) HL) as P.
    assert (Eh : exists pre, h = pre ++ half (fld Little 12 2 h) ++ half (fld Little 14 2 h) /\ zlen pre = 12).
    { exists (zslice 0 12 h). split; [|apply zlen_zslice; lia]. unfold fld, half. replace 2%nat with (length (zslice 12 2 h)) at 1 by (assert (X : zlen (zslice 12 2 h) = 2) by (apply zlen_zslice; lia); unfold zlen in X; lia).
      replace 2%nat with (length (zslice 14 2 h)) by (assert (X : zlen (zslice 14 2 h) = 2) by (apply zlen_zslice; lia); unfold zlen in X; lia).
      rewrite !write_read_u by (apply bytes_ok_zslice; exact Hb). pose proof (zslice_join 12 2 2 h ltac:(lia) ltac:(lia) ltac:(lia) ltac:(lia)) as J1. pose proof (zslice_join 0 12 4 h ltac:(lia) ltac:(lia) ltac:(lia) ltac:(lia)) as J2.
      cbn [Z.add Pos.add Pos.succ] in J1, J2. rewrite J1, J2. symmetry. apply zslice_all. lia. }
    split.
    + intro E. destruct (fst (rr_read_slice S (o + 16) 8 (fld Little 14 2 h + fld Little 12 2 h))) as [l| |] eqn:El; try discriminate. cbn [bind] in E. injection E as <-. cbn [rt_header rt_entries] in *.
      destruct Eh as (pre & Eh & Hp). exists pre, (fld Little 12 2 h), (fld Little 14 2 h). split; [exact Eh|]. split; [exact Hp|]. split; [exact B1|]. split; [exact B2|].
      apply rslice_b in El; try lia. destruct (proj1 P) as (P1 & P2 & P3); [eauto|]. split; [lia|]. split; [exact P2|]. apply holds_app. rewrite Hz. auto.
    + destruct t as [th te]. cbn [rt_header rt_entries] in *. intros (pre & named & ids & Et & Hp & Hn & Hi & Hlen & Hf & Hh'). apply holds_app in Hh' as [H1 H2].
      assert (Hzt : zlen th = 16) by (rewrite Et, !zlen_app, !zlen_half; lia). assert (th = h) as ->. { apply holds_slice in H1. rewrite Hzt in H1. symmetry. exact H1. }
      assert (En : named = fld Little 12 2 h). { apply holds_half; try lia; [exact Hb|]. split; [|exact Hn]. exists pre, (half ids). auto. }
      assert (Ei : ids = fld Little 14 2 h). { apply holds_half; try lia; [exact Hb|]. split; [|exact Hi]. exists (pre ++ half named), []. rewrite app_nil_r, <- app_assoc. split; [exact Et|]. rewrite zlen_app, zlen_half. lia. }
      rewrite Hz in H2. destruct (proj2 P) as (cs & Ec & ->). { split; [exact H2|]. split; [exact Hf|lia]. } apply rslice_b in Ec; try lia. rewrite Ec. reflexivity.
  - split; [discriminate|]. intros (pre & named & ids & Et & Hp & Hn & Hi & Hlen & Hf & Hh). apply holds_bounds in Hh. rewrite Et, !zlen_app, !zlen_half in Hh. pose proof (zlen_nonneg (pairs (rt_entries t))). lia.
Qed.
Lemma rtable_np S o : file_ok S -> 0 <= o -> rtable_parse S o <> Panic.
Proof.
  intros [HS HL] Ho. unfold rtable_parse. rewrite rr_read_eq by lia. destruct (_ <=? _); [|discriminate]. set (h := zslice o 16 S). assert (Hb : bytes_ok h) by (apply bytes_ok_zslice; exact HS).
  pose proof (fld_bound Little 12 2 h Hb ltac:(lia) ltac:(lia)) as B1. pose proof (fld_bound Little 14 2 h Hb ltac:(lia) ltac:(lia)) as B2. change (2 ^ (8 * 2)) with 65536 in B1, B2.
  unfold padd. destruct (Z.ltb_spec (fld Little 14 2 h + fld Little 12 2 h) (2 ^ 64)); [|lia]. cbn [bind]. match goal with |- context [rr_read_slice ?a ?b ?c ?d] => pose proof (rslice_np a b c d) as P end. destruct (fst _); cbn [bind]; congruence.
Qed.
Lemma high_bit x : 0 <= x < 2 ^ 32 -> (Z.land x (2 ^ 31) =? 0) = (x <? 2 ^ 31).
Proof.
  intro H. change (2 ^ 31) with (Z.shiftl 1 31) at 1. rewrite land_bit by lia. rewrite Z.testbit_odd, Z.shiftr_div_pow2 by lia. destruct (Z.ltb_spec x (2 ^ 31)).
  - rewrite Z.div_small by lia. reflexivity.
  - replace (x / 2 ^ 31) with 1 by (apply Z.div_unique with (r := x - 2 ^ 31); lia). reflexivity.
Qed.
Lemma low_bits x : 0 <= x -> Z.land x (2 ^ 31 - 1) = x mod 2 ^ 31.
Proof. intro H. change (2 ^ 31 - 1) with (Z.ones 31). apply Z.land_ones. lia. Qed.
Lemma low_bits_big x : 2 ^ 31 <= x < 2 ^ 32 -> x mod 2 ^ 31 = x - 2 ^ 31.
Proof. intro H. symmetry. apply Zmod_unique with (q := 1); lia. Qed.
Lemma entry_exact S e x : file_ok S -> pair_u32 e -> re_data S e = Ok x <-> resource_entry S e x.
Proof.
  intros HS [H1 H2]. unfold u32_ok in *. unfold re_data, re_is_table, re_data_offset, resource_entry. rewrite high_bit by lia. rewrite low_bits by lia. destruct (Z.ltb_spec (snd e) (2 ^ 31)) as [L|L]; cbn [negb].
  - rewrite Z.mod_small by lia. destruct HS as [HS HL]. rewrite rr_read_at_eq by lia. destruct (Z.leb_spec (snd e + 16) (zlen S)) as [L2|L2]; cbn [bind].
    + assert (W : forall o, 0 <= o -> o + 4 <= 16 -> holds S (snd e + o) (word (fld Little o 4 (zslice (snd e) 16 S))) /\ u32_ok (fld Little o 4 (zslice (snd e) 16 S))).
      { intros o Ha Hb. apply holds_le4; [exact HS|lia|lia|]. unfold fld. rewrite zslice_zslice by lia. reflexivity. }
      split.
      * intros [= <-]. right. split; [exact L|]. unfold rdata_of. do 4 eexists. split; [|split; [|split; [|split; [|split; [|reflexivity]]]]]; try (apply W; lia).
        apply holds_app. split; [replace (snd e) with (snd e + 0) at 1 by lia; apply W; lia|]. apply holds_app. rewrite !zlen_word. split; [apply W; lia|]. apply holds_app. rewrite zlen_word.
        replace (snd e + 4 + 4) with (snd e + 8) by lia. split; [apply W; lia|]. replace (snd e + 8 + 4) with (snd e + 12) by lia. apply W; lia.
      * intros [[? _]|(_ & va & size & page & res & Hh & U1 & U2 & U3 & U4 & ->)]; [lia|]. do 2 f_equal. unfold rdata_of. apply holds_slice in Hh. rewrite !zlen_app, !zlen_word in Hh. cbn [Z.add Pos.add Pos.succ] in Hh. rewrite Hh. unfold word, u32_ok in *.
        f_equal; fld_norm; reflexivity.
    + split; [discriminate|]. intros [[? _]|(_ & va & size & page & res & Hh & _)]; [lia|]. apply holds_bounds in Hh. rewrite !zlen_app, !zlen_word in Hh. lia.
  - rewrite low_bits_big by lia. pose proof (rtable_exact S (snd e - 2 ^ 31)) as T. split.
    + intro E. destruct (rtable_parse S (snd e - 2 ^ 31)) as [t| |] eqn:Et; try discriminate. cbn [bind] in E. left. split; [lia|]. exists t. split; [apply T; [exact HS|lia|reflexivity]|congruence].
    + intros [(_ & t & Ht & ->)|[? _]]; [|lia]. apply T in Ht; [|exact HS|lia]. rewrite Ht. reflexivity.
Qed.
Lemma entry_np S e : file_ok S -> pair_u32 e -> re_data S e <> Panic.
Proof.
  intros HS [H1 H2]. unfold u32_ok in *. unfold re_data, re_data_offset. rewrite low_bits by lia. pose proof (Z.mod_pos_bound (snd e) (2 ^ 31) ltac:(lia)). destruct (re_is_table e).
  - pose proof (rtable_np S (snd e mod 2 ^ 31) HS ltac:(lia)). destruct (rtable_parse _ _); cbn [bind]; congruence.
  - rewrite rr_read_at_eq by lia. destruct (_ <=? _); cbn [bind]; discriminate.
Qed.
Lemma rname_exact S o l : file_ok S -> 0 <= o -> rname_data S o = Ok l <-> resource_name S o l.
Proof.
  intros [HS HL] Ho. unfold rname_data, resource_name. rewrite rr_read_eq by lia. destruct (Z.leb_spec (o + 2) (zlen S)) as [L|L].
  - set (h := zslice o 2 S). assert (Hz : zlen h = 2) by (apply zlen_zslice; lia). assert (Hb : bytes_ok h) by (apply bytes_ok_zslice; exact HS).
    assert (E0 : fld Little 0 2 h = fld Little o 2 S). { unfold fld, h. rewrite zslice_zslice by lia. f_equal. f_equal. lia. }
    rewrite E0. pose proof (proj2 (holds_half S o (fld Little o 2 S) HS Ho L) eq_refl) as [Hh Hu]. pose proof Hu as Hu'. unfold u16_ok in Hu'.
    pose proof (words_at_iff S (o + 2) 2 (fld Little o 2 S) l ltac:(lia) HS ltac:(lia) ltac:(lia) HL) as P. change (Z.of_nat 2) with 2 in P. change (concat (map (write_u Little 2) l)) with (u16s l) in P.
    change (Forall (fun x => 0 <= x < 2 ^ (8 * 2)) l) with (Forall u16_ok l) in P. split.
    + intro E. destruct (fst (rr_read_slice S (o + 2) 2 (fld Little o 2 S))) as [cs| |] eqn:Ec; try discriminate. cbn [bind] in E. injection E as <-. apply rslice_b in Ec; try lia.
      destruct (proj1 P) as (P1 & P2 & P3); [eauto|]. rewrite P3. split; [exact Hu|]. split; [exact P2|]. apply holds_app. rewrite zlen_half. auto.
    + intros (Hl & Hf & Hh'). apply holds_app in Hh' as [H1 H2]. rewrite zlen_half in H2. assert (En : zlen l = fld Little o 2 S) by (apply holds_half; auto; lia).
      destruct (proj2 P) as (cs & Ec & ->); [auto|]. apply rslice_b in Ec; try lia. rewrite Ec. reflexivity.
  - split; [discriminate|]. intros (Hl & Hf & Hh). apply holds_bounds in Hh. rewrite zlen_app, zlen_half in Hh. pose proof (zlen_nonneg (u16s l)). lia.
Qed.
Lemma rname_np S o : zlen S < 2 ^ 63 -> 0 <= o -> rname_data S o <> Panic.
Proof.
  intros HL Ho. unfold rname_data. rewrite rr_read_eq by lia. destruct (_ <=? _); [|discriminate]. match goal with |- context [rr_read_slice ?a ?b ?c ?d] => pose proof (rslice_np a b c d) as P end. destruct (fst _); cbn [bind]; congruence.
Qed.

(** * Section headers *)
Lemma fld_after e o k a rest : zlen a <= o -> fld e o k (a ++ rest) = fld e (o - zlen a) k rest.
Proof. intro H. unfold fld. rewrite zslice_app2 by exact H. reflexivity. Qed.
Lemma zlen_sec_bytes s : zlen (c_name s) = 8 -> zlen (sec_bytes s) = 40.
Proof. intro H. unfold sec_bytes. rewrite !zlen_app, !zlen_word, !zlen_half, H. reflexivity. Qed.
Lemma csec_of_bytes s : sec_fields s -> csec_of (sec_bytes s) = s.
Proof.
  intros (H0 & H1 & H2 & H3 & H4 & H5 & H6 & H7 & H8 & H9). unfold u32_ok, u16_ok in *. unfold csec_of, sec_bytes. destruct s as [n a b c d e f g h i]. cbn [c_name c_vsize c_vaddr c_rawsize c_rawptr c_relptr c_lnptr c_nrel c_nln c_flags] in *.
  rewrite zslice_app1, zslice_all by lia. unfold word, half. f_equal; rewrite (fld_after Little _ _ n) by lia; rewrite H0; match goal with |- fld _ (?x - ?y) _ _ = _ => let v := eval compute in (x - y) in change (x - y) with v end; fld_norm; reflexivity.
Qed.
Lemma sec_bytes_of b : zlen b = 40 -> bytes_ok b -> sec_bytes (csec_of b) = b /\ sec_fields (csec_of b).
Proof.
  intros Hz Hb.
  assert (W : forall o, 0 <= o -> o + 4 <= 40 -> holds b o (word (fld Little o 4 b)) /\ u32_ok (fld Little o 4 b)) by (intros; apply holds_le4; [exact Hb|lia|lia|reflexivity]).
  assert (H : forall o, 0 <= o -> o + 2 <= 40 -> holds b o (half (fld Little o 2 b)) /\ u16_ok (fld Little o 2 b)) by (intros; apply holds_half; [exact Hb|lia|lia|reflexivity]).
  assert (Hn : zlen (zslice 0 8 b) = 8) by (apply zlen_zslice; lia).
  split.
  - assert (X : holds b 0 (sec_bytes (csec_of b))).
    { unfold sec_bytes, csec_of. cbn [c_name c_vsize c_vaddr c_rawsize c_rawptr c_relptr c_lnptr c_nrel c_nln c_flags].
      repeat (apply holds_app; rewrite ?Hn, ?zlen_word, ?zlen_half; cbn [Z.add Pos.add Pos.succ]; split; [first [apply W; lia|apply H; lia|apply holds_zslice; lia]|]). apply W; lia. }
    destruct X as (a & c & E & Ha). apply zlen_0_nil in Ha. subst a. cbn [app] in E. assert (Hc : zlen c = 0). { apply (f_equal zlen) in E. rewrite zlen_app, zlen_sec_bytes in E by exact Hn. lia. } apply zlen_0_nil in Hc. subst c. rewrite app_nil_r in E. symmetry. exact E.
  - unfold sec_fields, csec_of. cbn [c_name c_vsize c_vaddr c_rawsize c_rawptr c_relptr c_lnptr c_nrel c_nln c_flags]. split; [exact Hn|]. repeat (split; [first [apply W; lia|apply H; lia]|]). apply W; lia.
Qed.
Lemma sections_iff F o k l : file_ok F -> 0 <= o <= zlen F -> 0 <= k ->
  (exists cs, fst (rr_read_slice F o 40 k) = Ok cs /\ l = map csec_of cs) <-> holds F o (concat (map sec_bytes l)) /\ Forall sec_fields l /\ zlen l = k.
Proof.
  intros [HF HL] Ho Hk. split.
  - intros (cs & E & ->). apply rslice_iff in E as (Hh & Hf & Hz); try lia. pose proof (concat_bytes_ok _ (holds_bytes_ok _ _ _ HF Hh)) as Hb. rewrite Forall_forall in Hb, Hf.
    assert (Em : map sec_bytes (map csec_of cs) = cs). { rewrite map_map. rewrite <- (map_id cs) at 2. apply map_ext_in. intros c Hc. apply sec_bytes_of; auto. }
    rewrite Em. split; [exact Hh|]. split; [|rewrite zlen_map; exact Hz]. rewrite Forall_map, Forall_forall. intros c Hc. apply sec_bytes_of; auto.
  - intros (Hh & Hf & Hz). exists (map sec_bytes l). split.
    + apply rslice_iff; try lia. split; [exact Hh|]. split; [|rewrite zlen_map; exact Hz]. rewrite Forall_map, Forall_forall in *. intros s Hs. apply zlen_sec_bytes. apply Hf. exact Hs.
    + rewrite map_map. rewrite <- (map_id l) at 1. apply map_ext_in. intros s Hs. symmetry. apply csec_of_bytes. rewrite Forall_forall in Hf. auto.
Qed.

(** * Headers *)
Lemma symbols_np big h F : coff_symbols_parse big h F <> Panic.
Proof.
  unfold coff_symbols_parse. destruct (_ =? 0); [discriminate|]. pose proof (rr_read_slice_no_panic F (ch_symptr big h) (coff_sym_size big) (ch_nsyms big h)) as P. destruct (rr_read_slice _ _ _ _) as [[l| |] o]; cbn [fst] in P; try congruence.
  pose proof (rr_read_no_panic F o 4) as Q. unfold rr_read_at. destruct (rr_read F o 4) as [[b| |] o2]; cbn [fst bind] in *; try congruence. destruct (cadd _ _ _); cbn [of_opt bind]; discriminate.
Qed.
Lemma half_eqb S o v : bytes_ok S -> 0 <= o -> o + 2 <= zlen S -> u16_ok v -> (fld Little o 2 S =? v) = true <-> holds S o (half v).
Proof. intros HS Ho Hl Hv. rewrite Z.eqb_eq. split; [intros <-; apply holds_half; auto|]. intro H. symmetry. apply holds_half; auto. Qed.
Lemma word_eqb S o v : bytes_ok S -> 0 <= o -> o + 4 <= zlen S -> u32_ok v -> (fld Little o 4 S =? v) = true <-> holds S o (word v).
Proof. intros HS Ho Hl Hv. rewrite Z.eqb_eq. split; [intros <-; apply holds_le4; auto|]. intro H. symmetry. apply holds_le4; auto. Qed.
Lemma dos_iff F h : file_ok F -> dos_parse F = Ok h <-> zlen h = 64 /\ holds F 0 h /\ holds h 0 [77; 90].
Proof.
  intros [HF HL]. unfold dos_parse. rewrite rr_read_at_eq by lia. destruct (Z.leb_spec (0 + 64) (zlen F)) as [L|L]; cbn [bind].
  - assert (Hz : zlen (zslice 0 64 F) = 64) by (apply zlen_zslice; lia). assert (Hb : bytes_ok (zslice 0 64 F)) by (apply bytes_ok_zslice; exact HF).
    pose proof (half_eqb (zslice 0 64 F) 0 23117 Hb ltac:(lia) ltac:(lia) ltac:(unfold u16_ok; lia)) as Q. change (half 23117) with [77; 90] in Q. split.
    + intro E. destruct (fld Little 0 2 (zslice 0 64 F) =? 23117) eqn:Em; cbn [negb] in E; [|discriminate]. injection E as <-. split; [exact Hz|]. split; [apply holds_zslice; lia|]. apply Q. reflexivity.
    + intros (Hzh & Hh & Hm). assert (h = zslice 0 64 F) as -> by (apply holds_slice in Hh; rewrite Hzh in Hh; symmetry; exact Hh). apply Q in Hm. rewrite Hm. reflexivity.
  - split; [discriminate|]. intros (Hz & Hh & _). apply holds_bounds in Hh. lia.
Qed.
Lemma nt_iff is64 F off n d o : file_ok F -> 0 <= off -> nt_parse is64 F off = Ok (n, d, o) <->
  exists size number, zlen n = 24 + opt_size is64 /\ holds F off n /\ holds n 0 [80; 69; 0; 0] /\ holds n 24 (half (if is64 then 523 else 267)) /\
    holds n 20 (half size) /\ holds n (20 + opt_size is64) (word number) /\ u16_ok size /\ u32_ok number /\ opt_size is64 <= size /\ off + 24 + size <= zlen F /\
    zlen d = number /\ 8 * number <= size - opt_size is64 /\ Forall pair_u32 d /\ holds F (off + 24 + opt_size is64) (pairs d) /\ o = off + 24 + size.
Proof.
  intros [HF HL] Ho. assert (Hopt : 96 <= opt_size is64 <= 112) by (destruct is64; cbn; lia). unfold nt_parse, nt_size. rewrite rr_read_eq by lia. destruct (Z.leb_spec (off + (24 + opt_size is64)) (zlen F)) as [L|L].
  2: { split; [discriminate|]. intros (size & number & Hz & Hh & _). apply holds_bounds in Hh. lia. }
  set (h := zslice off (24 + opt_size is64) F). assert (Hz : zlen h = 24 + opt_size is64) by (apply zlen_zslice; lia). assert (Hb : bytes_ok h) by (apply bytes_ok_zslice; exact HF). assert (Hh : holds F off h) by (apply holds_zslice; lia).
  assert (Un : forall n, zlen n = 24 + opt_size is64 -> holds F off n -> n = h). { intros m H1 H2. apply holds_slice in H2. rewrite H1 in H2. symmetry. exact H2. }
  pose proof (word_eqb h 0 17744 Hb ltac:(lia) ltac:(lia) ltac:(unfold u32_ok; lia)) as Q1. change (word 17744) with [80; 69; 0; 0] in Q1.
  pose proof (half_eqb h 24 (if is64 then 523 else 267) Hb ltac:(lia) ltac:(lia) ltac:(destruct is64; unfold u16_ok; lia)) as Q2.
  destruct (fld Little 0 4 h =? 17744) eqn:E1; cbn [negb].
  2: { split; [discriminate|]. intros (size & number & A1 & A2 & A3 & _). rewrite (Un n A1 A2) in A3. apply Q1 in A3. discriminate. }
  destruct (fld Little 24 2 h =? (if is64 then 523 else 267)) eqn:E2; cbn [negb].
  2: { split; [discriminate|]. intros (size & number & A1 & A2 & A3 & A4 & _). rewrite (Un n A1 A2) in A4. apply Q2 in A4. discriminate. }
  assert (Es : ch_opt (nt_file_header h) = fld Little 20 2 h). { unfold ch_opt, nt_file_header, fld. rewrite zslice_zslice by lia. reflexivity. }
  rewrite Es. pose proof (proj2 (holds_half h 20 (fld Little 20 2 h) Hb ltac:(lia) ltac:(lia)) eq_refl) as [S1 S2]. set (size := fld Little 20 2 h) in *.
  assert (Us : forall x, holds h 20 (half x) -> u16_ok x -> x = size). { intros x A B. apply holds_half; auto; lia. }
  unfold csub. destruct (Z.leb_spec (opt_size is64) size) as [L2|L2]; cbn [of_opt bind].
  2: { split; [discriminate|]. intros (size' & number & A1 & A2 & A3 & A4 & A5 & A6 & A7 & A8 & A9 & _). rewrite (Un n A1 A2) in A5. rewrite (Us _ A5 A7) in A9. lia. }
  rewrite rr_read_bytes_eq by lia. destruct (Z.leb_spec (off + (24 + opt_size is64) + (size - opt_size is64)) (zlen F)) as [L3|L3].
  2: { split; [discriminate|]. intros (size' & number & A1 & A2 & A3 & A4 & A5 & A6 & A7 & A8 & A9 & A10 & _). rewrite (Un n A1 A2) in A5. rewrite (Us _ A5 A7) in A10. lia. }
  set (od := zslice (off + (24 + opt_size is64)) (size - opt_size is64) F). assert (Hod : holds F (off + (24 + opt_size is64)) od) by (apply holds_zslice; lia). assert (Hzod : zlen od = size - opt_size is64) by (apply zlen_zslice; lia).
  assert (Hbod : bytes_ok od) by (apply bytes_ok_zslice; exact HF).
  unfold nt_nrva, dirs_parse, rr_read_slice_at. replace (24 + opt_size is64 - 4) with (20 + opt_size is64) by lia.
  pose proof (proj2 (holds_le4 h (20 + opt_size is64) _ Hb ltac:(lia) ltac:(lia)) eq_refl) as [N1 N2]. set (number := fld Little (20 + opt_size is64) 4 h) in *. pose proof N2 as N2'. unfold u32_ok in N2'.
  assert (Uu : forall x, holds h (20 + opt_size is64) (word x) -> u32_ok x -> x = number). { intros x A B. apply holds_le4; auto; lia. }
  assert (P : forall d, (exists cs, fst (rr_read_slice od 0 8 number) = Ok cs /\ d = map dir_of cs) <-> holds od 0 (pairs d) /\ Forall pair_u32 d /\ zlen d = number).
  { intro d'. unfold pairs. rewrite <- pairs_at_iff by (first [assumption|lia]). split; intros (cs & Ec & ->); exists cs; (split; [|reflexivity]); apply rslice_b; (assumption || (pose proof (zlen_nonneg od); lia)). }
  assert (Zp : forall d, zlen (pairs d) = 8 * zlen d).
  { intro d'. unfold pairs. induction d' as [|p d' IH]; [reflexivity|]. cbn [map concat]. rewrite !zlen_app, !zlen_word, IH, zlen_cons. lia. }
  split.
  - intro E. destruct (fst (rr_read_slice od 0 8 number)) as [cs| |] eqn:Ec; try discriminate. cbn [bind] in E. assert (E3 : n = h /\ d = map dir_of cs /\ o = off + (24 + opt_size is64) + (size - opt_size is64)) by (split; [|split]; congruence). destruct E3 as (-> & -> & ->). destruct (proj1 (P (map dir_of cs))) as (P1 & P2 & P3); [eauto|].
    exists size, number. split; [exact Hz|]. split; [exact Hh|]. split; [apply Q1; reflexivity|]. split; [apply Q2; reflexivity|]. split; [exact S1|]. split; [exact N1|]. split; [exact S2|]. split; [exact N2|]. split; [lia|]. split; [lia|]. split; [exact P3|].
    split; [apply holds_bounds in P1; rewrite Zp in P1; lia|]. split; [exact P2|]. split; [|lia]. replace (off + 24 + opt_size is64) with (off + (24 + opt_size is64) + 0) by lia. eapply holds_sub; [exact Hod|exact P1].
  - intros (size' & number' & A1 & A2 & A3 & A4 & A5 & A6 & A7 & A8 & A9 & A10 & A11 & A12 & A13 & A14 & ->). assert (En : n = h) by (apply Un; assumption). rewrite En in *. assert (Esz : size' = size) by (apply Us; assumption). assert (Enu : number' = number) by (apply Uu; assumption).
    clearbody h size number. subst size' number'.
    destruct (proj2 (P d)) as (cs & Ec & ->).
    { split; [|auto]. replace (off + 24 + opt_size is64) with (off + (24 + opt_size is64)) in A14 by lia. apply holds_iff. pose proof (Zp d). split; [lia|]. split; [lia|]. unfold od. rewrite zslice_zslice by (pose proof (zlen_nonneg d); lia).
      apply holds_slice in A14. replace (off + (24 + opt_size is64) + 0) with (off + (24 + opt_size is64)) by lia. exact A14. }
    rewrite Ec. cbn [bind]. do 2 f_equal. lia.
Qed.
Lemma dos_offset h : bytes_ok h -> zlen h = 64 -> forall x, holds h 60 (word x) /\ u32_ok x <-> x = dos_nt_offset h.
Proof. intros Hb Hz x. apply holds_le4; [exact Hb|lia|lia]. Qed.
Lemma pe_exact is64 F dos nt dirs secs : file_ok F ->
  (exists f, pe_parse is64 F = Ok f /\ pf_dos f = dos /\ pf_nt f = nt /\ pf_dirs f = dirs /\ pf_sections f = secs) <-> pe_image is64 F dos nt dirs secs.
Proof.
  intro HF. pose proof HF as [HFb HFl]. unfold pe_parse, pe_image. cbv zeta. change (if is64 then 112 else 96) with (opt_size is64). split.
  - intros (f & E & <- & <- & <- & <-). destruct (dos_parse F) as [h| |] eqn:Ed; try discriminate. cbn [bind] in E. apply dos_iff in Ed as (D1 & D2 & D3); [|exact HF].
    assert (Hbh : bytes_ok h) by exact (holds_bytes_ok _ _ _ HFb D2). pose proof (proj2 (dos_offset h Hbh D1 _) eq_refl) as [O1 O2]. pose proof O2 as O2'. unfold u32_ok in O2'.
    destruct (nt_parse is64 F (dos_nt_offset h)) as [[[n d] o]| |] eqn:En; try discriminate. cbn [bind] in E. apply nt_iff in En as (size & number & N1 & N2 & N3 & N4 & N5 & N6 & N7 & N8 & N9 & N10 & N11 & N12 & N13 & N14 & ->); [|exact HF|lia].
    assert (Hbn : bytes_ok n) by exact (holds_bytes_ok _ _ _ HFb N2). assert (Hopt : 96 <= opt_size is64) by (destruct is64; cbn; lia). unfold u16_ok in N7.
    unfold coff_sections_parse in E. unfold rr_read_slice_at in E. change coff_sec_size with 40 in E. unfold ch_nsections in E. assert (Es : fld Little 2 2 (nt_file_header n) = fld Little 6 2 n). { unfold nt_file_header, fld. rewrite zslice_zslice by lia. reflexivity. } rewrite Es in E.
    pose proof (proj2 (holds_half n 6 _ Hbn ltac:(lia) ltac:(lia)) eq_refl) as [S1 S2]. pose proof S2 as S2'. unfold u16_ok in S2'.
    destruct (fst (rr_read_slice F (dos_nt_offset h + 24 + size) 40 (fld Little 6 2 n))) as [cs| |] eqn:Ec; try discriminate. cbn [bind] in E.
    destruct (proj1 (sections_iff F (dos_nt_offset h + 24 + size) (fld Little 6 2 n) (map csec_of cs) HF ltac:(lia) ltac:(lia))) as (C1 & C2 & C3); [eauto|].
    assert (X : exists y, f = {| pf_is64 := is64; pf_dos := h; pf_nt := n; pf_dirs := d; pf_sections := map csec_of cs; pf_symbols := y; pf_data := F |}).
    { destruct (coff_symbols_parse _ _ _); cbn [bind] in E; try discriminate; injection E as <-; eauto. }
    destruct X as (y & ->). cbn [pf_dos pf_nt pf_dirs pf_sections]. exists (dos_nt_offset h), size, number, (fld Little 6 2 n). repeat (split; [assumption|]). exact C1.
  - intros (off & size & number & nsec & D1 & D2 & D3 & D4 & D5 & N1 & N2 & N3 & N4 & N4' & N5 & N6 & N7' & N7 & N8 & N9 & N10 & N11 & N12 & N13 & N14 & C1 & C2 & C3).
    rewrite (proj2 (dos_iff F dos HF)) by auto. cbn [bind]. assert (Hbh : bytes_ok dos) by exact (holds_bytes_ok _ _ _ HFb D2). assert (Eo : off = dos_nt_offset dos) by (apply dos_offset; auto). rewrite <- Eo. pose proof D5 as D5'. unfold u32_ok in D5'.
    rewrite (proj2 (nt_iff is64 F off nt dirs (off + 24 + size) HF ltac:(lia))) by (exists size, number; repeat (split; [assumption|]); reflexivity). cbn [bind].
    assert (Hbn : bytes_ok nt) by exact (holds_bytes_ok _ _ _ HFb N2). assert (Hopt : 96 <= opt_size is64) by (destruct is64; cbn; lia).
    unfold coff_sections_parse, rr_read_slice_at. change coff_sec_size with 40. unfold ch_nsections. assert (Es : fld Little 2 2 (nt_file_header nt) = fld Little 6 2 nt). { unfold nt_file_header, fld. rewrite zslice_zslice by lia. reflexivity. } rewrite Es.
    assert (En : nsec = fld Little 6 2 nt) by (apply holds_half; auto; lia). rewrite <- En. unfold u16_ok in N7, N7'. pose proof (zlen_nonneg secs).
    destruct (proj2 (sections_iff F (off + 24 + size) nsec secs HF ltac:(lia) ltac:(lia))) as (cs & Ec & ->); [auto|]. rewrite Ec. cbn [bind].
    pose proof (symbols_np false (nt_file_header nt) F). destruct (coff_symbols_parse false (nt_file_header nt) F); cbn [bind]; try congruence; (eexists; split; [reflexivity|]; auto).
Qed.
Lemma pe_parse_data is64 F f : pe_parse is64 F = Ok f -> pf_data f = F /\ pf_is64 f = is64.
Proof.
  unfold pe_parse. intro E. destruct (dos_parse F); try discriminate. cbn [bind] in E. destruct (nt_parse _ _ _) as [[[n d] o]| |]; try discriminate. cbn [bind] in E. destruct (coff_sections_parse _ _ _ _); try discriminate. cbn [bind] in E.
  destruct (coff_symbols_parse _ _ _); cbn [bind] in E; try discriminate; injection E as <-; auto.
Qed.
Lemma pe_np is64 F : file_ok F -> pe_parse is64 F <> Panic.
Proof.
  intro HF. pose proof HF as [HFb HFl]. unfold pe_parse. assert (D : dos_parse F <> Panic). { unfold dos_parse. rewrite rr_read_at_eq by lia. destruct (_ <=? _); cbn [bind]; [|discriminate]. destruct (negb _); discriminate. }
  destruct (dos_parse F) as [h| |] eqn:Ed; cbn [bind]; try congruence. apply dos_iff in Ed as (D1 & D2 & D3); [|exact HF]. assert (Hbh : bytes_ok h) by exact (holds_bytes_ok _ _ _ HFb D2).
  pose proof (proj2 (dos_offset h Hbh D1 _) eq_refl) as [O1 O2]. unfold u32_ok in O2.
  assert (N : nt_parse is64 F (dos_nt_offset h) <> Panic).
  { unfold nt_parse. rewrite rr_read_eq by (first [assumption|lia|destruct is64; cbn; lia]). destruct (_ <=? _) eqn:L; [|discriminate]. destruct (negb _); [discriminate|]. destruct (negb _); [discriminate|]. unfold csub. destruct (Z.leb_spec (opt_size is64) (ch_opt (nt_file_header (zslice (dos_nt_offset h) (nt_size is64) F)))) as [L2|]; cbn [of_opt bind]; [|discriminate].
    assert (96 <= nt_size is64) by (destruct is64; cbn; lia). rewrite rr_read_bytes_eq by lia. match goal with |- context [if ?c then _ else _] => destruct c end; [|discriminate].
    set (B := zslice (dos_nt_offset h + _) _ F). set (K := nt_nrva _ _). unfold dirs_parse, rr_read_slice_at. pose proof (rslice_np B 0 8 K) as P. destruct (fst (rr_read_slice B 0 8 K)); cbn [bind]; congruence. }
  destruct (nt_parse is64 F (dos_nt_offset h)) as [[[n d] o]| |]; cbn [bind]; [|discriminate|congruence].
  assert (Q : coff_sections_parse false (nt_file_header n) F o <> Panic).
  { unfold coff_sections_parse. pose proof (rslice_np F o coff_sec_size (ch_nsections false (nt_file_header n))) as P. unfold rr_read_slice_at. destruct (fst (rr_read_slice F o coff_sec_size (ch_nsections false (nt_file_header n)))); cbn [bind]; congruence. }
  destruct (coff_sections_parse false (nt_file_header n) F o); cbn [bind]; [|discriminate|congruence].
  pose proof (symbols_np false (nt_file_header n) F). destruct (coff_symbols_parse _ _ _); cbn [bind]; congruence.
Qed.
