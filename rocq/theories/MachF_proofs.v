(** Proofs about the Mach-O reader: section offsets, kinds, and the whole file. *)
From Verif Require Import Base Core_proofs Util_proofs Pod_proofs File_proofs Hash_proofs Rel_proofs Ar_proofs Trie_proofs Coff_spec CoffR_proofs CoffI_proofs Elf_proofs.
From Verif Require Import Mach_spec Mach_proofs.
From Verif Require ElfR_proofs.

(** * Section offsets *)
Lemma hi_part prev off : 0 <= prev < 2 ^ 64 -> 0 <= off < 2 ^ 32 -> Z.lor off (Z.land prev 18446744069414584320) = off + (prev / 2 ^ 32) * 2 ^ 32.
Proof.
  intros Hp Ho. change 18446744069414584320 with (Z.ones 64 - Z.ones 32).
  assert (E : Z.land prev (Z.ones 64 - Z.ones 32) = (prev / 2 ^ 32) * 2 ^ 32).
  { rewrite <- Z.shiftl_mul_pow2, <- Z.shiftr_div_pow2 by lia. apply Z.bits_inj'. intros i Hi. rewrite Z.land_spec, Z.shiftl_spec by lia.
    replace (Z.ones 64 - Z.ones 32) with (Z.shiftl (Z.ones 32) 32) by reflexivity. rewrite Z.shiftl_spec by lia.
    destruct (Z.ltb_spec i 32).
    - rewrite (Z.testbit_neg_r (Z.ones 32)) by lia. rewrite (Z.testbit_neg_r (Z.shiftr prev 32)) by lia. apply andb_false_r.
    - rewrite Z.shiftr_spec by lia. replace (i - 32 + 32) with i by lia. destruct (Z.ltb_spec (i - 32) 32).
      + rewrite Z.ones_spec_low by lia. apply andb_true_r.
      + rewrite Z.ones_spec_high by lia. rewrite andb_false_r. symmetry. destruct (Z.eq_dec prev 0) as [->|]; [apply Z.bits_0|]. apply Z.bits_above_log2; [lia|].
        apply Z.log2_lt_pow2; [lia|]. apply Z.lt_le_trans with (2 ^ 64); [lia|]. apply Z.pow_le_mono_r; lia. }
  rewrite E. apply ElfR_proofs.lor_add'; lia.
Qed.
Lemma has_data_iff s : ms_file_size s = if section_has_data s then Some (x_size s) else None.
Proof.
  unfold ms_file_size, section_has_data, ms_type. change 255 with (Z.ones 8). rewrite Z.land_ones by lia. change (2 ^ 8) with 256.
  assert (B : 0 <= x_flags s mod 256 < 256) by (apply Z.mod_pos_bound; lia). set (t := x_flags s mod 256) in *. clearbody t.
  unfold zmem. cbn [existsb].
  destruct (Z.eqb_spec t 1) as [->|]; [reflexivity|]. destruct (Z.eqb_spec t 12) as [->|]; [reflexivity|]. destruct (Z.eqb_spec t 18) as [->|]; [reflexivity|].
  cbn [orb]. destruct t as [|t|]; [reflexivity| |reflexivity].
  do 5 (destruct t as [t|t|]; try reflexivity; try congruence).
Qed.
Lemma offsets_iff fin is64 l : Forall (msec_ok is64) l -> forall prev os, 0 <= prev < 2 ^ 64 ->
  (exists r, sec_offsets true fin prev l = Ok r /\ map fst r = l /\ map snd r = os) <-> offsets fin prev l os.
Proof.
  induction 1 as [|s l Hs _ IH]; intros prev os Hp; cbn [sec_offsets].
  - split; [intros (r & [= <-] & _ & <-); constructor|]. inversion 1. exists []. auto.
  - assert (Ho : 0 <= x_offset s < 2 ^ 32) by (destruct Hs as (_ & _ & _ & _ & _ & _ & H & _); exact H).
    rewrite has_data_iff. destruct (section_has_data s) eqn:Hd.
    + rewrite hi_part by assumption. set (o := x_offset s + prev / 2 ^ 32 * 2 ^ 32).
      set (u := if o <? prev then o + 2 ^ 32 else o).
      assert (Hu : prev <= u < prev + 2 ^ 32 /\ u mod 2 ^ 32 = x_offset s).
      { unfold u, o. assert (Q : prev = prev / 2 ^ 32 * 2 ^ 32 + prev mod 2 ^ 32) by (rewrite Z.mul_comm; apply Z.div_mod; lia).
        assert (M : 0 <= prev mod 2 ^ 32 < 2 ^ 32) by (apply Z.mod_pos_bound; lia). set (q := prev / 2 ^ 32) in *. set (m := prev mod 2 ^ 32) in *. clearbody q m.
        destruct (Z.ltb_spec (x_offset s + q * 2 ^ 32) prev).
        - split; [lia|]. replace (x_offset s + q * 2 ^ 32 + 2 ^ 32) with (x_offset s + (q + 1) * 2 ^ 32) by lia. rewrite Z.mod_add by lia. apply Z.mod_small. lia.
        - split; [lia|]. rewrite Z.mod_add by lia. apply Z.mod_small. lia. }
      assert (Eu : (if o <? prev then wrap_u 64 (o + 4294967296) else o) = u mod 2 ^ 64).
      { unfold u. destruct (Z.ltb_spec o prev); [reflexivity|]. symmetry. apply Z.mod_small. unfold o in *. split; [pose proof (Z.div_pos prev (2 ^ 32)); lia|].
        assert (prev / 2 ^ 32 < 2 ^ 32) by (apply Z.div_lt_upper_bound; lia). lia. }
      rewrite Eu. clear Eu. unfold wrap_u. assert (U : forall o', prev <= o' < prev + 2 ^ 32 -> o' mod 2 ^ 32 = x_offset s -> o' = u).
      { intros o' H1 H2. destruct Hu as (H3 & H4). clear -H1 H2 H3 H4.
        pose proof (Z.div_mod o' (2 ^ 32) ltac:(lia)). pose proof (Z.div_mod u (2 ^ 32) ltac:(lia)). rewrite H2 in H. rewrite H4 in H0. 
        assert (o' / 2 ^ 32 = u / 2 ^ 32) by nia. congruence. }
      clearbody u. clear o. set (en := (u mod 2 ^ 64 + x_size s) mod 2 ^ 64).
      assert (He : 0 <= en < 2 ^ 64) by (apply Z.mod_pos_bound; lia).
      split.
      * destruct (Z.ltb_spec fin en) as [|Hf]; [intros (r & E & _); discriminate E|].
        destruct (sec_offsets true fin en l) as [r'| |] eqn:E'; cbn [bind]; try (intros (r & E & _); discriminate E).
        intros (r & [= <-] & E1 & <-). cbn [map fst snd] in *. assert (E1' : map fst r' = l) by congruence.
        apply offs_data; [exact Hd|apply Hu|apply Hu|exact Hf|]. apply IH; [exact He|]. exists r'. auto.
      * inversion 1 as [|? ? ? ? ? Hd' ? ?|? ? ? o' os' Hd' Hr Hm Hf HO]; [congruence|]. subst. apply U in Hm; [|exact Hr]. subst o'. fold en in Hf, HO.
        replace (fin <? en) with false by lia. apply IH in HO as (r & -> & E1 & E2); [|exact He]. cbn [bind]. eexists. split; [reflexivity|]. cbn [map fst snd]. split; congruence.
    + split.
      * destruct (sec_offsets true fin prev l) as [r'| |] eqn:E'; cbn [bind]; try (intros (r & E & _); discriminate E).
        intros (r & [= <-] & E1 & <-). cbn [map fst snd] in *. apply offs_none; [exact Hd|reflexivity|]. apply IH; [exact Hp|]. exists r'. repeat split; congruence.
      * inversion 1 as [|? ? ? ? ? Hd' Ho' HO|? ? ? o' os' Hd' Hr Hm Hf HO]; [|congruence]. subst. apply IH in HO as (r & -> & E1 & E2); [|exact Hp].
        cbn [bind]. eexists. split; [reflexivity|]. cbn [map fst snd]. split; congruence.
Qed.
Lemma no_overflow fin prev l : sec_offsets false fin prev l = Ok (map (fun s => (s, x_offset s)) l).
Proof. induction l as [|s l IH]; cbn [sec_offsets map]; [reflexivity|]. rewrite IH. reflexivity. Qed.
Lemma sec_offsets_np b fin l : forall prev, sec_offsets b fin prev l <> Panic.
Proof.
  induction l as [|s l IH]; intros prev; cbn [sec_offsets]; [discriminate|].
  destruct (if b then ms_file_size s else None) as [n|].
  - cbv zeta. match goal with |- (if ?c then _ else _) <> _ => destruct c; [discriminate|] end.
    match goal with |- context [sec_offsets b fin ?p l] => specialize (IH p); destruct (sec_offsets b fin p l) end; cbn [bind]; congruence.
  - specialize (IH prev). destruct (sec_offsets b fin prev l); cbn [bind]; congruence.
Qed.
Lemma seg_offsets_iff is64 g l os : seg_ok is64 g -> Forall (msec_ok is64) l ->
  (exists r, seg_section_offsets g l = Ok r /\ map fst r = l /\ map snd r = os) <-> segment_offsets g l os.
Proof.
  intros Hg Hl. unfold seg_section_offsets, segment_offsets, wrap_u. set (fin := (g_fileoff g + g_filesize g) mod 2 ^ 64).
  assert (Hp : 0 <= g_fileoff g < 2 ^ 64).
  { destruct Hg as (_ & _ & _ & _ & H & _). unfold mword_ok in H. destruct is64; lia. }
  replace (4294967295 <? fin) with (negb (fin <? 2 ^ 32)) by lia. cbv zeta. destruct (fin <? 2 ^ 32) eqn:E; cbn [negb].
  - rewrite no_overflow. split.
    + intros (r & [= <-] & _ & <-). rewrite map_map. reflexivity.
    + intros ->. eexists. split; [reflexivity|]. rewrite !map_map. cbn [fst snd]. split; [apply map_id|reflexivity].
  - apply (offsets_iff fin is64); assumption.
Qed.

(** * Kinds of sections *)
Lemma name_is_iff field s : ~ In 0 (str s) -> name_is field s <-> bytes_eqb (until_null field) (str s) = true.
Proof.
  intros Hs. rewrite bytes_eqb_iff. unfold name_is, until_null. split.
  - intros (tl & -> & [->|(r & ->)]).
    + rewrite app_nil_r. destruct (memchr 0 (str s)) as [n|] eqn:E; [|reflexivity]. apply memchr_Some in E as (_ & E & _). exfalso. apply Hs. eapply zget_In, E.
    + rewrite memchr_app by exact Hs. apply ztake_app_eq. reflexivity.
  - destruct (memchr 0 field) as [n|] eqn:E.
    + intros Et. apply memchr_Some in E as (_ & E & _). exists (zdrop n field). rewrite <- Et. split; [symmetry; apply ztake_zdrop|]. right. rewrite (zdrop_cons _ _ _ E). eauto.
    + intros ->. exists []. rewrite app_nil_r. auto.
Qed.
Lemma memchr_str_dwarf : str "__DWARF" = DWARF. Proof. reflexivity. Qed.
Lemma memchr_str_text : str "__TEXT" = TEXT. Proof. reflexivity. Qed.
Definition ro_of (h : mhdr) (g : mseg) : option bool :=
  if mh_file h =? 1 then None else Some (negb (fl_has (g_initprot g) 2) || fl_has (g_flags g) 16).
Lemma kind_iff h g s k : section_kind h g s k <-> ms_kind (ro_of h g) s = k.
Proof.
  unfold section_kind, ms_kind, ms_segment.
  pose proof (name_is_iff (x_segname s) "__DWARF" ltac:(vm_compute; intuition lia)) as HD. rewrite memchr_str_dwarf in HD.
  pose proof (name_is_iff (x_segname s) "__TEXT" ltac:(vm_compute; intuition lia)) as HT. rewrite memchr_str_text in HT.
  change (fl_has (x_flags s) 33554432) with (fl_has (x_flags s) (2 ^ 25)). rewrite fl_has_bit by lia.
  change (fl_any (x_flags s) 2147484672) with (fl_any (x_flags s) (Z.lor (2 ^ 31) (2 ^ 10))). rewrite fl_any_2 by lia.
  fold attr_debug attr_pure attr_some. fold (code s).
  assert (Ety : ms_type s = x_flags s mod 256) by (unfold ms_type; change 255 with (Z.ones 8); apply Z.land_ones; lia).
  rewrite Ety. cbv zeta. set (t := x_flags s mod 256) in *.
  assert (Bt : 0 <= t < 256) by (apply Z.mod_pos_bound; lia). clearbody t.
  set (dwarf := bytes_eqb (until_null (x_segname s)) DWARF) in *. clearbody dwarf.
  set (text := bytes_eqb (until_null (x_segname s)) TEXT) in *.
  set (dbg := Z.testbit (x_flags s) attr_debug). clearbody dbg.
  set (ro := match ro_of h g with Some r => r | None => text end).
  set (RO := if mh_file h =? 1 then name_is (x_segname s) "__TEXT" else Z.testbit (g_initprot g) 1 = false \/ Z.testbit (g_flags g) 4 = true).
  assert (Er : RO <-> ro = true).
  { unfold RO, ro, ro_of. destruct (mh_file h =? 1); [exact HT|]. change (fl_has (g_initprot g) 2) with (fl_has (g_initprot g) (2 ^ 1)). change (fl_has (g_flags g) 16) with (fl_has (g_flags g) (2 ^ 4)).
    rewrite !fl_has_bit by lia. destruct (Z.testbit (g_initprot g) 1), (Z.testbit (g_flags g) 4); cbn; intuition congruence. }
  clearbody RO ro. clear HT. clearbody text. clear text. set (cd := code s). clearbody cd. unfold regular, zmem, attr_some. cbn [existsb].
  set (DW := name_is (x_segname s) "__DWARF") in *. clearbody DW.
  destruct k; rewrite ?HD, ?Er; clear HD Er DW RO;
  (destruct dwarf; [split; [intros; first [reflexivity|lia]|intros Q; first [discriminate Q|lia]]|]);
  (destruct dbg; [split; [intros; first [reflexivity|lia]|intros Q; first [discriminate Q|lia]]|]);
  repeat match goal with |- context [t =? ?n] => destruct (Z.eqb_spec t n); cbn [orb] end;
  try match goal with |- context [if cd then _ else _] => destruct cd end; try match goal with |- context [if ro then _ else _] => destruct ro end;
  (split; [intros; first [reflexivity|exfalso; lia]|intros Q; first [discriminate Q|lia]]).
Qed.
