(** Lemmas about [elf_write]: the calls of the two phases. *)
From Verif Require Import Base Core_spec Core_proofs Str_spec Str_proofs Buf_proofs Map_proofs Util_proofs File_spec File_proofs Hash_proofs Pod_proofs Elf_proofs ElfR_proofs MachW_proofs.
From Verif Require CoffW_proofs.
From Verif Require Import ElfW_spec ElfWR_proofs ElfWB_proofs ElfWC_proofs ElfWT_proofs ElfO_model.
Notation strtab := Str_model.strtab (only parsing).

(** * Loops *)
Lemma map_m_at {X Y S} (f : X -> S -> out (Y * S)) l : forall s ys s', map_m f l s = Ok (ys, s') -> forall i x, zget l i = Some x ->
  exists y s1 s2, zget ys i = Some y /\ map_m f (ztake i l) s = Ok (ztake i ys, s1) /\ f x s1 = Ok (y, s2) /\ map_m f (zdrop (i + 1) l) s2 = Ok (zdrop (i + 1) ys, s').
Proof.
  induction l as [|x0 l IH]; intros s ys s' H i x Hi; [apply zget_In in Hi; destruct Hi|]. cbn [map_m] in H. mb H. destruct a as [y0 s0]. mb H. destruct a as [ys0 s3].
  assert (ys = y0 :: ys0) by congruence. assert (s3 = s') by congruence. subst. apply zget_Some_lt in Hi as Bi. rewrite zlen_cons in Bi. destruct (Z.eq_dec i 0) as [->|Ni].
  - rewrite zget_0 in Hi. assert (x0 = x) by congruence. subst. exists y0, s, s0. rewrite zget_0, !ztake_0. change (zdrop (0 + 1) (x :: l)) with l. change (zdrop (0 + 1) (y0 :: ys0)) with ys0.
    split; [reflexivity|]. split; [reflexivity|]. split; assumption.
  - rewrite zget_S in Hi by lia. destruct (IH _ _ _ E0 _ _ Hi) as (y & s1 & s2 & A1 & A2 & A3 & A4). exists y, s1, s2. rewrite zget_S by lia. split; [exact A1|].
    assert (T : forall X (x : X) l, ztake i (x :: l) = x :: ztake (i - 1) l).
    { intros X1 x1 l1. unfold ztake. replace (Z.to_nat i) with (Datatypes.S (Z.to_nat (i - 1))) by lia. reflexivity. }
    assert (D : forall X (x : X) l, zdrop (i + 1) (x :: l) = zdrop (i - 1 + 1) l).
    { intros X1 x1 l1. unfold zdrop. replace (Z.to_nat (i + 1)) with (Datatypes.S (Z.to_nat (i - 1 + 1))) by lia. reflexivity. }
    rewrite !T, !D. split; [|split; assumption]. cbn [map_m]. rewrite E. cbn [bind]. rewrite A2. reflexivity.
Qed.
Lemma map_m_zlen {X Y S} (f : X -> S -> out (Y * S)) l : forall s ys s', map_m f l s = Ok (ys, s') -> zlen ys = zlen l.
Proof.
  induction l as [|x0 l IH]; intros s ys s' H; cbn [map_m] in H; [assert (ys = []) by congruence; subst; reflexivity|]. mb H. destruct a. mb H. destruct a.
  assert (ys = y :: l0) by congruence. subst. rewrite !zlen_cons. f_equal. eapply IH. exact E0.
Qed.
Lemma map_m_run {X Y} (f : X -> rst -> out (Y * rst)) (cmds : X -> list rcmd) l : (forall x r y r', f x r = Ok (y, r') -> exists vs, r_run r (cmds x) = Ok (vs, r')) ->
  forall r ys r', map_m f l r = Ok (ys, r') -> exists vs, r_run r (flat_map cmds l) = Ok (vs, r').
Proof.
  intro Hf. induction l as [|x l IH]; intros r ys r' H; cbn [map_m] in H; [exists []; cbn [flat_map r_run]; congruence|]. mb H. destruct a as [y s]. mb H. destruct a as [zs s'].
  assert (s' = r') by congruence. subst. destruct (Hf _ _ _ _ E) as (v1 & R1). destruct (IH _ _ _ E0) as (v2 & R2). exists (v1 ++ v2). cbn [flat_map]. rewrite run_app, R1. cbn [bind]. rewrite R2. reflexivity.
Qed.
Lemma fold_m_run {X} R (f : X -> wst -> out wst) (G : X -> list wcmd -> Prop) l : (forall x w w', In x l -> f x w = Ok w' -> exists g, G x g /\ w_run R w g = Ok w') ->
  forall w w', fold_m f l w = Ok w' -> exists gs, Forall2 G l gs /\ w_run R w (concat gs) = Ok w'.
Proof.
  induction l as [|x l IH]; intros Hf w w' H; cbn [fold_m] in H; [exists []; split; [constructor|cbn [concat w_run]; congruence]|]. mb H.
  destruct (Hf x w a (or_introl eq_refl) E) as (g & H1 & H2). destruct (IH (fun x w w' I => Hf x w w' (or_intror I)) _ _ H) as (gs & H3 & H4). exists (g :: gs). split; [constructor; assumption|].
  cbn [concat]. rewrite wrun_app, H2. exact H4.
Qed.
Lemma run_one r c v r' : r_exec r c = Ok (v, r') -> r_run r [c] = Ok ([v], r').
Proof. intro H. cbn [r_run]. rewrite H. reflexivity. Qed.
Lemma run_two r c v r' cs vs R : r_exec r c = Ok (v, r') -> r_run r' cs = Ok (vs, R) -> r_run r (c :: cs) = Ok (v :: vs, R).
Proof. intros H1 H2. cbn [r_run]. rewrite H1. cbn [bind]. rewrite H2. reflexivity. Qed.
Lemma run_cat r a va r1 b vb R : r_run r a = Ok (va, r1) -> r_run r1 b = Ok (vb, R) -> r_run r (a ++ b) = Ok (va ++ vb, R).
Proof. intros H1 H2. rewrite run_app, H1. cbn [bind]. rewrite H2. reflexivity. Qed.

(** * The calls of the first phase *)
Definition comdat_cmds (c : ocomdat) : list rcmd := [RSection; RComdat (zlen (oc_sections c)); RAdd SShstrtab (str ".group")].
Definition section_cmds (is_rela : bool) (s : osec) : list rcmd :=
  [RSection; RRange (zlen (se_data s)) (se_align s); RAdd SShstrtab (se_name s)] ++ if has_relocs s then [RSection; RAdd SShstrtab (reloc_name is_rela s)] else [].
Definition sidx (secs : list esec) (i : Z) : Z := match zget secs i with Some s => es_index s | None => 0 end.
Definition symbol_cmd (secs : list esec) (q : Z * osym) : rcmd := RSymbol (match sy_section (snd q) with YSec id => Some (sidx secs id) | _ => None end).
Definition named_sym (y : osym) : bool := match sy_kind y, sy_name y with YSection, _ | _, [] => false | _, _ => true end.
Definition name_cmds (y : osym) : list rcmd := if named_sym y then [RAdd SStrtab (sy_name y)] else [].
Definition reloc_cmds (is_rela : bool) (s : osec) : list rcmd := if has_relocs s then [RRelocations (zlen (se_relocs s)) is_rela] else [].

Lemma comdat_run o c r y r' : ew_comdat o c r = Ok (y, r') -> exists vs, r_run r (comdat_cmds c) = Ok (vs, r').
Proof.
  unfold ew_comdat. destruct (negb _); [intro H; mb H; discriminate|]. intro H. mb H. destruct a. mb H. destruct a. mb H. destruct a. assert (r2 = r') by congruence. subst.
  eexists. eapply run_two; [exact E|]. eapply run_two; [exact E0|]. apply run_one. exact E1.
Qed.
Lemma section_run is_rela s r y r' : ew_section is_rela s r = Ok (y, r') -> exists vs, r_run r (section_cmds is_rela s) = Ok (vs, r').
Proof.
  unfold ew_section, section_cmds. intro H. mb H. destruct a. mb H. destruct a. mb H. destruct a. destruct (has_relocs s).
  - mb H. destruct a. mb H. destruct a. assert (r4 = r') by congruence. subst. eexists. cbn [app].
    eapply run_two; [exact E|]. eapply run_two; [exact E0|]. eapply run_two; [exact E1|]. eapply run_two; [exact E2|]. apply run_one. exact E3.
  - assert (r2 = r') by congruence. subst. eexists. cbn [app]. eapply run_two; [exact E|]. eapply run_two; [exact E0|]. apply run_one. exact E1.
Qed.
Lemma symbol_run secs q r y r' : ew_symbol secs q r = Ok (y, r') -> r_exec r (symbol_cmd secs q) = Ok (snd y, r') /\ fst y = fst q /\
  match sy_section (snd q) with YSec id => zget secs id <> None | _ => True end.
Proof.
  unfold ew_symbol, symbol_cmd, sidx. intro H. mb H. mb H. destruct a0 as [i r0]. assert (y = (fst q, i)) by congruence. assert (r0 = r') by congruence. subst. cbn [fst snd r_exec].
  destruct (sy_section (snd q)) as [| | | |id]; cbn [bind] in E; try (assert (a = None) by congruence; subst; split; [exact E0|]; split; [reflexivity|exact I]).
  destruct (zget secs id) as [s|]; [|discriminate]. cbn [unwrap bind] in E. assert (a = Some (es_index s)) by congruence. subst. split; [exact E0|]. split; [reflexivity|]. discriminate.
Qed.
Lemma symbols_run secs l : forall r ys r', map_m (ew_symbol secs) l r = Ok (ys, r') -> exists vs, r_run r (map (symbol_cmd secs) l) = Ok (vs, r').
Proof.
  intros r ys r' H. assert (map (symbol_cmd secs) l = flat_map (fun q => [symbol_cmd secs q]) l) as ->. { clear. induction l as [|x l IH]; [reflexivity|]. cbn [map flat_map app]. rewrite IH. reflexivity. }
  eapply map_m_run; [|exact H]. intros x r0 y r1 Hx. destruct (symbol_run _ _ _ _ _ Hx) as (Q & _). eexists. apply run_one. exact Q.
Qed.
Lemma name_run y r id r' : ew_name y r = Ok (id, r') -> (exists vs, r_run r (name_cmds y) = Ok (vs, r')) /\
  if named_sym y then exists i, id = Some i /\ r_exec r (RAdd SStrtab (sy_name y)) = Ok (i, r') else id = None /\ r' = r.
Proof.
  unfold ew_name, name_cmds, named_sym. intro H. destruct (sy_kind y), (sy_name y) as [|b n]; cbn [r_exec];
    try (assert (id = None) by congruence; assert (r' = r) by congruence; subst; split; [eexists; reflexivity|split; reflexivity]);
    mb H; destruct a; assert (id = Some z) by congruence; assert (r0 = r') by congruence; subst; (split; [eexists; apply run_one; first [exact E|reflexivity]|exists z; split; [reflexivity|first [exact E|reflexivity]]]).
Qed.
Lemma reloc_run is_rela s r v r' : ew_reserve_relocs is_rela s r = Ok (v, r') -> exists vs, r_run r (reloc_cmds is_rela s) = Ok (vs, r').
Proof.
  unfold ew_reserve_relocs, reloc_cmds. destruct (has_relocs s); intro H; [eexists; apply run_one; exact H|]. assert (r' = r) by congruence. subst. exists []. reflexivity.
Qed.

(** the states between the parts of the first phase *)
Record phase1 (o : obj) (is_rela is64 : bool) (p : eplan) (R : rst) (nd : bool) := {
  p1_r0 : rst; p1_r1 : rst; p1_r2 : rst; p1_r3 : rst; p1_r4 : rst; p1_r5 : rst; p1_r6 : rst; p1_r7 : rst; p1_r8 : rst; p1_r9 : rst;
  p1_ls : list (Z * Z); p1_gs : list (Z * Z); p1_mid : list Z; p1_end : list Z;
  p1_0 : r_exec (r_new is64 (o_endian o)) RFileHeader = Ok (0, p1_r0);
  p1_comdats : map_m (ew_comdat o) (o_comdats o) p1_r0 = Ok (pl_comdats p, p1_r1);
  p1_secs : map_m (ew_section is_rela) (o_sections o) p1_r1 = Ok (pl_secs p, p1_r2);
  p1_null : r_exec p1_r2 (RNullSymbol SSymtab) = Ok (0, p1_r3);
  p1_locals : map_m (ew_symbol (pl_secs p)) (locals o) p1_r3 = Ok (p1_ls, p1_r4);
  p1_globals : map_m (ew_symbol (pl_secs p)) (globals o) p1_r4 = Ok (p1_gs, p1_r5);
  p1_syms : pl_syms p = p1_ls ++ p1_gs;
  p1_num : pl_local p = r_num p1_r4 SSymtab;
  p1_names : map_m ew_name (o_symbols o) p1_r5 = Ok (pl_names p, p1_r6);
  p1_tabs : r_run p1_r6 ([RIndex SSymtab; RSymtab SSymtab] ++ (if nd then [RIndex SShndx] else []) ++ [RShndx; RIndex SStrtab; RStrings SStrtab]) = Ok (p1_mid, p1_r7);
  p1_nd : forall r, r_run p1_r6 [RIndex SSymtab; RSymtab SSymtab] = Ok (ztake 2 p1_mid, r) -> r_need r SShndx = nd;
  p1_relocs : map_m (ew_reserve_relocs is_rela) (o_sections o) p1_r7 = Ok (pl_relocs p, p1_r8);
  p1_tail : r_run p1_r8 [RIndex SShstrtab; RStrings SShstrtab; RSectionHeaders] = Ok (p1_end, R)
}.
Lemma file_header_zero is64 e v r : r_exec (r_new is64 e) RFileHeader = Ok (v, r) -> v = 0.
Proof. intro H. apply exec_after in H. cbn [after] in H. lia. Qed.
Lemma phase1_inv o is_rela is64 p R : ew_reserve o is_rela is64 = Ok (p, R) -> exists nd, inhabited (phase1 o is_rela is64 p R nd).
Proof.
  unfold ew_reserve. intro H. mb H. destruct a as [v0 r0]. pose proof (file_header_zero _ _ _ _ E). subst v0.
  mb H. destruct a as [comdats r1]. mb H. destruct a as [secs r2]. mb H. destruct a as [v3 r3].
  assert (v3 = 0). { revert E2. clear. unfold r_null_symbol. intro H. mb H. mb H. congruence. } subst v3.
  mb H. destruct a as [ls r4]. cbv zeta in H. mb H. destruct a as [gs r5]. mb H. destruct a as [names r6].
  mb H. destruct a as [a1 s1]. mb H. destruct a as [a2 s2]. mb H. destruct a as [a3 s3]. mb H. destruct a as [a4 s4]. mb H. destruct a as [a5 s5]. mb H. destruct a as [a6 s6].
  mb H. destruct a as [relocs r8]. mb H. destruct a as [a7 s7]. mb H. destruct a as [a8 s8]. mb H. destruct a as [a9 s9].
  match type of H with Ok (?q, ?s) = _ => assert (Hp : p = q) by congruence; assert (s9 = R) by congruence end. clear H. subst s9.
  exists (r_need s2 SShndx).
  assert (M : exists mid, r_run r6 ([RIndex SSymtab; RSymtab SSymtab] ++ (if r_need s2 SShndx then [RIndex SShndx] else []) ++ [RShndx; RIndex SStrtab; RStrings SStrtab]) = Ok (mid, s6) /\ ztake 2 mid = [a1; a2]).
  { destruct (r_need s2 SShndx).
    - exists [a1; a2; a3; a4; a5; a6]. split; [|reflexivity]. cbn [app]. eapply run_two; [exact E6|]. eapply run_two; [exact E7|]. eapply run_two; [exact E8|]. eapply run_two; [exact E9|]. eapply run_two; [exact E10|]. apply run_one. exact E11.
    - exists [a1; a2; a4; a5; a6]. split; [|reflexivity]. assert (s3 = s2) by congruence. subst s3. cbn [app]. eapply run_two; [exact E6|]. eapply run_two; [exact E7|]. eapply run_two; [exact E9|]. eapply run_two; [exact E10|]. apply run_one. exact E11. }
  destruct M as (mid & M1 & M2). constructor.
  refine {| p1_r0 := r0; p1_r1 := r1; p1_r2 := r2; p1_r3 := r3; p1_r4 := r4; p1_r5 := r5; p1_r6 := r6; p1_r7 := s6; p1_r8 := r8; p1_r9 := r8; p1_ls := ls; p1_gs := gs; p1_mid := mid; p1_end := [a7; a8; a9] |}; try (subst p; assumption || reflexivity).
  - intros r Q. rewrite M2 in Q. assert (Q' : r_run r6 [RIndex SSymtab; RSymtab SSymtab] = Ok ([a1; a2], s2)) by (eapply run_two; [exact E6|apply run_one; exact E7]). congruence.
  - eapply run_two; [exact E13|]. eapply run_two; [exact E14|]. apply run_one. exact E15.
Qed.
