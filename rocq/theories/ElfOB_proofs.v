(** Lemmas about [elf_write]: the calls of the second phase. *)
From Verif Require Import Base Core_spec Core_proofs Str_spec Str_proofs Buf_proofs Map_proofs Util_proofs File_spec File_proofs Hash_proofs Pod_proofs Elf_proofs ElfR_proofs MachW_proofs.
From Verif Require CoffW_proofs.
From Verif Require Import ElfW_spec ElfWR_proofs ElfWB_proofs ElfWC_proofs ElfWT_proofs ElfO_model ElfO_proofs.
Notation strtab := Str_model.strtab (only parsing).

(** * What is written *)
Definition yidx (p : eplan) (i : Z) : Z := match find (fun q => fst q =? i) (pl_syms p) with Some (_, n) => n | None => 0 end.
Definition gname (R : rst) (id : Z) : Z := match name_offset R SShstrtab (Some id) with Ok n => n | _ => 0 end.
Definition no_sym : wsym := {| ws_section := None; ws_name := 0; ws_info := 0; ws_other := 0; ws_shndx := 0; ws_value := 0; ws_size := 0 |}.
Definition sym_of (R : rst) (p : eplan) (q : Z * osym) : wsym := match symbol_entry R p q with Ok s => s | _ => no_sym end.
Definition reloc_of (p : eplan) (l : orel) : crel :=
  {| cr_offset := ol_offset l; cr_sym := yidx p (ol_symbol l); cr_type := match ol_flags l with RFelf t => t | _ => 0 end; cr_addend := ol_addend l |}.
Definition flags_of (s : osec) : Z * Z := match eo_section_flags s with Ok f => f | _ => (0, 0) end.
Definition comdat_hdr (R : rst) (p : eplan) (x : ocomdat * (Z * Z)) : shdr :=
  wr_group_header (gname R (snd (snd x))) (r_index R SSymtab) (yidx p (oc_symbol (fst x))) (fst (snd x)) (zlen (oc_sections (fst x))).
Definition section_hdr (R : rst) (s : osec) (q : esec) : shdr :=
  {| sh_name := gname R (es_str q); sh_type := fst (flags_of s); sh_flags := snd (flags_of s); sh_addr := 0; sh_offset := es_offset q; sh_size := se_size s;
     sh_link := 0; sh_info := 0; sh_addralign := se_align s; sh_entsize := ew_entsize (se_kind s) |}.
Definition reloc_hdr (R : rst) (is_rela : bool) (s : osec) (q : esec) (off : Z) : shdr :=
  wr_reloc_header (r_is64 R) is_rela (gname R (match es_reloc_str q with Some i => i | None => 0 end)) (es_index q) (r_index R SSymtab) off (zlen (se_relocs s)).
Definition comdat_wr (secs : list esec) (c : ocomdat) : list wcmd := WComdatHeader :: map WComdatEntry (map (sidx secs) (oc_sections c)).
Definition section_wr (s : osec) : list wcmd := [WAlign (se_align s); WData (se_data s)].
Definition reloc_wr (p : eplan) (is_rela : bool) (s : osec) : list wcmd := WAlignRelocation :: map (WRelocation is_rela) (map (reloc_of p) (se_relocs s)).
Definition section_hdrs (R : rst) (is_rela : bool) (x : osec * esec * Z) : list shdr :=
  let '(s, q, off) := x in section_hdr R s q :: if has_relocs s then [reloc_hdr R is_rela s q off] else [].

(** the facts that the second phase checks *)
Record phase2 (o : obj) (R : rst) (p : eplan) : Prop := {
  q_group : Forall (fun c => Forall (fun i => zget (pl_secs p) i <> None) (oc_sections c)) (o_comdats o);
  q_gsym : Forall (fun c => pl_symbol p (oc_symbol c) = Ok (yidx p (oc_symbol c))) (o_comdats o);
  q_gname : Forall (fun x => name_offset R SShstrtab (Some (snd x)) = Ok (gname R (snd x))) (pl_comdats p);
  q_sym : Forall (fun q => symbol_entry R p q = Ok (sym_of R p q)) (locals o ++ globals o);
  q_rel : Forall (fun s => Forall (fun l => reloc_entry p l = Ok (reloc_of p l)) (se_relocs s)) (o_sections o);
  q_flags : Forall (fun s => eo_section_flags s = Ok (flags_of s)) (o_sections o)
}.
Lemma psym_ok p i n : pl_symbol p i = Ok n -> n = yidx p i.
Proof. unfold pl_symbol, yidx. destruct (find _ _) as [[k m]|]; [congruence|discriminate]. Qed.
Lemma psec_ok p i n : pl_section p i = Ok n -> n = sidx (pl_secs p) i /\ zget (pl_secs p) i <> None.
Proof. unfold pl_section, sidx. destruct (zget _ _); cbn [unwrap bind]; [|discriminate]. intro H. split; [congruence|discriminate]. Qed.
Lemma entry_ok p l c : reloc_entry p l = Ok c -> c = reloc_of p l.
Proof.
  unfold reloc_entry, reloc_of. intro H. mb H. mb H. apply psym_ok in E0. subst. destruct (ol_flags l); try discriminate. cbn in E. assert (a = r_type) by congruence. subst. congruence.
Qed.
Lemma comdat_data_run R p c w w' : ew_comdat_data R p c w = Ok w' -> w_run R w (comdat_wr (pl_secs p) c) = Ok w' /\ Forall (fun i => zget (pl_secs p) i <> None) (oc_sections c).
Proof.
  unfold ew_comdat_data, comdat_wr. intro H. mb H. cbn [w_run w_exec]. rewrite E. cbn [bind]. clear E. revert a H. induction (oc_sections c) as [|i l IH]; intros w0 H; cbn [fold_m] in H.
  - cbn [map w_run]. split; [exact H|constructor].
  - mb H. mb E. apply psec_ok in E0. destruct E0 as (-> & N). assert (a = w_comdat_entry R w0 (sidx (pl_secs p) i)) by congruence. subst. destruct (IH _ H) as (H1 & H2).
    cbn [map w_run w_exec bind]. split; [exact H1|constructor; assumption].
Qed.
Lemma section_data_run R x w w' : ew_section_data x w = Ok w' -> w_run R w (section_wr (fst x)) = Ok w'.
Proof. unfold ew_section_data, section_wr. intro H. mb H. mb H. cbn [w_run w_exec]. rewrite E. cbn [bind]. exact H. Qed.
Lemma symbol_data_run R p q w w' : ew_symbol_data R p q w = Ok w' -> w_run R w [WSymbol SSymtab (sym_of R p q)] = Ok w' /\ symbol_entry R p q = Ok (sym_of R p q).
Proof. unfold ew_symbol_data, sym_of. intro H. mb H. cbn [w_run w_exec]. rewrite H. split; reflexivity. Qed.
Lemma reloc_data_run R p is_rela x w w' : ew_reloc_data R p is_rela x w = Ok w' -> w_run R w (if has_relocs (fst x) then reloc_wr p is_rela (fst x) else []) = Ok w' /\
  Forall (fun l => reloc_entry p l = Ok (reloc_of p l)) (se_relocs (fst x)).
Proof.
  unfold ew_reloc_data, reloc_wr. intro H. assert (Nr : has_relocs (fst x) = false -> se_relocs (fst x) = []) by (unfold has_relocs; destruct (se_relocs (fst x)); [reflexivity|discriminate]).
  destruct (has_relocs (fst x)); [|cbn [w_run]; split; [exact H|rewrite Nr by reflexivity; constructor]]. clear Nr.
  mb H. mb H. cbn [w_run w_exec]. rewrite E. cbn [bind]. clear E G. revert a H. induction (se_relocs (fst x)) as [|l ls IH]; intros w0 H; cbn [fold_m] in H.
  - cbn [map w_run]. split; [exact H|constructor].
  - mb H. mb E. pose proof (entry_ok _ _ _ E0) as ->. assert (a = w_relocation R w0 is_rela (reloc_of p l)) by congruence. subst. destruct (IH _ H) as (H1 & H2).
    cbn [map w_run w_exec bind]. split; [exact H1|constructor; assumption].
Qed.
Lemma comdat_header_run R p x w w' : ew_comdat_header R p x w = Ok w' -> w_run R w [WSectionHeader (comdat_hdr R p x)] = Ok w' /\
  pl_symbol p (oc_symbol (fst x)) = Ok (yidx p (oc_symbol (fst x))) /\ name_offset R SShstrtab (Some (snd (snd x))) = Ok (gname R (snd (snd x))).
Proof.
  unfold ew_comdat_header, comdat_hdr, gname, w_comdat_section_header. intro H. mb H. pose proof (psym_ok _ _ _ E) as ->. mb H. destruct a as [i w1]. mb E0.
  destruct (name_offset R SShstrtab (Some (snd (snd x)))) as [n| |]; [|discriminate|discriminate]. assert (a = n) by congruence. subst. cbn [w_run w_exec]. rewrite E0. cbn [bind]. split; [exact H|]. split; [first [exact E|reflexivity]|]. reflexivity.
Qed.
Lemma section_header_run R is_rela x w w' : ew_section_header R is_rela x w = Ok w' -> w_run R w (map WSectionHeader (section_hdrs R is_rela x)) = Ok w' /\
  eo_section_flags (fst (fst x)) = Ok (flags_of (fst (fst x))).
Proof.
  destruct x as [[s q] off]. unfold ew_section_header, section_hdrs, flags_of. cbn [fst snd]. intro H. mb H. destruct a as [ty fl]. split; [|reflexivity].
  mb H. mb H. destruct a0 as [i w1]. cbn [map w_run w_exec].
  assert (section_hdr R s q = {| sh_name := a; sh_type := ty; sh_flags := fl; sh_addr := 0; sh_offset := es_offset q; sh_size := se_size s;
     sh_link := 0; sh_info := 0; sh_addralign := se_align s; sh_entsize := ew_entsize (se_kind s) |}) as ->.
  { unfold section_hdr, flags_of, gname. rewrite E, E0. reflexivity. }
  rewrite E1. cbn [bind]. destruct (has_relocs s); [|cbn [map w_run]; exact H]. mb H. mb H. destruct a1 as [j w2]. unfold w_relocation_header in E3. mb E3. cbn [map w_run w_exec].
  unfold reloc_hdr, gname. destruct (es_reloc_str q) as [id|]; [|discriminate]. cbn [unwrap] in E2. assert (a0 = id) by congruence. subst. rewrite E4, E3. cbn [bind]. exact H.
Qed.
(** the header calls *)
Definition hdr_calls (o : obj) (R : rst) (p : eplan) (is_rela : bool) : list wcmd :=
  map (fun x => WSectionHeader (comdat_hdr R p x)) (combine (o_comdats o) (pl_comdats p)) ++
  map WSectionHeader (flat_map (section_hdrs R is_rela) (combine (combine (o_sections o) (pl_secs p)) (pl_relocs p))) ++
  [WSlotHeader SSymtab 0 (pl_local p)] ++ (match r_id R SShndx with Some _ => [WSlotHeader SShndx 0 0] | None => [] end) ++ [WSlotHeader SStrtab 0 0; WSlotHeader SShstrtab 0 0].
Definition all_writes (o : obj) (R : rst) (p : eplan) (is_rela : bool) (h : fhdr) : list wcmd :=
  [WFileHeader h] ++ flat_map (comdat_wr (pl_secs p)) (o_comdats o) ++ flat_map section_wr (o_sections o) ++
  (WNullSymbol SSymtab :: map (WSymbol SSymtab) (map (sym_of R p) (locals o ++ globals o))) ++ [WSymtabShndx] ++ [WStrings SStrtab] ++
  flat_map (fun s => if has_relocs s then reloc_wr p is_rela s else []) (o_sections o) ++ [WStrings SShstrtab] ++ WNullSectionHeader :: hdr_calls o R p is_rela.
Lemma concat_same {X Y} (G : X -> list Y -> Prop) (g : X -> list Y) l gs : Forall2 G l gs -> (forall x y, G x y -> y = g x) -> concat gs = flat_map g l.
Proof. intros F H. induction F as [|x y l gs Hx F IH]; [reflexivity|]. cbn [concat flat_map]. rewrite IH, (H _ _ Hx). reflexivity. Qed.
Lemma forall2_fact {X Y} (G : X -> Y -> Prop) (P : X -> Prop) l gs : Forall2 G l gs -> (forall x y, G x y -> P x) -> Forall P l.
Proof. intros F H. induction F; constructor; eauto. Qed.
Lemma flat_map_fst {X Y Z'} (g : X -> list Z') (l : list X) (m : list Y) : zlen m = zlen l -> flat_map (fun x => g (fst x)) (combine l m) = flat_map g l.
Proof.
  revert m. induction l as [|x l IH]; intros [|y m] H; try reflexivity; rewrite ?zlen_cons in H; [pose proof (zlen_nonneg l); change (zlen (@nil Y)) with 0 in H; lia|]. cbn [combine flat_map fst]. rewrite IH; [reflexivity|lia].
Qed.
Lemma forall_fst {X Y} (P : X -> Prop) (l : list X) (m : list Y) : zlen m = zlen l -> Forall (fun x => P (fst x)) (combine l m) -> Forall P l.
Proof.
  revert m. induction l as [|x l IH]; intros [|y m] H F; try constructor; rewrite ?zlen_cons in H; try (pose proof (zlen_nonneg l); change (zlen (@nil Y)) with 0 in H; lia); cbn [combine] in F; inversion F; subst; [assumption|eapply IH; [|eassumption]; lia].
Qed.
Lemma forall_snd {X Y} (P : Y -> Prop) (l : list X) (m : list Y) : zlen m = zlen l -> Forall (fun x => P (snd x)) (combine l m) -> Forall P m.
Proof.
  revert m. induction l as [|x l IH]; intros [|y m] H F; try constructor; rewrite ?zlen_cons in H; try (pose proof (zlen_nonneg m); change (zlen (@nil X)) with 0 in H; lia); cbn [combine] in F; inversion F; subst; [assumption|eapply IH; [|eassumption]; lia].
Qed.
Lemma zlen_combine' {X Y} (l : list X) (m : list Y) : zlen m = zlen l -> zlen (combine l m) = zlen l.
Proof. intro H. unfold zlen in *. rewrite combine_length. lia. Qed.
Lemma phase2_inv o R p is_rela h F : zlen (pl_comdats p) = zlen (o_comdats o) -> zlen (pl_secs p) = zlen (o_sections o) -> zlen (pl_relocs p) = zlen (o_sections o) ->
  ew_write o R p is_rela h = Ok F -> phase2 o R p /\ exists w, w_run R (w_start R) (all_writes o R p is_rela h) = Ok w /\ F = w_out w /\ r_len R = zlen F.
Proof.
  intros L1 L2 L3. unfold ew_write. intro H.
  mb H. mb H. apply (fold_m_run R _ (fun c g => g = comdat_wr (pl_secs p) c /\ Forall (fun i => zget (pl_secs p) i <> None) (oc_sections c))) in E0;
    [|intros x w w' _ Q; eexists; split; [split; [reflexivity|]|]; apply (comdat_data_run _ _ _ _ _ Q)].
  mb H. apply (fold_m_run R _ (fun x g => g = section_wr (fst x))) in E1; [|intros x w w' _ Q; eexists; split; [reflexivity|]; apply (section_data_run R _ _ _ Q)].
  mb H. mb H. apply (fold_m_run R _ (fun q g => g = [WSymbol SSymtab (sym_of R p q)] /\ symbol_entry R p q = Ok (sym_of R p q))) in E3;
    [|intros x w w' _ Q; eexists; split; [split; [reflexivity|]|]; apply (symbol_data_run _ _ _ _ _ Q)].
  mb H. apply (fold_m_run R _ (fun q g => g = [WSymbol SSymtab (sym_of R p q)] /\ symbol_entry R p q = Ok (sym_of R p q))) in E4;
    [|intros x w w' _ Q; eexists; split; [split; [reflexivity|]|]; apply (symbol_data_run _ _ _ _ _ Q)].
  mb H. mb H. mb H. apply (fold_m_run R _ (fun x g => g = (if has_relocs (fst x) then reloc_wr p is_rela (fst x) else []) /\ Forall (fun l => reloc_entry p l = Ok (reloc_of p l)) (se_relocs (fst x)))) in E7;
    [|intros x w w' _ Q; eexists; split; [split; [reflexivity|]|]; apply (reloc_data_run _ _ _ _ _ _ Q)].
  mb H. mb H. mb H. apply (fold_m_run R _ (fun x g => g = [WSectionHeader (comdat_hdr R p x)] /\ pl_symbol p (oc_symbol (fst x)) = Ok (yidx p (oc_symbol (fst x))) /\ name_offset R SShstrtab (Some (snd (snd x))) = Ok (gname R (snd (snd x))))) in E10;
    [|intros x w w' _ Q; eexists; split; [split; [reflexivity|]|]; apply (comdat_header_run _ _ _ _ _ Q)].
  mb H. apply (fold_m_run R _ (fun x g => g = map WSectionHeader (section_hdrs R is_rela x) /\ eo_section_flags (fst (fst x)) = Ok (flags_of (fst (fst x))))) in E11;
    [|intros x w w' _ Q; eexists; split; [split; [reflexivity|]|]; apply (section_header_run _ _ _ _ _ Q)].
  mb H. mb H. mb H. mb H. mb H. assert (F = w_out a15) by congruence. subst F. clear H.
  destruct E0 as (g0 & F0 & R0). destruct E1 as (g1 & F1 & R1). destruct E3 as (g3 & F3 & R3). destruct E4 as (g4 & F4 & R4). destruct E7 as (g7 & F7 & R7). destruct E10 as (g10 & F10 & R10). destruct E11 as (g11 & F11 & R11).
  split.
  - constructor.
    + eapply forall2_fact; [exact F0|]. cbn beta. intros x y Q. apply Q.
    + apply (forall_fst (fun c => pl_symbol p (oc_symbol c) = Ok (yidx p (oc_symbol c))) _ (pl_comdats p) L1). eapply forall2_fact; [exact F10|]. cbn beta. intros x y Q. apply Q.
    + apply (forall_snd (fun x => name_offset R SShstrtab (Some (snd x)) = Ok (gname R (snd x))) (o_comdats o) _ L1). eapply forall2_fact; [exact F10|]. cbn beta. intros x y Q. apply Q.
    + apply Forall_app. split; [eapply forall2_fact; [exact F3|]|eapply forall2_fact; [exact F4|]]; cbn beta; intros x y Q; apply Q.
    + apply (forall_fst (fun s => Forall (fun l => reloc_entry p l = Ok (reloc_of p l)) (se_relocs s)) _ (pl_relocs p) L3). eapply forall2_fact; [exact F7|]. cbn beta. intros x y Q. apply Q.
    + apply (forall_fst (fun s => eo_section_flags s = Ok (flags_of s)) _ (pl_secs p) L2). apply (forall_fst (fun x => eo_section_flags (fst x) = Ok (flags_of (fst x))) _ (pl_relocs p)); [rewrite zlen_combine'; lia|].
      eapply forall2_fact; [exact F11|]. cbn beta. intros x y Q. apply Q.
  - exists a15. split; [|split; [reflexivity|lia]]. unfold all_writes, hdr_calls.
    assert (C0 : flat_map (comdat_wr (pl_secs p)) (o_comdats o) = concat g0) by (symmetry; eapply concat_same; [exact F0|cbn beta; intros x y Q; apply Q]).
    assert (C1 : flat_map section_wr (o_sections o) = concat g1).
    { rewrite <- (flat_map_fst section_wr _ (pl_secs p) L2). symmetry; eapply concat_same; [exact F1|cbn beta; intros x y Q; exact Q]. }
    assert (C3 : map (WSymbol SSymtab) (map (sym_of R p) (locals o ++ globals o)) = concat g3 ++ concat g4).
    { rewrite !map_app. rewrite (concat_same _ (fun q => [WSymbol SSymtab (sym_of R p q)]) _ _ F3) by (cbn beta; intros x y Q; apply Q).
      rewrite (concat_same _ (fun q => [WSymbol SSymtab (sym_of R p q)]) _ _ F4) by (cbn beta; intros x y Q; apply Q).
      assert (T : forall l, map (WSymbol SSymtab) (map (sym_of R p) l) = flat_map (fun q => [WSymbol SSymtab (sym_of R p q)]) l) by (clear; induction l as [|x l IH]; [reflexivity|cbn [map flat_map app]; rewrite IH; reflexivity]).
      rewrite !T. reflexivity. }
    assert (C7 : flat_map (fun s => if has_relocs s then reloc_wr p is_rela s else []) (o_sections o) = concat g7).
    { rewrite <- (flat_map_fst (fun s => if has_relocs s then reloc_wr p is_rela s else []) _ (pl_relocs p) L3). symmetry; eapply concat_same; [exact F7|cbn beta; intros x y Q; apply Q]. }
    assert (C10 : map (fun x => WSectionHeader (comdat_hdr R p x)) (combine (o_comdats o) (pl_comdats p)) = concat g10).
    { rewrite (concat_same _ (fun x => [WSectionHeader (comdat_hdr R p x)]) _ _ F10) by (cbn beta; intros x y Q; apply Q).
      generalize (combine (o_comdats o) (pl_comdats p)). clear. induction l as [|x l IH]; [reflexivity|cbn [map flat_map app]; rewrite IH; reflexivity]. }
    assert (C11 : map WSectionHeader (flat_map (section_hdrs R is_rela) (combine (combine (o_sections o) (pl_secs p)) (pl_relocs p))) = concat g11).
    { rewrite (concat_same _ (fun x => map WSectionHeader (section_hdrs R is_rela x)) _ _ F11) by (cbn beta; intros x y Q; apply Q).
      generalize (combine (combine (o_sections o) (pl_secs p)) (pl_relocs p)). clear. induction l as [|x l IH]; [reflexivity|cbn [flat_map]; rewrite map_app, IH; reflexivity]. }
    rewrite C0, C1, C3, C7, C10, C11. cbn [app]. cbn [w_run w_exec]. rewrite E. cbn [bind]. rewrite wrun_app, R0. cbn [bind]. rewrite wrun_app, R1. cbn [bind w_run w_exec]. rewrite E2. cbn [bind].
    rewrite <- app_assoc, wrun_app, R3. cbn [bind]. rewrite wrun_app, R4. cbn [bind app w_run w_exec]. rewrite E5. cbn [bind]. rewrite E6. cbn [bind].
    rewrite wrun_app, R7. cbn [bind app w_run w_exec]. rewrite E8. cbn [bind]. rewrite E9. cbn [bind]. rewrite wrun_app, R10. cbn [bind]. rewrite wrun_app, R11. cbn [bind app w_run w_exec]. rewrite E12. cbn [bind].
    assert (X : w_run R a12 (match r_id R SShndx with Some _ => [WSlotHeader SShndx 0 0] | None => [] end) = Ok a13).
    { destruct (r_id R SShndx) eqn:Ei; cbn [w_run w_exec]; [rewrite E13; reflexivity|]. unfold w_slot_header in E13. rewrite Ei in E13. exact E13. }
    rewrite wrun_app, X. cbn [bind w_run w_exec]. rewrite E14. cbn [bind]. rewrite E15. reflexivity.
Qed.
