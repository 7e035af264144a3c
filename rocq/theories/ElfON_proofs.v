(** Lemmas about [elf_write]: the file in terms of the object. *)
From Verif Require Import Base Core_spec Core_proofs Str_spec Str_proofs Buf_proofs Map_proofs Util_proofs File_spec File_proofs Hash_proofs Pod_proofs Elf_proofs ElfR_proofs MachW_proofs.
From Verif Require CoffW_proofs.
From Verif Require Import ElfW_spec ElfWR_proofs ElfWB_proofs ElfWC_proofs ElfWT_proofs ElfO_model ElfO_proofs ElfOB_proofs ElfOC_proofs ElfOD_proofs ElfOE_proofs ElfOF_proofs ElfOG_proofs ElfOH_proofs ElfOI_proofs ElfO_spec ElfOJ_proofs ElfOK_proofs ElfOL_proofs ElfOM_proofs.
Notation strtab := Str_model.strtab (only parsing).

Definition label (y : osym) : bytes := match sy_kind y with YSection => [] | _ => sy_name y end.
Definition sym_section (o : obj) (y : osym) (w : wsym) : Prop :=
  match sy_section y with
  | YNone => ws_section w = None /\ ws_shndx w = 65521
  | YUndefined => ws_section w = None /\ ws_shndx w = 0
  | YAbsolute => ws_section w = None /\ ws_shndx w = 65521
  | YCommon => ws_section w = None /\ ws_shndx w = 65522
  | YSec i => ws_section w = Some (section_no o i) /\ 0 <= i < zlen (o_sections o)
  end.
Definition rel_of (o : obj) (l : orel) (c : crel) : Prop :=
  exists t, ol_flags l = RFelf t /\ c = {| cr_offset := ol_offset l; cr_sym := symbol_no o (ol_symbol l); cr_type := t; cr_addend := ol_addend l |} /\
    exists y, zget (o_symbols o) (ol_symbol l) = Some y.

Record shown (o : obj) (is64 is_rela : bool) (h : fhdr) (F raw : bytes) (t : sectab) (S : list section) (Z0 : shdr) (Y T : Z) (tab : bytes) (ws : list wsym) (xs : list Z) : Prop := {
  n_raw : eh_parse is64 F = Ok raw;
  n_end : eh_endian raw = Ok (o_endian o);
  n_hdr : fhdr_from_raw is64 (o_endian o) raw = h;
  n_segs : program_headers is64 (o_endian o) raw F = Ok [];
  n_secs : eh_sections is64 (o_endian o) raw F = Ok t;
  n_list : stab_sections t = Z0 :: map sc_hdr S;
  n_zero : sh_type Z0 = 0;
  n_sec : forall i s, zget S (i - 1) = Some s -> stab_section t i = Ok (sc_hdr s) /\ section_name t (sc_hdr s) = Ok (sc_name s) /\ sh_data (sc_hdr s) F = Ok (sc_data s);
  n_content : forall k x, zget S k = Some x -> content F (sc_hdr x) (sc_data x);
  n_group : forall k c, zget (o_comdats o) k = Some c -> exists x nm off, zget S k = Some x /\ sc_hdr x = wr_group_header nm Y (symbol_no o (oc_symbol c)) off (zlen (oc_sections c)) /\
    sc_data x = concat (map (write_u (o_endian o) 4) (1 :: map (section_no o) (oc_sections c))) /\ Forall (fun i => 0 <= i < zlen (o_sections o)) (oc_sections c) /\
    exists y, zget (o_symbols o) (oc_symbol c) = Some y;
  n_section : forall i s, zget (o_sections o) i = Some s -> exists x ty fl, zget S (section_no o i - 1) = Some x /\ sc_name x = se_name s /\ sc_data x = se_data s /\
    sh_type (sc_hdr x) = ty /\ sh_flags (sc_hdr x) = fl /\ eo_section_flags s = Ok (ty, fl) /\ plain_type ty /\
    sh_addr (sc_hdr x) = 0 /\ sh_size (sc_hdr x) = se_size s /\ sh_addralign (sc_hdr x) = se_align s /\ sh_link (sc_hdr x) = 0 /\ sh_info (sc_hdr x) = 0;
  n_reloc : forall i s, zget (o_sections o) i = Some s -> relocated s = true -> exists x nm off cs, zget S (section_no o i) = Some x /\
    sc_hdr x = wr_reloc_header is64 is_rela nm (section_no o i) Y off (zlen (se_relocs s)) /\ Forall2 (rel_of o) (se_relocs s) cs /\
    sc_data x = concat (map (enc_rel is64 is_rela (o_endian o) (is64 && (match o_endian o with Little => true | Big => false end) && (fh_machine h =? 8))) cs);
  n_symtab : exists x, zget S (Y - 1) = Some x /\ sh_type (sc_hdr x) = 2 /\ sh_link (sc_hdr x) = T /\ sc_data x = concat (map (fun w => fst (enc_sym is64 (o_endian o) w)) ws);
  n_local : exists x, zget S (Y - 1) = Some x /\ sh_info (sc_hdr x) = 1 + count local_symbol (o_symbols o);
  n_strtab : exists x, zget S (T - 1) = Some x /\ sh_type (sc_hdr x) = 3 /\ sc_data x = tab;
  n_Y : 1 <= Y;
  n_T : 1 <= T;
  n_class : forall k x, zget S k = Some x -> (exists c, zget (o_comdats o) k = Some c) \/
    (exists i s, zget (o_sections o) i = Some s /\ (k = section_no o i - 1 \/ relocated s = true /\ k = section_no o i)) \/ k = Y - 1 \/ sh_type (sc_hdr x) = 3 \/
    (sh_type (sc_hdr x) = 18 /\ sh_link (sc_hdr x) = Y /\ sc_data x = concat (map (write_u (o_endian o) 4) xs));
  n_syms : forall k y, zget (o_symbols o) k = Some y -> exists w, zget ws (symbol_no o k) = Some w /\ string_at tab (ws_name w) (label y) /\ eo_symbol_flags y = Ok (ws_info w, ws_other w) /\
    ws_value w = sy_value y /\ ws_size w = sy_size y /\ sym_section o y w /\ (sy_section y = YNone -> sy_kind y = YFile);
  n_len : zlen ws = 1 + zlen (o_symbols o);
  n_ok : Forall (wsym_ok is64) ws;
  n_x : (exists x, In x (stab_sections t) /\ sh_type x = 18 /\ sh_link x = Y) /\ shndx_for is64 (o_endian o) ws xs \/ (forall w, In w ws -> snd (enc_sym is64 (o_endian o) w) = None) /\ Forall u32_ok xs
}.

Lemma locals_count o : zlen (locals o) = count local_symbol (o_symbols o).
Proof.
  unfold count, locals, zlen. rewrite <- (map_length snd). do 2 f_equal. change oy_local with local_symbol. unfold enumerate. apply filter_snd. unfold seqZ. rewrite map_length, seq_length. reflexivity.
Qed.
Section Reads.
Context (o : obj) (is_rela is64 : bool) (p : eplan) (R : rst) (nd : bool) (P1 : phase1 o is_rela is64 p R nd).
Context (Few : zlen (o_comdats o) + zlen (o_sections o) + zlen (o_symbols o) < 2 ^ 29).
Context (Sok : Forall (fun s => bytes_ok (se_name s) /\ good_align (se_align s)) (o_sections o)).
Context (Yok : Forall (fun y => bytes_ok (sy_name y)) (o_symbols o)).
Context (h : fhdr) (F : bytes) (Wr : ew_write o R p is_rela h = Ok F).
Context (Fit : object_fits is64 is_rela o).
Notation X := (the_x o is64 p R h).
Notation L := (locals o ++ globals o).
Notation HL := (hlist o is_rela p R nd).
Context (n1 n2 n3 n4 : Z) (N1 : slot_named R SSymtab n1) (N2 : nd = true -> slot_named R SShndx n2) (N3 : slot_named R SStrtab n3) (N4 : slot_named R SShstrtab n4).
Context (Hh : fhdr_ok is64 h) (Hhd : has_header is64 (o_endian o) F h (w_layout R)) (Htb : has_tables is64 (o_endian o) F (w_layout R) [] (HL n1 n2 n3 n4)).
Context (Hlo : Elf_spec.layout_ok is64 (w_layout R)) (Hsn : r_secs R = 1 + zlen (HL n1 n2 n3 n4)) (HLn : zlen F = r_len R) (Hrl : 0 < r_len R < 2 ^ 64) (H32 : is64 = false -> r_len R < 2 ^ 32).
Notation secl := (secl o is_rela is64 p R nd h n1 n2 n3 n4).
Notation comb := (combine (combine (o_sections o) (pl_secs p)) (pl_relocs p)).

Notation fw' := (fw o is_rela is64 p R nd P1 h F Fit n1 n2 n3 n4 N2 Hh Hhd Htb Hlo Hsn HLn Hrl H32).
Notation ws := (no_sym :: wsyms o p R).
Lemma wsym_at k y : zget (o_symbols o) k = Some y -> exists w, zget ws (symbol_no o k) = Some w /\ symbol_entry R p (k, y) = Ok w.
Proof.
  intro H. pose proof (order_at o k y H) as Q. rewrite sym_pos_eq in Q. pose proof (q_sym _ _ _ ltac:(eapply p2; eassumption)) as E.
  pose proof (Forall_zget _ _ _ _ E Q) as G. cbn beta in G. exists (ElfOB_proofs.sym_of R p (k, y)). split; [|exact G]. apply zget_Some_lt in Q as B. rewrite zget_S by lia. unfold wsyms. rewrite zget_map, Q. reflexivity.
Qed.
Lemma flags_u8 y i t : symbol_fits is64 y -> eo_symbol_flags y = Ok (i, t) -> 0 <= i < 256 /\ 0 <= t < 256.
Proof.
  intros Fy H. unfold eo_symbol_flags in H. destruct (sy_flags y) as [[a b| | |]|] eqn:E; try discriminate.
  - injection H as <- <-. exact (yf_flags _ _ Fy _ _ E).
  - unfold elf_symbol_flags, oy_undefined, oy_common, oy_local in H. clear - H.
    destruct (sy_kind y), (sy_weak y), (sy_scope y), (sy_section y); cbn in H; try discriminate; try (injection H; intros; lia).
Qed.
Lemma sym_facts k y w : zget (o_symbols o) k = Some y -> symbol_entry R p (k, y) = Ok w ->
  wsym_ok is64 w /\ string_at (r_data R SStrtab) (ws_name w) (label y) /\ eo_symbol_flags y = Ok (ws_info w, ws_other w) /\ ws_value w = sy_value y /\ ws_size w = sy_size y /\
  sym_section o y w /\ (sy_section y = YNone -> sy_kind y = YFile).
Proof.
  intros H E. destruct (label_at o is_rela is64 p R nd P1 Few Sok Yok _ _ H) as (id & n & E1 & E2 & Un & Sn).
  pose proof (Forall_zget _ _ _ _ (of_symbols _ _ _ Fit) H) as Fy. destruct (yf_words _ _ Fy) as (W1 & W2).
  unfold symbol_entry in E. cbn [snd fst] in E. mb E. destruct a as [i ot]. rewrite E1 in E. cbn [unwrap bind] in E. rewrite E2 in E. cbn [bind] in E.
  pose proof (flags_u8 _ _ _ Fy E0) as (U1 & U2).
  assert (G : exists sh sec, w = {| ws_section := sec; ws_name := n; ws_info := i; ws_other := ot; ws_shndx := sh; ws_value := sy_value y; ws_size := sy_size y |} /\ u16_ok sh /\ match sec with Some n => u32_ok n | None => True end /\
    sym_section o y w /\ (sy_section y = YNone -> sy_kind y = YFile)).
  { unfold sym_section. destruct (sy_section y) as [| | | |d] eqn:Es.
    - destruct (sy_kind y) eqn:Ek; cbn [guard bind] in E; try discriminate. exists 65521, None. assert (w = {| ws_section := None; ws_name := n; ws_info := i; ws_other := ot; ws_shndx := 65521; ws_value := sy_value y; ws_size := sy_size y |}) by congruence. subst w. cbn [ws_section ws_shndx]. unfold u16_ok. repeat split; lia.
    - cbn [bind] in E. exists 0, None. assert (w = {| ws_section := None; ws_name := n; ws_info := i; ws_other := ot; ws_shndx := 0; ws_value := sy_value y; ws_size := sy_size y |}) by congruence. subst w. cbn [ws_section ws_shndx]. unfold u16_ok. repeat split; first [lia|discriminate].
    - cbn [bind] in E. exists 65521, None. assert (w = {| ws_section := None; ws_name := n; ws_info := i; ws_other := ot; ws_shndx := 65521; ws_value := sy_value y; ws_size := sy_size y |}) by congruence. subst w. cbn [ws_section ws_shndx]. unfold u16_ok. repeat split; first [lia|discriminate].
    - cbn [bind] in E. exists 65522, None. assert (w = {| ws_section := None; ws_name := n; ws_info := i; ws_other := ot; ws_shndx := 65522; ws_value := sy_value y; ws_size := sy_size y |}) by congruence. subst w. cbn [ws_section ws_shndx]. unfold u16_ok. repeat split; first [lia|discriminate].
    - destruct (pl_section p d) as [a| |] eqn:E3; cbn [bind] in E; try discriminate. destruct (psec_ok _ _ _ E3) as (Ea & Na). destruct (sidx_no o is_rela is64 p R nd P1 Few Sok Yok h F Wr fw' d Na) as (Es2 & Bd). cbn [bind] in E.
      pose proof (section_no_bound o is64 Few F fw' d Bd). exists 0, (Some a). assert (w = {| ws_section := Some a; ws_name := n; ws_info := i; ws_other := ot; ws_shndx := 0; ws_value := sy_value y; ws_size := sy_size y |}) by congruence. subst w. cbn [ws_section ws_shndx]. unfold u16_ok, u32_ok.
      rewrite Ea, Es2. repeat split; first [lia|discriminate]. }
  destruct G as (sh & sec & Ew & G1 & G2 & G3 & G4). split. { rewrite Ew. unfold wsym_ok. cbn [ws_section ws_name ws_info ws_other ws_shndx ws_value ws_size]. tauto. }
  split; [rewrite Ew; exact Sn|]. split; [rewrite Ew; cbn [ws_info ws_other]; first [exact E0|reflexivity]|]. split; [rewrite Ew; reflexivity|]. split; [rewrite Ew; reflexivity|]. split; assumption.
Qed.
Lemma in_ws w : In w (wsyms o p R) -> exists k y, zget (o_symbols o) k = Some y /\ symbol_entry R p (k, y) = Ok w.
Proof.
  intro H. unfold wsyms in H. apply in_map_iff in H. destruct H as ([k y] & E & H). exists k, y. pose proof (q_sym _ _ _ ltac:(eapply p2; eassumption)) as Q. rewrite Forall_forall in Q. specialize (Q _ H). cbn beta in Q.
  split; [|congruence]. apply in_enumerate. apply in_app_iff in H. destruct H as [H|H]; apply filter_In in H; apply H.
Qed.
Lemma ws_ok : Forall (wsym_ok is64) ws.
Proof.
  constructor. { unfold wsym_ok, no_sym, u32_ok, u16_ok, word_ok. cbn. destruct is64; lia. }
  apply Forall_forall. intros w H. destruct (in_ws _ H) as (k & y & Hk & Ew). apply (sym_facts _ _ _ Hk Ew).
Qed.
Notation TA := (tables_at o is_rela is64 p R nd P1 Few Sok Yok h F Fit n1 n2 n3 n4 N2 Hh Hhd Htb Hlo Hsn H32).
Notation cla := (classify o is_rela is64 p R nd P1 h F Fit n1 n2 n3 n4 N2 Hh Hhd Htb Hlo Hsn H32).
Notation ats := (at_section o is_rela is64 p R nd P1 Few Sok Yok h F Wr Fit n1 n2 n3 n4 N2 Hh Hhd Htb Hlo Hsn HLn Hrl H32).
Notation cat := (comb_at o is_rela is64 p R nd P1 Few Sok Yok h F Wr Fit n1 n2 n3 n4 N2 Hh Hhd Htb Hlo Hsn HLn Hrl H32).
Notation ixs := (indices_eq o is_rela is64 p R nd P1 Few Sok Yok h F Fit n1 n2 n3 n4 N2 Hh Hhd Htb Hlo Hsn H32).
Notation cns := (consts o is_rela is64 p R nd P1).
Notation sxn := (sidx_no o is_rela is64 p R nd P1 Few Sok Yok h F Wr fw').
Notation phs := (p2 o is_rela is64 p R nd P1 h F Wr).
Lemma yidx_no k : pl_symbol p k = Ok (yidx p k) -> yidx p k = symbol_no o k /\ exists y, zget (o_symbols o) k = Some y.
Proof. intro H. destruct (psym_in o is_rela is64 p R nd P1 _ _ H) as (y & Hy & E). eauto. Qed.
Lemma group_shown k c : zget (o_comdats o) k = Some c -> exists x nm off, zget secl k = Some x /\ sc_hdr x = wr_group_header nm (r_index R SSymtab) (symbol_no o (oc_symbol c)) off (zlen (oc_sections c)) /\
    sc_data x = concat (map (write_u (o_endian o) 4) (1 :: map (section_no o) (oc_sections c))) /\ Forall (fun i => 0 <= i < zlen (o_sections o)) (oc_sections c) /\
    exists y, zget (o_symbols o) (oc_symbol c) = Some y.
Proof.
  intro H. apply zget_Some_lt in H as B. destruct (zget_lt_Some (pl_comdats p) k ltac:(rewrite (len_comdats _ _ _ _ _ _ P1); lia)) as ([off id] & Hq).
  pose proof phs as Q. pose proof (Forall_zget _ _ _ _ (q_gsym _ _ _ Q) H) as Gs. cbn beta in Gs. destruct (yidx_no _ Gs) as (Ey & Hy). pose proof (Forall_zget _ _ _ _ (q_group _ _ _ Q) H) as Gg. cbn beta in Gg.
  exists (group_of p R (c, (off, id))), (gname R id), off. split.
  { unfold ElfOK_proofs.secl. pose proof (CoffW_proofs.zget_combine (o_comdats o) (pl_comdats p) k _ _ H Hq) as Hc. rewrite zget_app1 by (rewrite zlen_map; apply zget_Some_lt in Hc; lia). rewrite zget_map, Hc. reflexivity. }
  split. { unfold group_of, comdat_hdr. cbn [sc_hdr fst snd]. rewrite Ey. reflexivity. }
  split. { unfold group_of, gdata. cbn [sc_data fst map concat]. destruct cns as (_ & ->). f_equal. f_equal. f_equal. apply map_ext_in. intros i Hi. rewrite Forall_forall in Gg. apply (sxn i (Gg _ Hi)). }
  split; [|exact Hy]. eapply Forall_impl; [|exact Gg]. cbn beta. intros i Hi. apply (sxn i Hi).
Qed.
Lemma section_shown i s : zget (o_sections o) i = Some s -> exists x ty fl, zget secl (section_no o i - 1) = Some x /\ sc_name x = se_name s /\ sc_data x = se_data s /\
    sh_type (sc_hdr x) = ty /\ sh_flags (sc_hdr x) = fl /\ eo_section_flags s = Ok (ty, fl) /\ plain_type ty /\
    sh_addr (sc_hdr x) = 0 /\ sh_size (sc_hdr x) = se_size s /\ sh_addralign (sc_hdr x) = se_align s /\ sh_link (sc_hdr x) = 0 /\ sh_info (sc_hdr x) = 0.
Proof.
  intro H. destruct (cat i s H) as (q & v & Hc & _). pose proof phs as Q. pose proof (Forall_zget _ _ _ _ (q_flags _ _ _ Q) H) as Gf. cbn beta in Gf. apply zget_In in H as Is.
  destruct (type_ok o is_rela is64 p R nd P1 h F Wr Fit fw' s Is) as (Tp & _).
  exists {| sc_hdr := section_hdr R s q; sc_name := se_name s; sc_data := se_data s |}, (fst (flags_of s)), (snd (flags_of s)).
  split. { replace (section_no o i - 1) with (section_no o i - 1 + 0) by lia. apply (ats i s 0 _ H ltac:(lia)). intros q' v' Hc'. assert (q' = q) by congruence. subst q'. reflexivity. }
  cbn [sc_hdr sc_name sc_data section_hdr sh_type sh_flags sh_addr sh_size sh_addralign sh_link sh_info]. rewrite <- surjective_pairing. tauto.
Qed.
Lemma reloc_shown i s : zget (o_sections o) i = Some s -> relocated s = true -> exists x nm off cs, zget secl (section_no o i) = Some x /\
    sc_hdr x = wr_reloc_header is64 is_rela nm (section_no o i) (r_index R SSymtab) off (zlen (se_relocs s)) /\ Forall2 (rel_of o) (se_relocs s) cs /\
    sc_data x = concat (map (enc_rel is64 is_rela (o_endian o) (is64 && (match o_endian o with Little => true | Big => false end) && (fh_machine h =? 8))) cs).
Proof.
  intros H Hr. destruct (cat i s H) as (q & v & Hc & _). pose proof phs as Q. pose proof (Forall_zget _ _ _ _ (q_rel _ _ _ Q) H) as Gr. cbn beta in Gr.
  destruct (combine_at is64 F fw' _ _ _ _ _ Hc) as (H' & Ho). destruct (combine_at is64 F fw' _ _ _ _ _ H') as (_ & Hq).
  exists {| sc_hdr := reloc_hdr R is_rela s q v; sc_name := reloc_name is_rela s; sc_data := rdata o is_rela is64 p R h s |}, (gname R (match es_reloc_str q with Some i => i | None => 0 end)), v, (map (reloc_of p) (se_relocs s)).
  split. { replace (section_no o i) with (section_no o i - 1 + 1) by lia. apply (ats i s 1 _ H ltac:(lia)). intros q' v' Hc'. assert (q' = q) by congruence. assert (v' = v) by congruence. subst q' v'. unfold secs_of. rewrite has_relocs_eq, Hr. reflexivity. }
  destruct cns as (C1 & C2).
  split. { cbn [sc_hdr]. unfold reloc_hdr. rewrite C1. f_equal. assert (Nq : zget (pl_secs p) i <> None) by congruence. pose proof (sxn i Nq) as (E & _). unfold sidx in E. rewrite Hq in E. exact E. }
  split. { revert Gr. clear - P1. induction (se_relocs s) as [|l ls IH]; intro G; [constructor|]. cbn [map]. constructor; [|apply IH; exact (Forall_inv_tail G)].
    apply Forall_inv in G. cbn beta in G. unfold reloc_entry in G. unfold rel_of, reloc_of. destruct (ol_flags l) as [| t| | |]; try discriminate. cbn [bind] in G. destruct (pl_symbol p (ol_symbol l)) as [n| |] eqn:En; try discriminate.
    pose proof (psym_ok _ _ _ En) as Ei. destruct (psym_in o is_rela is64 p R nd P1 _ _ En) as (y & Hy & E). exists t. split; [reflexivity|]. split; [|eauto]. f_equal. congruence. }
  cbn [sc_data]. unfold rdata. rewrite C1, C2. unfold the_x. cbn [x_mips64el]. reflexivity.
Qed.
Lemma null_enc e : fst (enc_sym is64 e no_sym) = enc_null_sym is64.
Proof. destruct is64, e; reflexivity. Qed.
Lemma shown_ok : exists raw t, shown o is64 is_rela h F raw t secl (null_shdr (w_layout R)) (r_index R SSymtab) (r_index R SStrtab) (r_data R SStrtab) ws (xwords o p R).
Proof.
  destruct (reading o is_rela is64 p R nd P1 Few Sok Yok h F Wr Fit n1 n2 n3 n4 N1 N2 N3 N4 Hh Hhd Htb Hlo Hsn HLn Hrl H32) as (raw & t & T). exists raw, t. destruct TA as (T1 & T2 & T3 & T4). destruct ixs as (I1 & I2 & I3 & I4). destruct cns as (C1 & C2).
  assert (Nz : 0 <= ndz nd <= 1) by (unfold ndz; clear; destruct nd; lia).
  constructor.
  - apply T. - apply T. - apply T. - apply T. - apply T. - apply T. - reflexivity. - apply T.
  - intros k x Hx. pose proof (all_good o is_rela is64 p R nd P1 Few Sok Yok h F Wr Fit n1 n2 n3 n4 N1 N2 N3 N4 Hh Hhd Htb Hlo Hsn HLn Hrl H32) as Ag. apply (Forall_zget _ _ _ _ Ag Hx).
  - exact group_shown.
  - exact section_shown.
  - exact reloc_shown.
  - eexists. split; [exact T1|]. split; [reflexivity|]. split; [reflexivity|]. cbn [slot_sec sc_data]. unfold symtab_data. cbn [map concat]. rewrite null_enc, C1, C2. reflexivity.
  - eexists. split; [exact T1|]. change (sh_info (sc_hdr (slot_sec R SSymtab n1 (pl_local p) (symtab_data o p R)))) with (pl_local p).
    rewrite (proj1 (proj2 (syms_at o is_rela is64 p R nd P1))). f_equal. apply locals_count.
  - eexists. split; [exact T2|]. split; reflexivity.
  - lia. - lia.
  - intros k x Hx. destruct (cla k x Hx) as [(c & q & Hc & _)|[(i & s & q & v & Hs & _ & _ & Hk & Hz)|(Hk & Hz)]].
    + left. exists c. apply (combine_at is64 F fw' _ _ _ _ _ Hc).
    + right. left. exists i, s. split; [exact Hs|]. apply zget_Some_lt in Hz. unfold secs_of in Hz. rewrite has_relocs_eq in Hz. destruct (relocated s); [|left; unfold zlen in Hz; cbn [length] in Hz; lia].
      unfold zlen in Hz. cbn [length] in Hz. destruct (Z.eq_dec k (section_no o i - 1)); [left; assumption|right; split; [reflexivity|lia]].
    + right. right. set (j := k - base o) in *. assert (Ek : k = base o + j) by (unfold j; lia). clearbody j. unfold tables in Hz. destruct (Z.eq_dec j 0) as [->|Nj]; [left; lia|]. right.
      apply zget_Some_lt in Hz as Bj. change ([?a] ++ ?l) with (a :: l) in Hz. rewrite zget_S in Hz by lia. apply zget_In in Hz. apply in_app_iff in Hz. destruct Hz as [Hz|[<-|[<-|[]]]]; [|left; reflexivity|left; reflexivity].
      right. assert (x = slot_sec R SShndx n2 0 (concat (map (write_u (r_end R) 4) (xwords o p R)))) as ->. { clear - Hz. destruct nd; [|destruct Hz]. destruct Hz as [<-|[]]. reflexivity. }
      split; [reflexivity|]. split; [reflexivity|]. cbn [slot_sec sc_data]. rewrite C2. reflexivity.
  - intros k y Hk. destruct (wsym_at k y Hk) as (w & Hw & Ew). exists w. split; [exact Hw|]. pose proof (sym_facts _ _ _ Hk Ew). tauto.
  - rewrite zlen_cons, wsyms_len. reflexivity.
  - exact ws_ok.
  - assert (Xok : shndx_for is64 (o_endian o) ws (xwords o p R)).
    { unfold shndx_for, xwords. constructor. { split; [unfold u32_ok; lia|]. cbn. exact I. } rewrite C1, C2. pose proof ws_ok as W. apply Forall_inv_tail in W. revert W. generalize (wsyms o p R) as l. clear. induction l as [|w l IH]; intro G; cbn [map]; [constructor|].
      constructor; [|apply IH; exact (Forall_inv_tail G)]. apply Forall_inv in G. unfold enc_sym. cbn [snd]. destruct (_ =? _); [|split; [unfold u32_ok; lia|exact I]]. split; [|reflexivity]. destruct G as (_ & _ & _ & _ & _ & _ & G). destruct (ws_section w); [exact G|unfold u32_ok; lia]. }
    destruct (Bool.bool_dec nd true) as [En|En].
    + left. split; [|exact Xok]. exists (sc_hdr (slot_sec R SShndx n2 0 (concat (map (write_u (r_end R) 4) (xwords o p R))))). split; [|split; reflexivity]. rewrite (tr_list _ _ _ _ _ _ _ _ _ _ _ _ _ _ T). right. apply in_map. apply zget_In in T4; assumption.
    + right. apply Bool.not_true_is_false in En. split.
      * pose proof (small_index o is_rela is64 p R nd P1 En) as Sm. intros w [<-|Hw]; [reflexivity|]. unfold wsyms in Hw. apply in_map_iff in Hw. destruct Hw as ([k y] & Ew & Hq). rewrite Forall_forall in Sm. specialize (Sm _ Hq). cbn [snd] in Sm.
        assert (Hk : zget (o_symbols o) k = Some y). { apply in_enumerate. apply in_app_iff in Hq. destruct Hq as [Hq|Hq]; apply filter_In in Hq; apply Hq. }
        pose proof (q_sym _ _ _ phs) as Qs. rewrite Forall_forall in Qs. specialize (Qs _ Hq). cbn beta in Qs. rewrite Ew in Qs. destruct (sym_facts _ _ _ Hk Qs) as (_ & _ & _ & _ & _ & Ss & _). unfold sym_section in Ss. unfold enc_sym. cbn [snd].
        destruct (sy_section y) as [| | | |d] eqn:Ey; destruct Ss as (-> & Ss); try (rewrite Ss; reflexivity).
        assert (Ed : sidx (pl_secs p) d = section_no o d). { apply sxn. destruct (zget_lt_Some (pl_secs p) d ltac:(rewrite (len_secs _ _ _ _ _ _ P1); lia)) as (q & Hq'). congruence. }
        pose proof (section_no_bound o is64 Few F fw' d Ss). unfold symsec_new. change SHN_LORESERVE with 65280. rewrite <- Ed in *. destruct (Z.leb_spec 65280 (sidx (pl_secs p) d)); [lia|]. unfold wrap_u. rewrite Z.mod_small by lia. change SHN_XINDEX with 65535. destruct (Z.eqb_spec (sidx (pl_secs p) d) 65535); [lia|reflexivity].
      * clear - Xok. unfold shndx_for in Xok. induction Xok as [|? ? ? ? (A & _) ? IH]; constructor; assumption.
Qed.
End Reads.
