(** Lemmas about [elf_write]: the section table as read. *)
From Verif Require Import Base Core_spec Core_proofs Str_spec Str_proofs Buf_proofs Map_proofs Util_proofs File_spec File_proofs Hash_proofs Pod_proofs Elf_proofs ElfR_proofs MachW_proofs.
From Verif Require CoffW_proofs.
From Verif Require Import ElfW_spec ElfWR_proofs ElfWB_proofs ElfWC_proofs ElfWT_proofs ElfO_model ElfO_proofs ElfOB_proofs ElfOC_proofs ElfOD_proofs ElfOE_proofs ElfOF_proofs ElfOG_proofs ElfOH_proofs ElfOI_proofs ElfO_spec ElfOJ_proofs ElfOK_proofs.
Notation strtab := Str_model.strtab (only parsing).

Section Reads.
Context (o : obj) (is_rela is64 : bool) (p : eplan) (R : rst) (nd : bool) (P1 : phase1 o is_rela is64 p R nd).
Context (Few : zlen (o_comdats o) + zlen (o_sections o) + zlen (o_symbols o) < 2 ^ 29).
Context (Sok : Forall (fun s => bytes_ok (se_name s) /\ good_align (se_align s)) (o_sections o)).
Context (Yok : Forall (fun y => bytes_ok (sy_name y)) (o_symbols o)).
Context (h : fhdr) (F : bytes) (Wr : ew_write o R p is_rela h = Ok F).
Context (Fit : object_fits is64 is_rela o).
Notation st := (steps o is_rela p R nd).
Notation cs := (RFileHeader :: map fst st).
Notation X := (the_x o is64 p R h).
Notation L := (locals o ++ globals o).
Notation HL := (hlist o is_rela p R nd).
Context (n1 n2 n3 n4 : Z) (N1 : slot_named R SSymtab n1) (N2 : nd = true -> slot_named R SShndx n2) (N3 : slot_named R SStrtab n3) (N4 : slot_named R SShstrtab n4).
Context (Hh : fhdr_ok is64 h) (Hhd : has_header is64 (o_endian o) F h (w_layout R)) (Htb : has_tables is64 (o_endian o) F (w_layout R) [] (HL n1 n2 n3 n4)).
Context (Hlo : Elf_spec.layout_ok is64 (w_layout R)) (Hsn : r_secs R = 1 + zlen (HL n1 n2 n3 n4)) (HLn : zlen F = r_len R) (Hrl : 0 < r_len R < 2 ^ 64) (H32 : is64 = false -> r_len R < 2 ^ 32).
Notation gdata := (gdata p R). Notation rdata := (rdata o is_rela is64 p R h). Notation secs_of := (secs_of o is_rela is64 p R h). Notation group_of := (group_of p R).
Notation secl := (secl o is_rela is64 p R nd h n1 n2 n3 n4).
Notation comb := (combine (combine (o_sections o) (pl_secs p)) (pl_relocs p)).
Notation good := (good is64 R F).

Lemma fw v d : holds F v d -> word_ok is64 v /\ word_ok is64 (zlen d).
Proof. intro H. apply holds_bounds in H. pose proof (zlen_nonneg d). unfold word_ok. destruct is64; [lia|]. specialize (H32 eq_refl). lia. Qed.
Lemma hf : zlen F < 2 ^ 64. Proof. lia. Qed.
Lemma rs : r_secs R < 2 ^ 32. Proof. apply (i_secs _ _ (final_inv o is_rela is64 p R nd P1 Few Sok Yok)). Qed.
(** the tables *)
Lemma slot_good s n a d : In s [SSymtab; SShndx; SStrtab; SShstrtab] -> slot_named R s n -> r_off R s <> 0 -> In (Some s) (headers cs) -> u32_ok a -> content F (slot_header R s n 0 a) d -> d <> [] -> good (slot_sec R s n a d).
Proof.
  intros Is (Hu & Hn) Ho Hi Ha Hc Nd. split; [|split; [destruct Is as [<-|[<-|[<-|[<-|[]]]]]; exact Hn|exact Hc]].
  assert (Hc' : sh_size (slot_header R s n 0 a) = zlen d /\ holds F (r_off R s) d) by (destruct Is as [<-|[<-|[<-|[<-|[]]]]]; exact Hc). destruct Hc' as (C1 & C2). destruct (fw _ _ C2) as (W1 & W2). rewrite <- C1 in W2.
  pose proof (symtab_u32 o is_rela is64 p R nd P1 Few Sok Yok F fw) as S1. pose proof (index_u32 o is_rela is64 p R nd P1 Few Sok Yok F fw SStrtab (proj1 (proj2 (heads_has o is_rela is64 p R nd P1))) eq_refl) as S2.
  assert (Ws : forall v, 0 <= v < 2 ^ 32 -> word_ok is64 v) by (intros v Hv; unfold word_ok; destruct is64; lia).
  unfold slot_sec, shdr_ok. cbn [sc_hdr]. unfold u32_ok in *. destruct Is as [<-|[<-|[<-|[<-|[]]]]]; cbn [slot_header sh_name sh_type sh_flags sh_addr sh_offset sh_size sh_link sh_info sh_addralign sh_entsize] in *;
    (split; [exact Hu|]); (split; [lia|]); (split; [apply Ws; lia|]); (split; [apply Ws; lia|]); (split; [exact W1|]); (split; [exact W2|]); (split; [lia|]); (split; [lia|]); split; apply Ws; destruct (r_is64 R); cbn; lia.
Qed.
Lemma local_u32 : u32_ok (pl_local p).
Proof. destruct (syms_at o is_rela is64 p R nd P1) as (_ & -> & _). unfold locals. pose proof (filter_length_le (fun q : Z * osym => oy_local (snd q)) (enumerate (o_symbols o))) as Q. unfold enumerate in Q at 2. rewrite combine_length in Q. unfold u32_ok. 
  match goal with |- context [zlen ?l] => pose proof (zlen_nonneg l); assert (zlen l <= zlen (o_symbols o)) by (unfold zlen; lia) end. pose proof (zlen_nonneg (o_comdats o)). pose proof (zlen_nonneg (o_sections o)). lia. Qed.
Lemma all_good : Forall good secl.
Proof.
  unfold ElfOK_proofs.secl. apply Forall_app. split.
  { apply Forall_forall. intros x Hx. apply in_map_iff in Hx. destruct Hx as ((c & q) & <- & Hx). apply In_zget in Hx. destruct Hx as (i & Hx). exact (group_good o is_rela is64 p R nd P1 Few Sok Yok h F Wr Fit fw _ _ _ Hx). }
  apply Forall_app. split.
  { apply Forall_flat_map, Forall_forall. intros ((s & q) & v) Hx. apply In_zget in Hx. destruct Hx as (i & Hx). exact (section_good o is_rela is64 p R nd P1 Few Sok Yok h F Wr Fit fw _ _ _ _ Hx). }
  destruct (heads_has o is_rela is64 p R nd P1) as (K1 & K2 & K3 & K4).
  assert (Nx : forall s, is_strs s -> r_off R s <> 0 -> r_data R s <> []) by (intros s Hs Ho; apply (data_len o is_rela is64 p R nd P1 Few Sok Yok s Hs Ho)).
  apply Forall_app. split; [constructor; [|constructor]|apply Forall_app; split; [|constructor; [|constructor; [|constructor]]]].
  - apply slot_good; [cbn; tauto|exact N1|exact (symtab_on o is_rela is64 p R nd P1 Few Sok Yok h F Wr)|exact K1|exact local_u32|exact (symtab_content o is_rela is64 p R nd P1 Few Sok Yok h F Wr _ _)|].
    unfold symtab_data, enc_null_sym. intro Q. apply (f_equal zlen) in Q. rewrite zlen_app, zlen_zeros in Q by (destruct (r_is64 R); cbn; lia). change (zlen (@nil Z)) with 0 in Q. match type of Q with context [zlen (concat ?l)] => pose proof (zlen_nonneg (concat l)) end. destruct (r_is64 R); cbn [sym_size] in Q; lia.
  - assert (G : nd = true -> good (slot_sec R SShndx n2 0 (concat (map (write_u (r_end R) 4) (xwords o p R))))).
    { intro En. apply slot_good; [cbn; tauto|exact (N2 En)|exact (nd_on o is_rela is64 p R nd P1 Few Sok Yok h F Wr En)|exact (K4 En)|unfold u32_ok; lia|exact (shndx_content o is_rela is64 p R nd P1 Few Sok Yok h F Wr _ _ En)|].
      unfold xwords. cbn [map concat]. intro Q. apply (f_equal zlen) in Q. rewrite zlen_app, zlen_write_u in Q. change (zlen (@nil Z)) with 0 in Q. match type of Q with context [zlen (concat ?l)] => pose proof (zlen_nonneg (concat l)) end. lia. }
    clear - G. destruct nd; [constructor; [apply G; reflexivity|constructor]|constructor].
  - apply slot_good; [cbn; tauto|exact N3|exact (strtab_on o is_rela is64 p R nd P1 Few Sok Yok)|exact K2|unfold u32_ok; lia|exact (strtab_content o is_rela is64 p R nd P1 Few Sok Yok h F Wr _ _)|].
    apply Nx; [cbn; tauto|exact (strtab_on o is_rela is64 p R nd P1 Few Sok Yok)].
  - apply slot_good; [cbn; tauto|exact N4|exact (shstr_on o is_rela is64 p R nd P1 Few Sok Yok)|exact K3|unfold u32_ok; lia|exact (shstrtab_content o is_rela is64 p R nd P1 Few Sok Yok h F Wr _ _)|].
    apply Nx; [cbn; tauto|exact (shstr_on o is_rela is64 p R nd P1 Few Sok Yok)].
Qed.
(** * Positions *)
Lemma secs_len s q v : zlen (secs_of (s, q, v)) = zlen (sec_heads s).
Proof. unfold ElfOK_proofs.secs_of, sec_heads. destruct (has_relocs s); reflexivity. Qed.
Lemma take_len n : forall ss qs vs, zlen qs = zlen ss -> zlen vs = zlen ss -> zlen (flat_map secs_of (firstn n (combine (combine ss qs) vs))) = zlen (flat_map sec_heads (firstn n ss)).
Proof.
  induction n as [|n IH]; intros ss qs vs E1 E2; [reflexivity|]. destruct ss as [|s ss], qs as [|q qs], vs as [|v vs]; try reflexivity; unfold zlen in E1, E2; cbn [length] in E1, E2; try lia.
  cbn [combine firstn flat_map]. rewrite !zlen_app, secs_len, IH by (unfold zlen; lia). reflexivity.
Qed.
Lemma comb_at i s : zget (o_sections o) i = Some s -> exists q off, zget comb i = Some (s, q, off) /\ zget (pl_secs p) i = Some q /\ zget (pl_relocs p) i = Some off /\ sec_written o is_rela R F i s q.
Proof.
  intro H. destruct (sec_at o is_rela is64 p R nd P1 Few Sok Yok h F Wr fw i s H) as (q & v & Hq & Hv & W). exists q, v. split; [|split; [exact Hq|split; [exact Hv|exact W]]].
  apply CoffW_proofs.zget_combine; [apply CoffW_proofs.zget_combine|]; assumption.
Qed.
Lemma zlen_groups : zlen (map group_of (combine (o_comdats o) (pl_comdats p))) = zlen (o_comdats o).
Proof. rewrite zlen_map. apply zlen_combine'. exact (len_comdats _ _ _ _ _ _ P1). Qed.
Lemma at_section i s k x : zget (o_sections o) i = Some s -> 0 <= k -> (forall q off, zget comb i = Some (s, q, off) -> zget (secs_of (s, q, off)) k = Some x) -> zget secl (section_no o i - 1 + k) = Some x.
Proof.
  intros H Hk Q. destruct (comb_at i s H) as (q & v & Hc & _). specialize (Q q v Hc). apply zget_Some_lt in H as Bi. apply zget_Some_lt in Q as Bk. rewrite <- sec_pos_eq by lia. unfold sec_pos.
  pose proof zlen_groups as Lg. pose proof (zlen_nonneg (flat_map sec_heads (ztake i (o_sections o)))). pose proof (zlen_nonneg (o_comdats o)). unfold ElfOK_proofs.secl. rewrite zget_app2 by lia. rewrite Lg.
  pose proof (take_len (Z.to_nat i) (o_sections o) (pl_secs p) (pl_relocs p) (len_secs _ _ _ _ _ _ P1) (len_relocs _ _ _ _ _ _ P1)) as Tl. change (firstn (Z.to_nat i) ?l) with (ztake i l) in Tl.
  replace (1 + zlen (o_comdats o) + zlen (flat_map sec_heads (ztake i (o_sections o))) - 1 + k - zlen (o_comdats o)) with (zlen (flat_map secs_of (ztake i comb)) + k) by lia.
  pose proof (flat_at secs_of _ _ _ k Hc ltac:(lia)) as Fa. rewrite Q in Fa. apply zget_Some_lt in Fa as Bf. rewrite zget_app1 by lia. exact Fa.
Qed.
Lemma comb_len : zlen (flat_map secs_of comb) = zlen (flat_map sec_heads (o_sections o)).
Proof.
  pose proof (take_len (length comb + length (o_sections o)) (o_sections o) (pl_secs p) (pl_relocs p) (len_secs _ _ _ _ _ _ P1) (len_relocs _ _ _ _ _ _ P1)) as Tl. rewrite !firstn_all2 in Tl by lia. exact Tl.
Qed.
Definition base : Z := zlen (o_comdats o) + zlen (flat_map sec_heads (o_sections o)).
Definition tables : list section :=
  [slot_sec R SSymtab n1 (pl_local p) (symtab_data o p R)] ++ (if nd then [slot_sec R SShndx n2 0 (concat (map (write_u (r_end R) 4) (xwords o p R)))] else []) ++
  [slot_sec R SStrtab n3 0 (r_data R SStrtab); slot_sec R SShstrtab n4 0 (r_data R SShstrtab)].
Lemma base_eq : base = section_no o (zlen (o_sections o)) - 1.
Proof. unfold base, section_no. rewrite heads_count. assert (ztake (zlen (o_sections o)) (o_sections o) = o_sections o) as -> by (unfold ztake, zlen; rewrite Nat2Z.id; apply firstn_all). lia. Qed.
Lemma at_table k x : zget tables k = Some x -> zget secl (base + k) = Some x.
Proof.
  intro H. apply zget_Some_lt in H as B. unfold base, ElfOK_proofs.secl. pose proof zlen_groups. pose proof comb_len. pose proof (zlen_nonneg (o_comdats o)). pose proof (zlen_nonneg (flat_map sec_heads (o_sections o))).
  rewrite zget_app2 by lia. rewrite zget_app2 by lia. match goal with |- zget _ ?i = _ => replace i with k by lia end. exact H.
Qed.
(** what a section of the file is *)
Lemma classify k x : zget secl k = Some x ->
  (exists c q, zget (combine (o_comdats o) (pl_comdats p)) k = Some (c, q) /\ x = group_of (c, q)) \/
  (exists i s q off, zget (o_sections o) i = Some s /\ zget comb i = Some (s, q, off) /\ In x (secs_of (s, q, off)) /\ section_no o i - 1 <= k /\ zget (secs_of (s, q, off)) (k - (section_no o i - 1)) = Some x) \/
  (base <= k /\ zget tables (k - base) = Some x).
Proof.
  intro H. apply zget_Some_lt in H as B. pose proof zlen_groups as Lg. pose proof comb_len as Lc. pose proof (zlen_nonneg (o_comdats o)). unfold ElfOK_proofs.secl in H. fold tables in H.
  destruct (Z.lt_ge_cases k (zlen (o_comdats o))) as [Lk|Gk].
  - left. rewrite zget_app1 in H by lia. rewrite zget_map in H. destruct (zget (combine (o_comdats o) (pl_comdats p)) k) as [[c q]|] eqn:E; [|discriminate]. exists c, q. split; [reflexivity|]. cbn [option_map] in H. congruence.
  - right. rewrite zget_app2 in H by lia. rewrite Lg in H. destruct (Z.lt_ge_cases (k - zlen (o_comdats o)) (zlen (flat_map secs_of comb))) as [Lk|Gk'].
    + left. rewrite zget_app1 in H by lia. clear B Lk.
      assert (G : forall ss qs vs m, zlen qs = zlen ss -> zlen vs = zlen ss -> zget (flat_map secs_of (combine (combine ss qs) vs)) m = Some x ->
        exists i s q v, zget ss i = Some s /\ zget (combine (combine ss qs) vs) i = Some (s, q, v) /\ zlen (flat_map sec_heads (ztake i ss)) <= m /\ zget (secs_of (s, q, v)) (m - zlen (flat_map sec_heads (ztake i ss))) = Some x).
      { clear. induction ss as [|s ss IH]; intros qs vs m E1 E2 H; [apply zget_In in H; destruct H|]. destruct qs as [|q qs]; [unfold zlen in E1; cbn in E1; lia|]. destruct vs as [|v vs]; [unfold zlen in E2; cbn in E2; lia|].
        cbn [combine flat_map] in H. apply zget_Some_lt in H as Bm. destruct (Z.lt_ge_cases m (zlen (secs_of (s, q, v)))) as [Lm|Gm].
        - exists 0, s, q, v. rewrite zget_app1 in H by lia. split; [apply zget_0|]. split; [apply zget_0|]. change (ztake 0 (s :: ss)) with (@nil osec). change (zlen (flat_map sec_heads [])) with 0. split; [lia|]. replace (m - 0) with m by lia. exact H.
        - rewrite zget_app2 in H by lia. rewrite !zlen_cons in E1. rewrite !zlen_cons in E2. destruct (IH qs vs _ ltac:(lia) ltac:(lia) H) as (i & s' & q' & v' & A1 & A2 & A3 & A4). apply zget_Some_lt in A1 as Bi. exists (i + 1), s', q', v'.
          cbn [combine]. rewrite !zget_S by lia. replace (i + 1 - 1) with i by lia. split; [exact A1|]. split; [exact A2|].
          assert (ztake (i + 1) (s :: ss) = s :: ztake i ss) as -> by (unfold ztake; replace (Z.to_nat (i + 1)) with (S (Z.to_nat i)) by lia; reflexivity). cbn [flat_map]. rewrite zlen_app, <- (secs_len s q v). split; [lia|].
          match goal with |- zget _ ?a = _ => replace a with (m - zlen (secs_of (s, q, v)) - zlen (flat_map sec_heads (ztake i ss))) by lia end. exact A4. }
      destruct (G _ _ _ _ (len_secs _ _ _ _ _ _ P1) (len_relocs _ _ _ _ _ _ P1) H) as (i & s & q & v & A1 & A2 & A3 & A4). exists i, s, q, v. split; [exact A1|]. split; [exact A2|]. split; [eapply zget_In; exact A4|].
      apply zget_Some_lt in A1 as Bi. rewrite <- sec_pos_eq by lia. unfold sec_pos. split; [lia|]. match goal with |- zget _ ?a = _ => replace a with (k - zlen (o_comdats o) - zlen (flat_map sec_heads (ztake i (o_sections o)))) by lia end. exact A4.
    + right. rewrite zget_app2 in H by lia. unfold base. split; [lia|]. match goal with |- zget _ ?a = _ => replace a with (k - zlen (o_comdats o) - zlen (flat_map secs_of comb)) by lia end. exact H.
Qed.
End Reads.
