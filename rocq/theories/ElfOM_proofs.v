(** Lemmas about [elf_write]: the file as read. *)
From Verif Require Import Base Core_spec Core_proofs Str_spec Str_proofs Buf_proofs Map_proofs Util_proofs File_spec File_proofs Hash_proofs Pod_proofs Elf_proofs ElfR_proofs MachW_proofs.
From Verif Require CoffW_proofs.
From Verif Require Import ElfW_spec ElfWR_proofs ElfWB_proofs ElfWC_proofs ElfWT_proofs ElfO_model ElfO_proofs ElfOB_proofs ElfOC_proofs ElfOD_proofs ElfOE_proofs ElfOF_proofs ElfOG_proofs ElfOH_proofs ElfOI_proofs ElfO_spec ElfOJ_proofs ElfOK_proofs ElfOL_proofs.
Notation strtab := Str_model.strtab (only parsing).

Section Reads.
Context (o : obj) (is_rela is64 : bool) (p : eplan) (R : rst) (nd : bool) (P1 : phase1 o is_rela is64 p R nd).
Context (Few : zlen (o_comdats o) + zlen (o_sections o) + zlen (o_symbols o) < 2 ^ 29).
Context (Sok : Forall (fun s => bytes_ok (se_name s) /\ good_align (se_align s)) (o_sections o)).
Context (Yok : Forall (fun y => bytes_ok (sy_name y)) (o_symbols o)).
Context (h : fhdr) (F : bytes) (Wr : ew_write o R p is_rela h = Ok F).
Context (Fit : object_fits is64 is_rela o).
Notation st := (steps o is_rela p R nd).
Notation cs := (RFileHeader :: map fst st).
Notation X := (the_x o is64 p R h).
Notation L := (locals o ++ globals o).
Notation HL := (hlist o is_rela p R nd).
Context (n1 n2 n3 n4 : Z) (N1 : slot_named R SSymtab n1) (N2 : nd = true -> slot_named R SShndx n2) (N3 : slot_named R SStrtab n3) (N4 : slot_named R SShstrtab n4).
Context (Hh : fhdr_ok is64 h) (Hhd : has_header is64 (o_endian o) F h (w_layout R)) (Htb : has_tables is64 (o_endian o) F (w_layout R) [] (HL n1 n2 n3 n4)).
Context (Hlo : Elf_spec.layout_ok is64 (w_layout R)) (Hsn : r_secs R = 1 + zlen (HL n1 n2 n3 n4)) (HLn : zlen F = r_len R) (Hrl : 0 < r_len R < 2 ^ 64) (H32 : is64 = false -> r_len R < 2 ^ 32).
Notation gdata := (gdata p R). Notation rdata := (rdata o is_rela is64 p R h). Notation secs_of := (secs_of o is_rela is64 p R h). Notation group_of := (group_of p R).
Notation secl := (secl o is_rela is64 p R nd h n1 n2 n3 n4).
Notation comb := (combine (combine (o_sections o) (pl_secs p)) (pl_relocs p)).
Notation good := (good is64 R F).


Notation fw' := (fw is64 R F HLn H32).
Lemma index_table k s : zget ([Some SSymtab] ++ (if nd then [Some SShndx] else []) ++ [Some SStrtab; Some SShstrtab]) k = Some (Some s) -> slot_indexed s = true -> r_index R s = base o + k + 1.
Proof.
  intros H Hs. pose proof (final_inv o is_rela is64 p R nd P1 Few Sok Yok) as I. pose proof (i_hdr _ _ I (base o + k) s) as Q. rewrite (heads_all _ _ _ _ _ _ P1) in Q. apply zget_Some_lt in H as B.
  destruct Q as (_ & Q); [|rewrite (Q Hs); lia]. unfold base. pose proof (zlen_nonneg (o_comdats o)). pose proof (zlen_nonneg (flat_map sec_heads (o_sections o))). rewrite zget_app2 by (rewrite zlen_map; lia). rewrite zlen_map. rewrite zget_app2 by lia.
  match goal with |- zget _ ?i = _ => replace i with k by lia end. exact H.
Qed.
Definition ndz : Z := if nd then 1 else 0.
Lemma indices_eq : r_index R SSymtab = base o + 1 /\ r_index R SStrtab = base o + 2 + ndz /\ r_index R SShstrtab = base o + 3 + ndz /\ 0 <= base o.
Proof.
  split; [rewrite (index_table 0 SSymtab eq_refl eq_refl); lia|]. unfold ndz, base. pose proof (zlen_nonneg (o_comdats o)). pose proof (zlen_nonneg (flat_map sec_heads (o_sections o))).
  assert (A : zget ([Some SSymtab] ++ (if nd then [Some SShndx] else []) ++ [Some SStrtab; Some SShstrtab]) (1 + ndz) = Some (Some SStrtab)) by (unfold ndz; clear; destruct nd; reflexivity).
  assert (B : zget ([Some SSymtab] ++ (if nd then [Some SShndx] else []) ++ [Some SStrtab; Some SShstrtab]) (2 + ndz) = Some (Some SShstrtab)) by (unfold ndz; clear; destruct nd; reflexivity).
  rewrite (index_table _ _ A eq_refl), (index_table _ _ B eq_refl). unfold ndz, base. lia.
Qed.
Lemma tables_at : zget secl (r_index R SSymtab - 1) = Some (slot_sec R SSymtab n1 (pl_local p) (symtab_data o p R)) /\ zget secl (r_index R SStrtab - 1) = Some (slot_sec R SStrtab n3 0 (r_data R SStrtab)) /\
  zget secl (r_index R SShstrtab - 1) = Some (slot_sec R SShstrtab n4 0 (r_data R SShstrtab)) /\ (nd = true -> zget secl (r_index R SSymtab) = Some (slot_sec R SShndx n2 0 (concat (map (write_u (r_end R) 4) (xwords o p R))))).
Proof.
  destruct indices_eq as (E1 & E2 & E3 & _). pose proof (at_table o is_rela is64 p R nd P1 h F Fit n1 n2 n3 n4 N2 Hh Hhd Htb Hlo Hsn H32) as T.
  split. { replace (r_index R SSymtab - 1) with (base o + 0) by lia. apply T. reflexivity. }
  split. { replace (r_index R SStrtab - 1) with (base o + (1 + ndz)) by lia. apply T. unfold tables, ndz. clear. destruct nd; reflexivity. }
  split. { replace (r_index R SShstrtab - 1) with (base o + (2 + ndz)) by lia. apply T. unfold tables, ndz. clear. destruct nd; reflexivity. }
  intro En. replace (r_index R SSymtab) with (base o + 1) by lia. apply T. unfold tables. clear - En. destruct nd; [reflexivity|discriminate].
Qed.
(** the tables as read *)
Record table_read (raw : bytes) (t : sectab) : Prop := {
  tr_raw : eh_parse is64 F = Ok raw;
  tr_end : eh_endian raw = Ok (o_endian o);
  tr_hdr : fhdr_from_raw is64 (o_endian o) raw = h;
  tr_segs : program_headers is64 (o_endian o) raw F = Ok [];
  tr_secs : eh_sections is64 (o_endian o) raw F = Ok t;
  tr_list : stab_sections t = null_shdr (w_layout R) :: map sc_hdr secl;
  tr_sec : forall i s, zget secl (i - 1) = Some s -> stab_section t i = Ok (sc_hdr s) /\ section_name t (sc_hdr s) = Ok (sc_name s) /\ sh_data (sc_hdr s) F = Ok (sc_data s)
}.
Lemma shstr_zero : string_at (r_data R SShstrtab) 0 [].
Proof.
  destruct (run_all _ _ _ _ _ _ P1) as (vs & Run). destruct (data_null _ _ _ _ _ SShstrtab (ordered o is_rela is64 p R nd P1 Few Sok Yok) Run ltac:(cbn; tauto) (shstr_on o is_rela is64 p R nd P1 Few Sok Yok)) as (d & ->).
  split; [|intros []]. exists [], d. split; reflexivity.
Qed.
Lemma reading : exists raw t, table_read raw t.
Proof.
  pose proof (all_good o is_rela is64 p R nd P1 Few Sok Yok h F Wr Fit n1 n2 n3 n4 N1 N2 N3 N4 Hh Hhd Htb Hlo Hsn HLn Hrl H32) as Ag.
  assert (Hz : zlen F < 2 ^ 64) by lia. assert (Sn : ly_section_num (w_layout R) = 1 + zlen secl). { unfold w_layout. cbn [ly_section_num]. rewrite Hsn. rewrite <- (secl_hdrs o is_rela is64 p R nd P1 h), zlen_map. reflexivity. }
  pose proof tables_at as (_ & _ & Ta & _). pose proof Htb as Htb'. rewrite <- (secl_hdrs o is_rela is64 p R nd P1 h) in Htb'.
  assert (Hs : has_sections is64 (o_endian o) F (w_layout R) secl (r_data R SShstrtab)).
  { split; [exact Ag|]. split; [|exact shstr_zero]. exists (slot_sec R SShstrtab n4 0 (r_data R SShstrtab)). split; [exact Ta|]. split; [reflexivity|]. discriminate. }
  pose proof (zlen_nonneg secl) as Ln. destruct Htb' as (T1 & T2 & T3). assert (Hd : holds F (ly_shoff (w_layout R)) (enc_null_shdr is64 (o_endian o) (w_layout R) ++ concat (map (enc_shdr is64 (o_endian o)) (map sc_hdr secl)))) by (destruct T3 as [(T3 & _)|(_ & T3)]; [lia|exact T3]).
  destruct (sections_roundtrip _ _ _ _ _ _ _ Hh Hlo Hz Hhd Sn Hd Hs) as (raw & t & E1 & E2 & E3 & E4 & E5 & _).
  destruct (header_roundtrip _ _ _ _ _ Hh Hlo Hz Hhd) as (raw' & G1 & _ & G2 & G3 & _). assert (raw' = raw) by congruence. subst raw'.
  assert (Ak : Forall (shdr_ok is64) (map sc_hdr secl)). { apply Forall_map. eapply Forall_impl; [|exact Ag]. intros x (Q & _). exact Q. }
  destruct (tables_roundtrip _ _ _ _ _ [] (map sc_hdr secl) Hh Hlo Hz Hhd (conj T1 (conj T2 T3)) (Forall_nil _) Ak) as (raw' & G4 & G5 & G6). assert (raw' = raw) by congruence. subst raw'.
  exists raw, t. constructor; try assumption. unfold eh_sections in E2. rewrite G6 in E2. cbn [bind] in E2. mb E2. assert (Hl : stab_sections t = (if ly_section_num (w_layout R) =? 0 then [] else null_shdr (w_layout R) :: map sc_hdr secl)) by (injection E2 as <-; reflexivity).
  rewrite Hl. destruct (Z.eqb_spec (ly_section_num (w_layout R)) 0); [lia|reflexivity].
Qed.
End Reads.
