(** C71, C72, C73: file kinds, universal binaries, short imports. *)
From Verif Require Import Core_proofs Util_proofs File_proofs Hash_proofs Pod_proofs.
From Coq Require Import String.
Local Open Scope string_scope.
Local Open Scope list_scope.
Local Open Scope Z_scope.
From Verif Require Elf_model Mach_model Ar_model Ar_proofs ElfF_model.
From Verif Require Import Fkind_spec Fkind_proofs FkindI_proofs.

(** * C71 *)
(** The kind is exactly the one whose magic the file has at the offset *)
Theorem C71_kind F off k : bytes_ok F -> zlen F < 2 ^ 64 -> 0 <= off -> fkind_parse_at F off = Ok k <-> off + 16 <= zlen F /\ has_kind F off k.
Proof. exact (kind_iff F off k). Qed.
Print Assumptions C71_kind.
Theorem C71_no_panic F off : fkind_parse_at F off <> Panic.
Proof. exact (kind_np F off). Qed.
Print Assumptions C71_no_panic.
Lemma detect F k m : bytes_ok F -> zlen F < 2 ^ 64 -> 16 <= zlen F -> In m (plain_magic k) -> holds F 0 m -> fkind_parse F = Ok k.
Proof. intros B HF L I H. apply (kind_iff F 0 k B HF); [lia|]. split; [lia|]. eapply hk_plain; eassumption. Qed.
(** The files that the readers accept are detected as what they are *)
Theorem C71_elf is64 F f : bytes_ok F -> zlen F < 2 ^ 64 -> ElfF_model.efile_parse is64 F = Ok f -> fkind_parse F = Ok (if is64 then FkElf64 else FkElf32).
Proof.
  intros B HF E. unfold ElfF_model.efile_parse in E. destruct (Elf_model.eh_parse is64 F) as [h| |] eqn:Eh; cbn [bind] in E; try discriminate. clear E.
  unfold Elf_model.eh_parse in Eh. destruct (rr_read_at F 0 (Elf_model.ehdr_size is64)) as [h'| |] eqn:R; cbn [bind] in Eh; try discriminate. apply read_at_ok in R as (Hh & Lh); [|lia|destruct is64; cbn; lia|assumption].
  destruct (Elf_model.eh_supported is64 h') eqn:S; [|discriminate]. unfold Elf_model.eh_supported in S. rewrite !andb_true_iff in S. destruct S as ((((S1 & S2) & S3) & _) & _). apply bytes_eqb_eq in S1.
  assert (L : 52 <= zlen h') by (rewrite Lh; destruct is64; cbn; lia). pose proof (holds_bounds _ _ _ Hh).
  assert (C : fld Little 4 1 h' = if is64 then 2 else 1) by (unfold Elf_model.ei_class in *; destruct is64; cbn [negb orb] in *; lia).
  apply (fld_holds F 0 h' 4 1 1) in C; [|assumption|assumption|lia|lia|reflexivity|lia]. destruct C as (C & _).
  assert (Q : holds F 0 (Elf_model.ELFMAG ++ write_u Little 1 (if is64 then 2 else 1))).
  { apply holds_app. split; [|exact C]. rewrite <- S1. apply holds_iff. rewrite zlen_zslice by lia. split; [lia|]. split; [lia|]. rewrite <- (holds_slice _ _ _ Hh) at 1. rewrite zslice_zslice by lia. reflexivity. }
  assert (I : In (Elf_model.ELFMAG ++ write_u Little 1 (if is64 then 2 else 1)) (plain_magic (if is64 then FkElf64 else FkElf32))) by (destruct is64; left; reflexivity).
  assert (L16 : 16 <= zlen F) by lia. exact (detect F _ _ B HF L16 I Q).
Qed.
Print Assumptions C71_elf.
Theorem C71_macho is64 F h e : bytes_ok F -> zlen F < 2 ^ 64 -> Mach_model.mach_header_parse is64 F 0 = Ok (h, e) -> fkind_parse F = Ok (if is64 then FkMach64 else FkMach32).
Proof.
  intros B HF E. unfold Mach_model.mach_header_parse in E. destruct (rr_read_at F 0 (Mach_model.mach_header_size is64)) as [h'| |] eqn:R; cbn [bind] in E; try discriminate. apply read_at_ok in R as (Hh & Lh); [|lia|destruct is64; cbn; lia|assumption].
  assert (L : 28 <= zlen h') by (rewrite Lh; destruct is64; cbn; lia). pose proof (holds_bounds _ _ _ Hh). 
  destruct (Mach_model.mh_is_little is64 h' || Mach_model.mh_is_big is64 h') eqn:S; [|discriminate].
  assert (Bh : bytes_ok h') by (rewrite <- (holds_slice _ _ _ Hh); apply bytes_ok_zslice; exact B).
  assert (Z4 : zslice 0 4 F = zslice 0 4 h') by (rewrite <- (holds_slice _ _ _ Hh); rewrite zslice_zslice by lia; reflexivity).
  assert (W : write_u Big 4 (Mach_model.mh_magic h') = zslice 0 4 F) by (unfold Mach_model.mh_magic, fld; rewrite write_read_n; [congruence|apply bytes_ok_zslice; exact Bh|rewrite zlen_zslice by lia; reflexivity]).
  assert (Q : holds F 0 (write_u Big 4 (Mach_model.mh_magic h'))) by (apply holds_iff; rewrite zlen_write_u; repeat split; try lia; symmetry; exact W).
  assert (I : In (write_u Big 4 (Mach_model.mh_magic h')) (plain_magic (if is64 then FkMach64 else FkMach32))). { unfold Mach_model.mh_is_little, Mach_model.mh_is_big in S. apply orb_true_iff in S as [S|S]; apply Z.eqb_eq in S; rewrite S; destruct is64; [right; left|right; left|left|left]; reflexivity. }
  assert (L16 : 16 <= zlen F) by lia. exact (detect F _ _ B HF L16 I Q).
Qed.
Print Assumptions C71_macho.
Theorem C71_pe is64 F f : bytes_ok F -> zlen F < 2 ^ 63 -> pe_parse is64 F = Ok f -> fkind_parse F = Ok (if is64 then FkPe64 else FkPe32).
Proof.
  intros B HF E. unfold pe_parse in E. destruct (dos_parse F) as [h| |] eqn:D; cbn [bind] in E; try discriminate.
  destruct (nt_parse is64 F (dos_nt_offset h)) as [[[n d] o]| |] eqn:N; cbn [bind] in E; try discriminate. clear E.
  assert (Hn : 0 <= dos_nt_offset h). { unfold dos_parse in D. destruct (rr_read_at F 0 64) as [h'| |] eqn:R; cbn [bind] in D; try discriminate. apply read_at_ok in R as (Hh & Lh); [|lia..]. destruct (negb _); [discriminate|]. assert (h' = h) as -> by congruence.
    unfold dos_nt_offset, fld. assert (Bh : bytes_ok h) by (rewrite <- (holds_slice _ _ _ Hh); apply bytes_ok_zslice; exact B). apply (read_u_bound Little _ (bytes_ok_zslice 60 4 h Bh)). }
  assert (M : optional_header_magic F = Ok (if is64 then 523 else 267)).
  { unfold optional_header_magic. rewrite D. cbn [bind]. unfold nt_parse in N. rewrite Ar_proofs.rr_read_eq in N; [|lia|exact Hn|destruct is64; cbn; lia].
    destruct (Z.leb_spec (dos_nt_offset h + nt_size is64) (zlen F)) as [L|]; [|discriminate]. assert (Ls : 120 <= nt_size is64) by (destruct is64; cbn; lia).
    rewrite rr_read_at_eq by lia. destruct (Z.leb_spec (dos_nt_offset h + 120) (zlen F)); [|lia]. cbn [bind].
    assert (Fl : forall p k, 0 <= p -> 0 <= k -> p + k <= 120 -> fld Little p k (zslice (dos_nt_offset h) 120 F) = fld Little p k (zslice (dos_nt_offset h) (nt_size is64) F)) by (intros p k K1 K2 K3; unfold fld; rewrite !zslice_zslice by lia; reflexivity).
    rewrite !Fl by lia. destruct (negb _); [discriminate|]. destruct (Z.eqb_spec (fld Little 24 2 (zslice (dos_nt_offset h) (nt_size is64) F)) (if is64 then 523 else 267)) as [->|]; [reflexivity|discriminate]. }
  apply (pe_magic_iff F _ B ltac:(lia)) in M as (nt & Q1 & Q2 & Q3 & Q4 & Q5 & Q6 & Q7 & _). apply (kind_iff F 0 _ B ltac:(lia) ltac:(lia)). split; [lia|]. exact (hk_pe F 0 is64 nt eq_refl Q2 Q1 Q3 Q4 Q5 Q6 Q7).
Qed.
Print Assumptions C71_pe.
(** COFF: only the listed machines, and only version 2 of the big format, which the reader does not insist on *)
Theorem C71_coff F f : bytes_ok F -> zlen F < 2 ^ 63 -> coff_parse false F = Ok f -> In (fld Little 0 2 (cf_header f)) [0x1c4; 0xaa64; 0xa641; 0x1f0; 0x1f1; 0x1f2; 0x14c; 0x8664] -> fkind_parse F = Ok FkCoff.
Proof.
  intros B HF E I. unfold coff_parse in E. destruct (coff_header_parse false F) as [[h o]| |] eqn:D; cbn [bind] in E; try discriminate.
  destruct (coff_sections_parse false h F o) as [l| |]; cbn [bind] in E; try discriminate. destruct (coff_symbols_parse false h F) as [c| |]; cbn [bind] in E; try discriminate. assert (cf_header f = h) as Eh by (assert (f = {| cf_big := false; cf_header := h; cf_sections := l; cf_symbols := c; cf_data := F |}) as -> by congruence; reflexivity). rewrite Eh in I. clear E.
  unfold coff_header_parse in D. rewrite Ar_proofs.rr_read_eq in D; [|lia|lia|cbn; lia]. change (0 + coff_header_size false) with 20 in D. destruct (Z.leb_spec 20 (zlen F)) as [L|]; [|discriminate].
  destruct (of_opt _); cbn [bind] in D; try discriminate. assert (h = zslice 0 20 F) as -> by (change 20 with (coff_header_size false) at 1; congruence).
  unfold fld in I. rewrite zslice_zslice in I by lia.
  assert (W : write_u Little 2 (read_u Little (zslice (0 + 0) 2 F)) = zslice 0 2 F) by (apply write_read_n; [apply bytes_ok_zslice; exact B|rewrite zlen_zslice by lia; reflexivity]).
  assert (Q : holds F 0 (write_u Little 2 (read_u Little (zslice (0 + 0) 2 F)))) by (apply holds_iff; rewrite zlen_write_u; repeat split; try lia; symmetry; exact W).
  apply (detect F FkCoff _ B ltac:(lia) ltac:(lia)) in Q; [exact Q|]. cbn [plain_magic]. apply in_map. exact I.
Qed.
Print Assumptions C71_coff.
Theorem C71_archive F a : bytes_ok F -> zlen F < 2 ^ 63 -> 16 <= zlen F -> Ar_model.ar_parse F = Ok a ->
  fkind_parse F = Ok FkArchive \/ holds F 0 (chars "<bigaf>" ++ [10]) \/ holds F 0 [90; 76; 129; 153; 131; 136; 110; 21].
Proof.
  intros B HF L E. unfold Ar_model.ar_parse in E. rewrite Ar_proofs.rr_read_bytes_eq in E by lia. change (0 + 8) with 8 in E. destruct (Z.leb_spec 8 (zlen F)); [|lia].
  assert (Q : forall m, zlen m = 8 -> bytes_eqb (zslice 0 8 F) m = true -> holds F 0 m) by (intros m Lm Em; apply bytes_eqb_eq in Em; apply holds_iff; rewrite Lm; repeat split; try lia; exact Em).
  destruct (bytes_eqb (zslice 0 8 F) Ar_model.AR_AIX_BIG_MAGIC) eqn:C1; [right; left; apply Q; [reflexivity|exact C1]|]. destruct (bytes_eqb (zslice 0 8 F) Ar_model.AR_ZOS_MAGIC) eqn:C2; [right; right; apply Q; [reflexivity|exact C2]|]. left.
  destruct (bytes_eqb (zslice 0 8 F) Ar_model.AR_THIN_MAGIC) eqn:C3; [apply (detect F _ Ar_model.AR_THIN_MAGIC B ltac:(lia) L); [right; left; reflexivity|apply Q; [reflexivity|exact C3]]|].
  destruct (bytes_eqb (zslice 0 8 F) Ar_model.AR_MAGIC) eqn:C4; [apply (detect F _ Ar_model.AR_MAGIC B ltac:(lia) L); [left; reflexivity|apply Q; [reflexivity|exact C4]]|discriminate].
Qed.
Print Assumptions C71_archive.
(** AIX big archives are accepted by the archive reader but not detected *)
Definition ex_aix : bytes := chars "<bigaf>" ++ [10] ++ concat (repeat (48 :: repeat 32 19) 6).
Theorem C71_aix_refuted : exists F a, bytes_ok F /\ 16 <= zlen F /\ Ar_model.ar_parse F = Ok a /\ fkind_parse F = Err.
Proof. exists ex_aix. eexists. split; [apply bytes_ok_forallb; vm_compute; reflexivity|]. split; [vm_compute; congruence|]. split; [vm_compute; reflexivity|vm_compute; reflexivity]. Qed.
Print Assumptions C71_aix_refuted.
Example C71_ex : fkind_parse (fat_file false [{| ft_cputype := 7; ft_cpusubtype := 3; ft_offset := 4096; ft_size := 100; ft_align := 12; ft_reserved := 0 |}]) = Ok FkFat32.
Proof. vm_compute. reflexivity. Qed.

(** * C72 *)
Theorem C72_fat is64 F l : bytes_ok F -> zlen F < 2 ^ 63 -> fat_parse is64 F = Ok l <-> holds F 0 (fat_file is64 l) /\ Forall (fatarch_ok is64) l /\ u32_ok (zlen l).
Proof. exact (fat_iff is64 F l). Qed.
Print Assumptions C72_fat.
Theorem C72_no_panic is64 F : fat_parse is64 F <> Panic.
Proof. exact (fat_np is64 F). Qed.
Print Assumptions C72_no_panic.
Theorem C72_data (is64 : bool) a F d : fatarch_ok is64 a -> fat_data a F = Ok d <-> zlen d = ft_size a /\ (d = [] \/ holds F (ft_offset a) d).
Proof.
  intros (_ & _ & _ & H). assert (Ho : 0 <= ft_offset a) by (destruct is64; unfold u32_ok, u64_ok in H; lia). assert (Hs : 0 <= ft_size a) by (destruct is64; unfold u32_ok, u64_ok in H; lia).
  unfold fat_data. rewrite rr_read_bytes_at_Ok by lia. split.
  - intros [(E & ->)|(E1 & E2 & ->)]; [split; [rewrite E; reflexivity|left; reflexivity]|]. assert (L : zlen (zslice (ft_offset a) (ft_size a) F) = ft_size a) by (apply zlen_zslice; lia). split; [exact L|]. right. apply holds_iff. rewrite L. auto.
  - intros (L & [->|K]); [left; split; [rewrite <- L; reflexivity|reflexivity]|]. pose proof (zlen_nonneg d). destruct (Z.eq_dec (ft_size a) 0) as [E|N]; [left; split; [exact E|apply zlen_0_nil; lia]|]. right. pose proof (holds_bounds _ _ _ K). split; [lia|]. split; [lia|]. rewrite <- L. symmetry. apply holds_slice. exact K.
Qed.
Print Assumptions C72_data.
Theorem C72_kind is64 F l : bytes_ok F -> zlen F < 2 ^ 63 -> 16 <= zlen F -> fat_parse is64 F = Ok l -> fkind_parse F = Ok (if is64 then FkFat64 else FkFat32).
Proof.
  intros B HF L E. apply (fat_iff is64 F l B HF) in E as (H & _). unfold fat_file in H. apply holds_app in H as (H & _). apply (detect F _ _ B ltac:(lia) L) with (2 := H). destruct is64; left; reflexivity.
Qed.
Print Assumptions C72_kind.
Definition ex_fat : bytes := fat_file true [{| ft_cputype := 16777228; ft_cpusubtype := 0; ft_offset := 72; ft_size := 3; ft_align := 3; ft_reserved := 0 |}; {| ft_cputype := 16777223; ft_cpusubtype := 3; ft_offset := 75; ft_size := 0; ft_align := 0; ft_reserved := 0 |}] ++ [1; 2; 3].
Example C72_ex : bytes_ok ex_fat /\ match fat_parse true ex_fat with Ok l => map (fun a => (fat_arch a, fat_data a ex_fat)) l | _ => [] end = [(AAarch64, Ok [1; 2; 3]); (AX86_64, Ok [])].
Proof. split; [apply bytes_ok_forallb; vm_compute; reflexivity|vm_compute; reflexivity]. Qed.

(** * C73 *)
Theorem C73_import F f : bytes_ok F -> zlen F < 2 ^ 63 ->
  import_parse F = Ok f <-> exists s, shortimport_ok s /\ u32_ok (zlen (shortimport_data s)) /\ holds F 0 (shortimport_enc s) /\ shows_import s f.
Proof. exact (import_iff F f). Qed.
Print Assumptions C73_import.
Theorem C73_no_panic F : import_parse F <> Panic.
Proof. exact (import_np F). Qed.
Print Assumptions C73_no_panic.
Theorem C73_kind F f : bytes_ok F -> zlen F < 2 ^ 63 -> import_parse F = Ok f -> fkind_parse F = Ok FkCoffImport.
Proof.
  intros B HF E. apply (import_iff F f B HF) in E as (s & _ & _ & H & _). pose proof (holds_bounds _ _ _ H) as L. rewrite imp_enc, zlen_app, imp_hdr_len in L. pose proof (zlen_nonneg (shortimport_data s)).
  unfold shortimport_enc in H. apply holds_app in H as (H & _). apply (detect F _ _ B ltac:(lia) ltac:(lia)) with (2 := H). left. reflexivity.
Qed.
Print Assumptions C73_kind.
(** a decorated stdcall function *)
Definition ex_imp : shortimport := {| si_machine := 332; si_time := 0; si_ordinal := 7; si_type := 0; si_name_type := 3; si_reserved := 0; si_symbol := chars "_f@8"; si_dll := chars "k.dll"; si_export := None; si_junk := [] |}.
Example C73_ex_hyps : shortimport_ok ex_imp /\ bytes_ok (shortimport_enc ex_imp).
Proof. split; [|apply bytes_ok_forallb; vm_compute; reflexivity]. unfold shortimport_ok, u16_ok, u32_ok, str0. cbn [ex_imp si_machine si_time si_ordinal si_type si_name_type si_reserved si_symbol si_dll si_export]. repeat (split; [lia|]). split; [vm_compute; intuition congruence|]. split; [vm_compute; intuition congruence|lia]. Qed.
Example C73_ex : match import_parse (shortimport_enc ex_imp) with Ok f => Some (im_arch f, im_symbol f, im_dll f, im_name f) | _ => None end = Some (AI386, chars "_f@8", chars "k.dll", InName (chars "f")).
Proof. vm_compute. reflexivity. Qed.
