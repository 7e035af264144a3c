(** Mach-O writer: the properties. *)
From Coq Require Import Sorted.
From Verif Require Import Base Core_proofs Util_proofs Pod_proofs File_proofs Hash_proofs Rel_proofs Str_proofs Ar_proofs Kind_proofs Coff_spec CoffW_proofs CoffR_proofs CoffI_proofs.
From Verif Require Import Mach_proofs MachF_proofs MachP_proofs MachW_spec MachW_proofs MachWS_proofs MachWF_proofs MachWR_proofs MachWT_proofs.

(** * C61 What is written can be read back *)
(** Everything the reader sees of a written file [F], for an object [o]. *)
Definition reads_back (o : obj) (p : mopts) (F : bytes) : Prop :=
  exists (is64 : bool) f (locals externals undefineds : list Z),
    address_size (o_arch o) = Some (if is64 then 8 else 4) /\
    mach_parse is64 F = Ok f /\ reads_header o p f /\
    symbol_order o locals externals undefineds /\
    Forall2 (reads_section F) (mf_sections f) (o_sections o) /\
    (exists g, mf_segments f = [g] /\ disjoint_sections (g_vmsize g) (map xi_sec (mf_sections f))) /\
    Forall2 (fun n i => exists y, zget (o_symbols o) i = Some y /\ reads_symbol is64 f n y /\ (sy_flags y = None -> reports_symbol n y))
      (mt_symbols (mf_symbols f)) (locals ++ externals ++ undefineds) /\
    (o_endian o = Little -> Forall2 (fun x s => forall c, cpu_type (o_arch o) = Some c -> Forall (mrel_in c) (se_relocs s) ->
        reads_relocs c o (locals ++ externals ++ undefineds) F x s) (mf_sections f) (o_sections o)) /\
    exists it l it', mach_load_commands is64 (mf_endian f) (mf_header f) F 0 = Ok it /\ runs (lc_next (mf_endian f)) it l false it' /\
      (exists c, In c l /\ dysymtab_says (mf_endian f) c (zlen locals) (zlen externals) (zlen undefineds)) /\
      forall platform minos sdk, mo_build p = Some (platform, minos, sdk) -> exists c, In c l /\ build_says (mf_endian f) c platform minos sdk.
Theorem C61_round_trip o p F : mach_ok o p -> mach_write o p = Ok F -> reads_back o p F.
Proof.
  intros OK E. destruct (write_inv o p F OK E) as (w & is64 & c & s & P & Ew & E64 & PO).
  pose proof (cpu_ok _ _ _ _ (po_cpu F P PO)) as (C1 & _).
  exists is64, (w_f o p F is64 c s P), (pt_locals P), (pt_externals P), (pt_undefineds P). split.
  { rewrite Ew. rewrite E64. f_equal. clear - C1 Ew. destruct (o_arch o); try discriminate; injection Ew as <-; reflexivity. }
  split; [exact (w_parse o p F is64 c s P OK PO)|]. split; [exact (w_header o p F is64 c s P OK PO)|]. split; [exact (w_order o p F is64 c s P OK PO)|].
  split; [exact (w_sections o p F is64 c s P OK PO)|]. split; [exists (pt_g P); split; [reflexivity|exact (w_disjoint o p F is64 c s P OK PO)]|].
  split; [exact (w_symbols o p F is64 c s P OK PO)|]. split.
  - intros El. eapply Forall2_imp; [|exact (w_relocs o p F is64 c s P OK PO El)]. cbn beta. intros x y H c' Hc. rewrite C1 in Hc. injection Hc as <-. exact H.
  - destruct (w_load_commands o p F is64 c s P OK PO) as (it & it' & H1 & H2). exists it, (w_l o p is64 c s P), it'. cbn [mf_endian w_f]. split; [exact H1|]. split; [exact H2|]. split.
    + eexists. exact (w_dysymtab o p F is64 c s P PO).
    + intros a b d Eb. exact (w_build o p is64 c s P OK a b d Eb).
Qed.
Print Assumptions C61_round_trip.
(** An example: a text section with a relocation that has an addend, zero-initialised data, five symbols (one of them for a section), a build version. *)
Definition ex_y n v sz k sc w s f : osym := {| sy_name := str n; sy_value := v; sy_size := sz; sy_kind := k; sy_scope := sc; sy_weak := w; sy_section := s; sy_flags := f |}.
Definition ex_o : obj := {| o_format := FMachO; o_arch := AAarch64; o_endian := Little;
  o_sections := [{| se_segment := str "__TEXT"; se_name := str "__text"; se_kind := SKText; se_size := 8; se_align := 4; se_data := [1; 2; 3; 4; 5; 6; 7; 8];
      se_relocs := [{| ol_offset := 0; ol_symbol := 1; ol_sub := None; ol_addend := 4; ol_flags := RFmacho 2 true 2 |};
                    {| ol_offset := 4; ol_symbol := 2; ol_sub := None; ol_addend := 0; ol_flags := RFmacho 2 true 2 |}]; se_symbol := None; se_flags := SFNone |};
    {| se_segment := str "__DATA"; se_name := str "__bss"; se_kind := SKUninitializedData; se_size := 3; se_align := 16; se_data := []; se_relocs := []; se_symbol := None; se_flags := SFNone |}];
  o_std := []; o_symbols := [ex_y "_b" 2 0 YText ScDynamic false (YSec 0) None; ex_y "_x" 0 0 YText ScUnknown false YUndefined None; ex_y "_a" 4 0 YText ScLinkage true (YSec 0) None;
    ex_y "l" 1 0 YData ScCompilation false (YSec 1) None; ex_y "_c" 0 8 YData ScLinkage false YCommon None];
  o_map := []; o_comdats := []; o_prefix := None; o_stubs := []; o_tlv := None; o_subsections := true |}.
Definition ex_p : mopts := {| mo_sub := None; mo_cpusub := None; mo_flags := None; mo_build := Some (1, 0xa0000, 0xb0000) |}.
Example C61_ex : (F <- mach_write ex_o ex_p ;; f <- mach_parse true F ;; names <- map_m (fun n st => x <- my_name f n ;; Ok (x, st)) (mt_symbols (mf_symbols f)) tt ;;
    Ok (zlen F, map (fun x => ms_name (xi_sec x)) (mf_sections f), fst names)) =
  Ok (520, [str "__text"; str "__bss"], [str "l"; str "_a"; str "_b"; str "_c"; str "_x"]).
Proof. vm_compute. reflexivity. Qed.
Lemma str_ok_b s : forallb (fun x => (1 <=? x) && (x <? 256)) s = true -> str_ok s.
Proof.
  intros H. assert (A : Forall (fun x => 1 <= x < 256) s) by (apply Forall_forall; intros x Hx; pose proof (proj1 (forallb_forall _ _) H x Hx) as H'; cbn beta in H'; lia).
  split; [eapply Forall_impl; [|exact A]; cbn beta; intros z Hz; try unfold byte_ok; lia|]. intros Hi. rewrite Forall_forall in A. specialize (A 0 Hi). lia.
Qed.
Example C61_ex_hyps : mach_ok ex_o ex_p /\ exists F, mach_write ex_o ex_p = Ok F.
Proof.
  split; [|eexists; vm_compute; reflexivity]. unfold mach_ok, ex_o, ex_p. cbn [o_sections o_symbols mo_cpusub mo_flags mo_build].
  repeat match goal with
  | |- _ /\ _ => split
  | |- Forall _ (_ :: _) => constructor
  | |- Forall _ [] => constructor
  | |- msec_in _ => unfold msec_in; cbn [se_name se_segment se_data se_size se_align se_kind se_flags]
  | |- msym_in _ _ => unfold msym_in, ex_y; cbn [sy_name sy_value sy_size sy_section sy_flags o_sections]
  | |- str_ok _ => apply str_ok_b; reflexivity
  | |- bytes_ok _ => apply bytes_ok_forallb; reflexivity
  | |- pow2 4 => exists 2
  | |- pow2 16 => exists 4
  | |- forall _, _ => intros
  end; try lia; try discriminate; try reflexivity; try (unfold zlen; cbn; lia).
  all: repeat match goal with H : YSec _ = YSec _ |- _ => injection H as <- | H : Some _ = Some _ |- _ => injection H as <- <- <- | H : Some _ = Some _ |- _ => injection H as <- | |- u32_ok _ => unfold u32_ok end; try (unfold zlen; cbn; lia); lia.
Qed.
