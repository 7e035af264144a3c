(** ELF object writer: the property. *)
From Verif Require Import Base Core_spec Core_proofs Str_spec Str_proofs Buf_proofs Map_proofs Util_proofs File_spec File_proofs Hash_proofs Pod_proofs Elf_proofs ElfR_proofs MachW_proofs.
From Verif Require CoffW_proofs MachP_proofs.
From Verif Require Import ElfF_spec ElfF_proofs ElfG_proofs ElfH_proofs ElfK_proofs.
From Verif Require Import ElfW_spec ElfWR_proofs ElfO_model ElfO_proofs ElfOB_proofs ElfOC_proofs ElfO_spec ElfOJ_proofs ElfON_proofs ElfOO_proofs ElfOP_proofs.

Lemma machine_u16 a m : elf_machine a = Ok m -> u16_ok m.
Proof. destruct a; intros E; vm_compute in E; try discriminate E; injection E as <-; unfold u16_ok; lia. Qed.
Lemma e_flags_u32 a fl : u32_ok fl -> u32_ok (elf_e_flags a fl).
Proof. intros H. unfold u32_ok in *. destruct a; cbn [elf_e_flags]; try exact H; (apply lor_bound; [lia|exact H|lia]). Qed.

(** * C66 What is written can be read back *)
Theorem C66_round_trip o t F is64 is_rela :
  elf_has_addend (o_arch o) = Ok is_rela -> elf_is_64 (o_arch o) = Ok is64 -> object_fits is64 is_rela o -> flags_fit t ->
  elf_write o t = Ok F -> exists f, reads_back o t is64 is_rela F f.
Proof.
  intros Ha H6 Fit Ff W. unfold elf_write in W. rewrite Ha, H6 in W. cbn [bind] in W.
  destruct (ew_reserve o is_rela is64) as [[p R]| |] eqn:Er; cbn [bind] in W; try discriminate W.
  destruct (eo_sub t); [discriminate W|]. destruct (elf_machine (o_arch o)) as [m| |] eqn:Em; cbn [bind] in W; try discriminate W.
  destruct (phase1_inv o is_rela is64 p R Er) as (nd & [P1]).
  assert (Few := of_few _ _ _ Fit).
  assert (Sok : Forall (fun s : osec => bytes_ok (se_name s) /\ good_align (se_align s)) (o_sections o)).
  { eapply Forall_impl; [|exact (of_sections _ _ _ Fit)]. cbn beta. intros s Hs. split; [exact (sf_name _ _ Hs)|exact (sf_align _ _ Hs)]. }
  assert (Yok : Forall (fun y : osym => bytes_ok (sy_name y)) (o_symbols o)).
  { eapply Forall_impl; [|exact (of_symbols _ _ _ Fit)]. cbn beta. intros s Hs. exact (yf_name _ _ Hs). }
  assert (exists abi ver fl, match eo_flags t with Some g => g | None => (0, 0, 0) end = (abi, ver, fl) /\ 0 <= abi < 256 /\ 0 <= ver < 256 /\ u32_ok fl)
    as (abi & ver & fl & Ef & B1 & B2 & B3).
  { unfold flags_fit in Ff. destruct (eo_flags t) as [[[abi ver] fl]|]; do 3 eexists; (split; [reflexivity|]); [exact Ff|unfold u32_ok; lia]. }
  rewrite Ef in W.
  set (h := {| fh_os_abi := abi; fh_abi_version := ver; fh_type := 1; fh_machine := m; fh_entry := 0; fh_flags := elf_e_flags (o_arch o) fl |}) in *.
  assert (Hh : fhdr_ok is64 h).
  { unfold fhdr_ok, h; cbn [fh_os_abi fh_abi_version fh_type fh_machine fh_entry fh_flags]. split; [exact B1|]. split; [exact B2|]. split; [unfold u16_ok; lia|].
    split; [exact (machine_u16 _ _ Em)|]. split; [destruct is64; cbv [word_ok u32_ok u64_ok]; lia|exact (e_flags_u32 _ _ B3)]. }
  destruct (tables_in o is_rela is64 p R nd P1 Few Sok Yok h F W Hh) as (n1 & n2 & n3 & n4 & N1 & N2 & N3 & N4 & Hhd & Htb & Hlo & Hsn & HLn & Hrl & H32).
  destruct (shown_ok o is_rela is64 p R nd P1 Few Sok Yok h F W Fit n1 n2 n3 n4 N1 N2 N3 N4 Hh Hhd Htb Hlo Hsn HLn Hrl H32) as (raw & tb & Sh).
  assert (BF : bytes_ok F).
  { eapply (write_bytes o R p is_rela is64 h F); [|exact Hh|exact (proj1 (consts o is_rela is64 p R nd P1))| |exact W].
    - destruct (run_all _ _ _ _ _ _ P1) as (vs & Hv). eapply run_tabs; [exact Hv| |apply tabs_new]. exact (io_calls _ (ordered o is_rela is64 p R nd P1 Few Sok Yok)).
    - eapply Forall_impl; [|exact (of_sections _ _ _ Fit)]. cbn beta. intros s Hs. exact (sf_data _ _ Hs). }
  eapply shown_back; [exact Ef|exact Em|exact Sh|lia|exact BF|exact Fit].
Qed.
Print Assumptions C66_round_trip.

(** The architecture, and with it the class of the file, is the object's (on MIPS the flags given must not claim the N32 ABI). *)
Theorem C66_architecture o t F is64 is_rela :
  elf_has_addend (o_arch o) = Ok is_rela -> elf_is_64 (o_arch o) = Ok is64 -> object_fits is64 is_rela o -> flags_fit t ->
  elf_write o t = Ok F -> (o_arch o = AMips -> forall a v fl, eo_flags t = Some (a, v, fl) -> Z.land fl 32 <> 32) ->
  exists f, efile_parse is64 F = Ok f /\ ef_architecture is64 f = o_arch o.
Proof.
  intros Ha H6 Fit Ff W Hm. destruct (C66_round_trip o t F is64 is_rela Ha H6 Fit Ff W) as (f & B). exists f. split; [exact (rb_parse _ _ _ _ _ _ B)|].
  destruct (rb_arch _ _ _ _ _ _ B) as (m & Em & ->). pose proof (rb_flags _ _ _ _ _ _ B) as Bf.
  destruct (match eo_flags t with Some g => g | None => (0, 0, 0) end) as [[abi ver] fl] eqn:Ef. rewrite Bf. cbn [snd].
  destruct (Kind_proofs.elf_arch_round_trip (o_arch o) m fl Em) as (c & Hc & E).
  - intros A. specialize (Hm A). destruct (eo_flags t) as [[[x y] z]|]; injection Ef as <- <- <-; [exact (Hm _ _ _ eq_refl)|discriminate].
  - rewrite Hc in H6. injection H6 as ->. exact E.
Qed.
Print Assumptions C66_architecture.

(** An example: a group of a text section with a relocation, zero-initialised data, a section with given flags, six symbols (one of them for a
    section, one undefined, one common, one absolute). *)
Definition ex_y n v sz k sc w s f : osym := {| sy_name := str n; sy_value := v; sy_size := sz; sy_kind := k; sy_scope := sc; sy_weak := w; sy_section := s; sy_flags := f |}.
Definition ex_o : obj := {| o_format := FElf; o_arch := AX86_64; o_endian := Little;
  o_sections := [{| se_segment := []; se_name := str ".text.a"; se_kind := SKText; se_size := 8; se_align := 16; se_data := [1; 2; 3; 4; 5; 6; 7; 8];
      se_relocs := [{| ol_offset := 4; ol_symbol := 1; ol_sub := None; ol_addend := -4; ol_flags := RFelf 2 |}]; se_symbol := Some 2; se_flags := SFNone |};
    {| se_segment := []; se_name := str ".bss"; se_kind := SKUninitializedData; se_size := 3; se_align := 4; se_data := []; se_relocs := []; se_symbol := None; se_flags := SFNone |};
    {| se_segment := []; se_name := str ".x"; se_kind := SKData; se_size := 2; se_align := 1; se_data := [7; 7]; se_relocs := []; se_symbol := None; se_flags := SFElf 1 48 |}];
  o_std := []; o_symbols := [ex_y "a" 2 6 YText ScDynamic false (YSec 0) None; ex_y "u" 0 0 YText ScUnknown false YUndefined None; ex_y "" 0 0 YSection ScCompilation false (YSec 0) None;
    ex_y "l" 1 2 YData ScCompilation false (YSec 1) None; ex_y "c" 8 4 YData ScLinkage false YCommon None; ex_y "abs" 77 0 YData ScLinkage true YAbsolute (Some (YFElf 33 2))];
  o_map := []; o_comdats := [{| oc_kind := 1; oc_symbol := 0; oc_sections := [0] |}]; o_prefix := None; o_stubs := []; o_tlv := None; o_subsections := false |}.
Definition ex_t : eopts := {| eo_sub := None; eo_flags := Some (3, 1, 5) |}.
Example C66_ex : (F <- elf_write ex_o ex_t ;; f <- efile_parse true F ;; 
    secs <- CoffW_model.map_m (fun x st => n <- es_name f (snd x) ;; Ok (n, st)) (ef_all_sections f) tt ;;
    syms <- CoffW_model.map_m (fun x st => n <- symbol_name (ef_symbols f) x ;; Ok (n, st)) (smt_symbols (ef_symbols f)) tt ;;
    Ok (zlen F, ef_architecture true f, fst secs, fst syms)) =
  Ok (936, AX86_64, [str ".group"; str ".text.a"; str ".rela.text.a"; str ".bss"; str ".x"; str ".symtab"; str ".strtab"; str ".shstrtab"], [[]; []; str "l"; str "a"; str "u"; str "c"; str "abs"]).
Proof. vm_compute. reflexivity. Qed.

Example C66_ex_hyps : elf_has_addend (o_arch ex_o) = Ok true /\ elf_is_64 (o_arch ex_o) = Ok true /\ object_fits true true ex_o /\ flags_fit ex_t /\ exists F, elf_write ex_o ex_t = Ok F.
Proof.
  split; [reflexivity|]. split; [reflexivity|]. split; [|split; [vm_compute; intuition congruence|eexists; vm_compute; reflexivity]].
  constructor.
  - vm_compute. reflexivity.
  - unfold ex_o; cbn [o_sections]. repeat (apply Forall_cons || apply Forall_nil); constructor; cbn [se_name se_data se_align se_size se_flags se_kind no_data is_bss];
      try (apply bytes_ok_forallb; vm_compute; reflexivity); try (unfold word_ok, u64_ok; lia); try (right; first [exists 4; split; [lia|reflexivity]|exists 2; split; [lia|reflexivity]]); try (left; lia); try reflexivity; try (intros ? ? E; discriminate E).
    intros t f E. injection E as <- <-. split; [split; [unfold u32_ok; lia|cbn; intuition lia]|unfold word_ok, u64_ok; lia].
  - unfold ex_o, ex_y; cbn [o_symbols]. repeat (apply Forall_cons || apply Forall_nil); constructor; cbn [sy_name sy_value sy_size sy_flags];
      try (apply bytes_ok_forallb; vm_compute; reflexivity); try (unfold word_ok, u64_ok; lia); try (intros ? ? E; discriminate E).
    intros i k E. injection E as <- <-. lia.
  - unfold ex_o; cbn [o_sections]. repeat (apply Forall_cons || apply Forall_nil); cbn [se_relocs]; repeat (apply Forall_cons || apply Forall_nil).
    intros t E. cbn [ol_flags] in E. injection E as <-. vm_compute. intuition congruence.
Qed.
