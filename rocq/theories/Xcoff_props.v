(** XCOFF: the properties. *)
From Verif Require Import Core_proofs Util_proofs File_proofs Str_proofs Hash_proofs Pod_proofs.
From Verif Require MachWR_proofs Pe_proofs PeI_proofs Mach_proofs Ar_spec Ar_proofs CoffR_proofs CoffI_proofs CoffW_proofs MachQ_proofs Mach_spec Fkind_proofs Rel_proofs.
From Verif Require Import Xcoff_spec Xcoff_proofs XcoffR_proofs XcoffW_proofs XcoffB_proofs XcoffC_proofs.

(** * The example: an object that is written for both word sizes *)
Definition ex_y n v sz k sc w s f : osym := {| sy_name := str n; sy_value := v; sy_size := sz; sy_kind := k; sy_scope := sc; sy_weak := w; sy_section := s; sy_flags := f |}.
Definition ex_r o y t z : orel := {| ol_offset := o; ol_symbol := y; ol_sub := None; ol_addend := 0; ol_flags := RFxcoff t z |}.
Definition ex_s n k d r f : osec := {| se_segment := []; se_name := str n; se_kind := k; se_size := zlen d; se_align := 4; se_data := d; se_relocs := r; se_symbol := None; se_flags := f |}.
Definition ex_o (a : arch) : obj := {| o_format := FCoff; o_arch := a; o_endian := Big;
  o_sections := [ex_s ".text" SKText [1; 2; 3; 4; 5; 6] [ex_r 0 1 0 31; ex_r 2 3 3 15] SFNone; ex_s ".data" SKData [9; 8; 7] [ex_r 1 2 0 31] SFNone; ex_s ".debug" SKDebug [5] [] (SFOther 65552)];
  o_std := []; o_symbols := [ex_y "a.c" 0 0 YFile ScCompilation false YNone None; ex_y "main" 2 4 YText ScDynamic false (YSec 0) None; ex_y "a_long_name" 1 2 YData ScLinkage true (YSec 1) None;
    ex_y "ext" 0 0 YText ScUnknown false YUndefined None; ex_y "label" 4 0 YText ScDynamic false (YSec 0) (Some (YFOther 7))];
  o_map := []; o_comdats := []; o_prefix := None; o_stubs := []; o_tlv := None; o_subsections := false |}.
Definition ex_xy (v : Z) : option xyflags := if v =? 7 then Some {| yx_type := 32; yx_class := 107; yx_smtyp := 2; yx_smclas := 0; yx_csect := Some 1 |} else None.
Definition ex_file (is64 : bool) : bytes := match xcoff_write ex_xy (ex_o (if is64 then APowerPc64 else APowerPc)) 0 with Ok F => F | _ => [] end.
Lemma ex_bytes is64 : bytes_ok (ex_file is64).
Proof. destruct is64; apply bytes_ok_forallb; vm_compute; reflexivity. Qed.
Definition ex_f (is64 : bool) : xfile := match xc_parse is64 (ex_file is64) with Ok f => f | _ => {| xf_64 := is64; xf_header := xhdr_of is64 []; xf_aux := None; xf_sections := []; xf_symbols := {| xt_64 := is64; xt_entries := []; xt_strings := (None, 0, 0) |}; xf_data := [] |} end.

(** * C74 Parsing *)
Theorem C74_parse is64 F f : bytes_ok F -> zlen F < 2 ^ 63 -> xc_parse is64 F = Ok f <-> xfile_of is64 F f.
Proof. exact (xc_parse_iff is64 F f). Qed.
Print Assumptions C74_parse.
Theorem C74_no_panic is64 F : bytes_ok F -> zlen F < 2 ^ 63 -> xc_parse is64 F <> Panic.
Proof. exact (xc_parse_np is64 F). Qed.
Print Assumptions C74_no_panic.
Example C74_ex is64 : exists f, xc_parse is64 (ex_file is64) = Ok f /\ zlen (xf_sections f) = 3 /\ zlen (xt_entries (xf_symbols f)) = 10 /\ xf_arch f = (if is64 then APowerPc64 else APowerPc) /\ xf_kind f = XRelocatable.
Proof. exists (ex_f is64). destruct is64; (split; [vm_compute; reflexivity|]); vm_compute; repeat split. Qed.
Example C74_ex_hyps is64 : bytes_ok (ex_file is64) /\ zlen (ex_file is64) < 2 ^ 63 /\ xfile_of is64 (ex_file is64) (ex_f is64).
Proof.
  assert (L : zlen (ex_file is64) < 2 ^ 63) by (destruct is64; vm_compute; reflexivity). split; [apply ex_bytes|]. split; [exact L|].
  apply C74_parse; [apply ex_bytes|exact L|]. destruct is64; vm_compute; reflexivity.
Qed.

(** * C75 Sections *)
Theorem C75_data is64 F f s d : bytes_ok F -> zlen F < 2 ^ 63 -> xc_parse is64 F = Ok f -> In s (xf_sections f) -> xs_data f s = Ok d <-> sec_data f s d.
Proof. intros B L E. apply xc_parse_iff in E; [|assumption..]. apply (xs_data_iff is64 F f s d B L E). Qed.
Print Assumptions C75_data.
(** Relocations: if they cannot be read the iterator is empty. *)
Theorem C75_relocations is64 F f s : bytes_ok F -> zlen F < 2 ^ 63 -> xc_parse is64 F = Ok f -> In s (xf_sections f) ->
  (forall rs, xs_relocations f s = Ok rs <-> sec_relocs f s rs) /\
  (forall rs, sec_relocs f s rs -> xs_relocs f s = Ok (map (fun r => (xr_vaddr r, xr_symndx r, xcoff_parse (xr_rtype r) (xr_rsize r))) rs)) /\
  ((forall rs, ~ sec_relocs f s rs) -> xs_relocs f s = Ok []).
Proof.
  intros B L E. apply xc_parse_iff in E; [|assumption..]. intro Hi. assert (I : forall rs, xs_relocations f s = Ok rs <-> sec_relocs f s rs) by (intro; apply (xs_relocations_iff is64 F); assumption).
  split; [exact I|]. split.
  - intros rs H. apply I in H. unfold xs_relocs. rewrite H. reflexivity.
  - intros H. unfold xs_relocs. destruct (xs_relocations f s) as [rs| |] eqn:Q; [|reflexivity|destruct (xs_np f s) as (_ & N & _); contradiction]. destruct (H rs (proj1 (I rs) eq_refl)).
Qed.
Print Assumptions C75_relocations.
Theorem C75_no_panic f s : xs_data f s <> Panic /\ xs_relocations f s <> Panic /\ xs_relocs f s <> Panic.
Proof. exact (xs_np f s). Qed.
Print Assumptions C75_no_panic.
(** Names and kinds; lookup by index (the first section has index 1) and by name. *)
Theorem C75_lookup is64 F f : bytes_ok F -> zlen F < 2 ^ 63 -> xc_parse is64 F = Ok f ->
  (forall s, In s (xf_sections f) -> padded (xs_name s) (xs_name_bytes s) /\ flag_kind (xs_flags s) kind_bits (xs_kind s)) /\
  (forall i s, 0 <= i < 2 ^ 64 -> xf_section f i = Ok s <-> 1 <= i /\ zget (xf_sections f) (i - 1) = Some s) /\
  (forall q i s, xf_section_by_name f q = Some (i, s) <->
     zget (xf_sections f) (i - 1) = Some s /\ xs_name_bytes s = q /\ forall j z, 0 <= j < i - 1 -> zget (xf_sections f) j = Some z -> xs_name_bytes z <> q) /\
  (forall q, xf_section_by_name f q = None <-> Forall (fun s => xs_name_bytes s <> q) (xf_sections f)).
Proof.
  intros B L E. apply xc_parse_iff in E; [|assumption..]. split; [|split; [|split]].
  - intros s Hs. split; [apply padded_until|apply xs_kind_flags].
  - intros i s Hi. apply xf_section_iff; [exact Hi|]. destruct E as (_ & _ & (H & _) & _ & _ & K & _). unfold u16_ok in H. lia.
  - intros. apply by_name_iff.
  - intros. apply by_name_none.
Qed.
Print Assumptions C75_lookup.
Example C75_ex is64 : map (fun s => (xs_name_bytes s, xs_kind s, xs_data (ex_f is64) s)) (xf_sections (ex_f is64)) =
    [(str ".text", SKText, Ok [1; 2; 3; 4; 5; 6]); (str ".data", SKData, Ok [9; 8; 7]); (str ".debug", SKDebug, Ok [5])] /\
  map (xs_relocs (ex_f is64)) (firstn 1 (xf_sections (ex_f is64))) = [Ok [(0, 2, xcoff_parse 0 31); (2, 6, xcoff_parse 3 15)]].
Proof. destruct is64; vm_compute; split; reflexivity. Qed.
Example C75_ex_hyps : exists s d, In s (xf_sections (ex_f false)) /\ sec_data (ex_f false) s d /\ d <> [].
Proof.
  destruct (xf_sections (ex_f false)) as [|s l] eqn:E; [exfalso; vm_compute in E; discriminate|]. exists s, [1; 2; 3; 4; 5; 6]. split; [left; reflexivity|]. split; [|discriminate].
  apply (C75_data false (ex_file false) (ex_f false)); [apply ex_bytes|vm_compute; reflexivity|vm_compute; reflexivity|rewrite E; left; reflexivity|]. vm_compute in E. assert (Q : s = hd s (s :: l)) by reflexivity. rewrite <- E in Q. cbn [hd] in Q. rewrite Q. vm_compute. reflexivity.
Qed.

(** * C76 Symbols *)
(** The iterator gives the symbols that the walk visits, and ends. *)
Theorem C76_symbols is64 F f : bytes_ok F -> zlen F < 2 ^ 63 -> xc_parse is64 F = Ok f ->
  let t := xf_symbols f in
  (exists l k, xwalk t 0 l k /\ forall l' k', xwalk t 0 l' k' -> l' = l /\ k' = k) /\
  (forall l k, xwalk t 0 l k -> runs (xt_next t) 0 l false k /\ Forall (fun p => 0 <= fst p /\ entry t (fst p) (snd p) /\ xy_class (snd p) <> 0) l) /\
  (forall i y, 0 <= i < 2 ^ 64 -> xt_symbol t i = Ok y <-> entry t i y /\ xy_class y <> 0) /\
  (forall i, 0 <= i < zlen (xt_entries t) -> exists y, entry t i y).
Proof.
  intros B L E. apply xc_parse_iff in E; [|assumption..]. pose proof (file_tab_ok is64 F f B L E) as T. cbv zeta. split; [|split; [|split]].
  - destruct (xwalk_exists _ T 0 (Z.le_refl 0)) as (l & k & W). exists l, k. split; [exact W|]. intros l' k' W'. destruct (xwalk_det _ _ _ _ W _ _ W'). auto.
  - intros l k W. split; [apply xwalk_runs; [exact T|lia|exact W]|apply (xwalk_entries _ _ _ _ W)].
  - intros i y Hi. apply symbol_iff; assumption.
  - intros i Hi. apply entry_exists; assumption.
Qed.
Print Assumptions C76_symbols.
(** The name, and what is reported from the csect, for each symbol. *)
Theorem C76_reports is64 F f i y : bytes_ok F -> zlen F < 2 ^ 63 -> xc_parse is64 F = Ok f -> let t := xf_symbols f in
  entry t i y -> xy_class y <> 0 ->
  (forall n, xy_name t i y = Ok n <-> sym_name t i y n) /\
  (forall a, csect_of t i y a -> xy_size t i y = Ok (sym_size (Some a)) /\ xy_kind t i y = Ok (sym_kind y (Some a)) /\ xy_definition t i y = Ok (sym_defined y (Some a)) /\
     xy_flags t i y = Ok {| yx_type := xy_type y; yx_class := xy_class y; yx_smtyp := xc_smtyp a; yx_smclas := xc_smclas a; yx_csect := if csect_type a =? 2 then Some (xc_scnlen a) else None |}) /\
  ((forall a, ~ csect_of t i y a) -> xy_size t i y = Ok 0 /\ xy_kind t i y = Ok (sym_kind y None) /\ xy_definition t i y = Ok false /\
     xy_flags t i y = Ok {| yx_type := xy_type y; yx_class := xy_class y; yx_smtyp := 0; yx_smclas := 0; yx_csect := None |}).
Proof.
  intros B L E. apply xc_parse_iff in E; [|assumption..]. pose proof (file_tab_ok is64 F f B L E) as T. cbv zeta. intros En Hc. split; [intro n; apply sym_name_iff; assumption|]. split.
  - intros a Ha. destruct (reports _ i y (Some a) T En Hc Ha) as (R1 & R2 & R3). repeat (split; [assumption|]). unfold xy_flags. rewrite (proj2 (xy_csect_iff _ i y (Some a) T En) Ha). cbn [bind]. rewrite typ_type. reflexivity.
  - intros Ha. destruct (reports _ i y None T En Hc Ha) as (R1 & R2 & R3). split; [exact R1|]. split; [exact R2|]. split; [rewrite R3; unfold sym_defined; rewrite andb_false_r; reflexivity|]. unfold xy_flags. rewrite (proj2 (xy_csect_iff _ i y None T En) Ha). reflexivity.
Qed.
Print Assumptions C76_reports.
(** What is reported from the symbol alone. *)
Theorem C76_plain y : - 2 ^ 15 <= xy_scnum y < 2 ^ 15 ->
  (forall n, xy_section y = RSection n <-> xy_scnum y = n /\ 0 < n) /\ (xy_section y = RUndefined <-> xy_scnum y = 0) /\ (xy_section y = RAbsolute <-> xy_scnum y = -1) /\ (xy_section y = RNone <-> xy_scnum y = -2) /\
  (xy_weak y = true <-> xy_class y = 111) /\ (xy_global y = true <-> xy_class y = 2 \/ xy_class y = 111) /\ (xy_undefined y = true <-> (xy_class y = 2 \/ xy_class y = 111) /\ xy_scnum y = 0) /\
  (xy_scope y = ScUnknown <-> xy_scnum y = 0) /\ (xy_scope y = ScCompilation <-> xy_scnum y <> 0 /\ xy_class y <> 2 /\ xy_class y <> 111) /\
  (xy_scope y = ScLinkage <-> xy_scnum y <> 0 /\ (xy_class y = 2 \/ xy_class y = 111) /\ xy_type y / 4096 mod 16 = 2) /\
  (0 <= xy_value y -> xy_address y = if existsb (Z.eqb (xy_class y)) [2; 3; 100; 101; 107; 110; 111] then xy_value y else 0).
Proof.
  intro H. unfold xy_section, xy_weak, xy_global, xy_undefined, xy_scope, xy_address, C_EXT, C_WEAKEXT, C_STAT, C_HIDEXT. cbv zeta.
  assert (V : Z.land (xy_type y) 61440 =? 8192 = (xy_type y / 4096 mod 16 =? 2)).
  { assert (Q : Z.land (xy_type y) 61440 = 4096 * (xy_type y / 4096 mod 16)).
    { change 61440 with (Z.shiftl (Z.ones 4) 12). replace (4096 * (xy_type y / 4096 mod 16)) with (Z.shiftl (Z.land (Z.shiftr (xy_type y) 12) (Z.ones 4)) 12) by (rewrite Z.land_ones, Z.shiftr_div_pow2, Z.shiftl_mul_pow2 by lia; change (2 ^ 12) with 4096; change (2 ^ 4) with 16; lia).
      apply Z.bits_inj'. intros n Hn. rewrite Z.land_spec. destruct (Z.ltb_spec n 12); [rewrite !Z.shiftl_spec_low by lia; apply andb_false_r|]. rewrite !Z.shiftl_spec by lia. rewrite Z.land_spec, Z.shiftr_spec by lia. replace (n - 12 + 12) with n by lia. reflexivity. }
    rewrite Q. destruct (Z.eqb_spec (xy_type y / 4096 mod 16) 2) as [->|N]; [reflexivity|]. apply Z.eqb_neq. lia. }
  rewrite V. cbn [existsb]. clear V.
  repeat match goal with |- _ /\ _ => split end; try intro m.
  all: repeat match goal with |- context [?a =? ?b] => destruct (Z.eqb_spec a b) | |- context [?a <? ?b] => destruct (Z.ltb_spec a b) end; cbn [orb andb].
  all: try (split; intro Q; (discriminate Q || (injection Q as Q; lia) || lia || (destruct Q as (Q1 & Q2); (lia || (f_equal; lia) || discriminate)) || reflexivity)).
  all: try reflexivity; try lia.
  all: try (split; [intro Q|intros (Q1 & Q2)]; (discriminate || auto || lia)).
Qed.
Print Assumptions C76_plain.
Theorem C76_no_panic is64 F f i y : bytes_ok F -> zlen F < 2 ^ 63 -> xc_parse is64 F = Ok f -> entry (xf_symbols f) i y -> xy_name (xf_symbols f) i y <> Panic /\ xy_flags (xf_symbols f) i y <> Panic.
Proof. intros B L E. apply xc_parse_iff in E; [|assumption..]. pose proof (file_tab_ok is64 F f B L E) as T. apply sym_np. exact T. Qed.
Print Assumptions C76_no_panic.
Definition ex_syms (is64 : bool) : list (Z * xsym) := let t := xf_symbols (ex_f is64) in
  (fix go n k := match n with O => [] | S n => match xt_next t k with (Ok (Some p), k) => p :: go n k | _ => [] end end) 20%nat 0.
Example C76_ex is64 : map (fun p => let t := xf_symbols (ex_f is64) in let '(i, y) := p in (i, xy_name t i y, xy_kind t i y, xy_size t i y, xy_section y)) (ex_syms is64) =
  [(0, Ok (str "a.c"), Ok YFile, Ok 0, RNone); (2, Ok (str "main"), Ok YText, Ok 4, RSection 1); (4, Ok (str "a_long_name"), Ok YData, Ok 2, RSection 2);
   (6, Ok (str "ext"), Ok YText, Ok 0, RUndefined); (8, Ok (str "label"), Ok YText, Ok 0, RSection 1)].
Proof. destruct is64; vm_compute; reflexivity. Qed.
Example C76_ex_hyps is64 : exists y a, entry (xf_symbols (ex_f is64)) 2 y /\ csect_of (xf_symbols (ex_f is64)) 2 y a /\ xc_scnlen a = 4.
Proof.
  destruct (C74_ex_hyps is64) as (B & L & E). pose proof (file_tab_ok is64 _ _ B L E) as T.
  assert (Q : exists y a, xt_symbol (xf_symbols (ex_f is64)) 2 = Ok y /\ xy_csect (xf_symbols (ex_f is64)) 2 y = Ok (Some a) /\ xc_scnlen a = 4).
  { destruct is64; eexists _, _; (split; [vm_compute; reflexivity|]); (split; [vm_compute; reflexivity|]); reflexivity. }
  destruct Q as (y & a & Q1 & Q2 & Q3). apply symbol_iff in Q1 as (Q1 & _); [|exact T|lia]. exists y, a. split; [exact Q1|]. split; [apply (xy_csect_some _ _ _ _ T Q1); exact Q2|exact Q3].
Qed.

(** * C77 What is written can be read back *)
Theorem C77_round_trip xy o fflags F a : address_size (o_arch o) = Some a -> xo_ok (a =? 8) xy o fflags -> zlen F < 2 ^ 32 -> xcoff_write xy o fflags = Ok F ->
  bytes_ok F /\ exists f, xc_parse (a =? 8) F = Ok f /\ file_back (a =? 8) xy o fflags F f.
Proof.
  intros HA HO HL E. destruct (written xy o fflags F a HA HO HL E) as (B & f & H). split; [exact B|]. exists f. split; [|exact H]. apply xc_parse_iff; [exact B|lia|apply H].
Qed.
Print Assumptions C77_round_trip.
Lemma str_ok_b s : forallb (fun x => (1 <=? x) && (x <? 256)) s = true -> str_ok s.
Proof.
  intros H. assert (A : Forall (fun x => 1 <= x < 256) s) by (apply Forall_forall; intros x Hx; pose proof (proj1 (forallb_forall _ _) H x Hx) as H'; cbn beta in H'; lia).
  split; [eapply Forall_impl; [|exact A]; cbn beta; intros z Hz; try unfold byte_ok; lia|]. intros Hi. rewrite Forall_forall in A. specialize (A 0 Hi). lia.
Qed.
Example C77_ex_hyps (is64 : bool) : let o := ex_o (if is64 then APowerPc64 else APowerPc) in
  address_size (o_arch o) = Some (if is64 then 8 else 4) /\ xo_ok is64 ex_xy o 0 /\ xcoff_write ex_xy o 0 = Ok (ex_file is64) /\ zlen (ex_file is64) < 2 ^ 32.
Proof.
  cbv zeta. split; [destruct is64; reflexivity|]. split; [|split; destruct is64; vm_compute; reflexivity].
  unfold xo_ok, ex_o, ex_s, ex_r, ex_y. cbn [o_sections o_symbols].
  assert (X7 : forall fl, ex_xy 7 = Some fl -> xflags_ok (ex_o APowerPc) fl) by (intros fl Q; cbn in Q; injection Q as <-; unfold xflags_ok, u16_ok, byte_ok; cbn; lia).
  assert (Z3 : forall (a b c : osec), zlen [a; b; c] = 3) by reflexivity. assert (Z5 : forall (a b c d e : osym), zlen [a; b; c; d; e] = 5) by reflexivity. rewrite Z3.
  repeat match goal with
  | |- _ /\ _ => split
  | |- Forall _ (_ :: _) => constructor
  | |- Forall _ [] => constructor
  | |- xo_section_ok _ _ _ => unfold xo_section_ok; cbn [se_name se_data se_flags se_relocs o_symbols]; rewrite ?Z5
  | |- xo_symbol_ok _ _ _ => unfold xo_symbol_ok; cbn [sy_name sy_value sy_size sy_section sy_flags o_sections]; rewrite ?Z3
  | |- str_ok _ => apply str_ok_b; reflexivity
  | |- bytes_ok _ => apply bytes_ok_forallb; reflexivity
  | |- _ <= ol_symbol _ => cbn [ol_symbol]; lia
  | |- ol_symbol _ < _ => cbn [ol_symbol]; lia
  | |- u64_ok _ => unfold u64_ok; cbn [ol_offset]; lia
  | |- u16_ok _ => unfold u16_ok; lia
  | |- u32_ok _ => unfold u32_ok; lia
  | |- byte_ok _ => unfold byte_ok; lia
  | |- forall _, _ => intro
  | |- _ <> _ => discriminate
  | H : ol_flags _ = _ |- _ => cbn [ol_flags] in H; injection H as <- <-
  | H : SFNone = SFOther _ |- _ => discriminate H
  | H : SFOther _ = SFOther _ |- _ => injection H as <-
  | H : None = Some _ |- _ => discriminate H
  | H : YSec _ = YSec _ |- _ => injection H as <-
  | H : _ = YSec _ |- _ => discriminate H
  | H : Some _ = Some (YFOther _) |- _ => injection H as <-
  | H : ex_xy 7 = Some _ |- _ => apply X7 in H; exact H
  end.
  all: try reflexivity; try lia; discriminate.
Qed.
(** What is lost.  The size of uninitialised sections: *)
Definition ex_bss : obj := {| o_format := FCoff; o_arch := APowerPc; o_endian := Big;
  o_sections := [{| se_segment := []; se_name := str ".bss"; se_kind := SKUninitializedData; se_size := 16; se_align := 4; se_data := []; se_relocs := []; se_symbol := None; se_flags := SFNone |}];
  o_std := []; o_symbols := [ex_y "local" 0 4 YData ScCompilation false (YSec 0) None; ex_y "ext" 0 0 YText ScUnknown false YUndefined None]; o_map := []; o_comdats := []; o_prefix := None; o_stubs := []; o_tlv := None; o_subsections := false |}.
Definition ex_bss_file : bytes := match xcoff_write (fun _ => None) ex_bss 0 with Ok F => F | _ => [] end.
Definition ex_bss_f : xfile := match xc_parse false ex_bss_file with Ok f => f | _ => ex_f false end.
Lemma ex_bss_written : xcoff_write (fun _ => None) ex_bss 0 = Ok ex_bss_file /\ xc_parse false ex_bss_file = Ok ex_bss_f.
Proof. split; vm_compute; reflexivity. Qed.
Theorem C77_bss_refuted : ~ forall o F f, xcoff_write (fun _ => None) o 0 = Ok F -> xc_parse false F = Ok f -> map xs_size (xf_sections f) = map se_size (o_sections o).
Proof. intro H. destruct ex_bss_written as (E & P). specialize (H ex_bss ex_bss_file ex_bss_f E P). vm_compute in H. discriminate H. Qed.
Print Assumptions C77_bss_refuted.
(** the kind of local symbols: *)
Theorem C77_local_refuted : ~ forall o F f, xcoff_write (fun _ => None) o 0 = Ok F -> xc_parse false F = Ok f ->
  forall i y s, zget (o_symbols o) 0 = Some s -> xt_next (xf_symbols f) 0 = (Ok (Some (0, y)), i) -> xy_kind (xf_symbols f) 0 y = Ok (sy_kind s).
Proof.
  intro H. destruct ex_bss_written as (E & P). specialize (H ex_bss ex_bss_file ex_bss_f E P).
  assert (Q : exists i y, xt_next (xf_symbols ex_bss_f) 0 = (Ok (Some (0, y)), i) /\ xy_kind (xf_symbols ex_bss_f) 0 y = Ok YUnknown) by (eexists _, _; split; vm_compute; reflexivity).
  destruct Q as (i & y & Q1 & Q2). specialize (H i y _ eq_refl Q1). rewrite Q2 in H. vm_compute in H. discriminate H.
Qed.
Print Assumptions C77_local_refuted.
