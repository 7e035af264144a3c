(** C31, C44-C47: COFF object files. *)
From Verif Require Import Core_proofs Util_proofs Coff_proofs.
From Verif Require Import Coff_spec CoffW_proofs CoffR_proofs CoffI_proofs.
From Verif Require Import Ar_spec.

(** * C31: section names *)
(** the field that the writer makes for a string table offset designates this offset, and the reader finds it *)
Theorem C31_field_round_trip off : 0 <= off < 2 ^ 32 ->
  zlen (sec_name_field off) = 8 /\ name_designates (sec_name_field off) off /\ forall s, c_name s = sec_name_field off -> coff_name_offset s = Ok (Some off).
Proof.
  intro Ho. destruct (sec_name_field_spec off Ho) as (Hl & Hb & Hr). split; [exact Hl|]. split; [|exact Hr].
  pose (s := {| c_name := sec_name_field off; c_vsize := 0; c_vaddr := 0; c_rawsize := 0; c_rawptr := 0; c_relptr := 0; c_lnptr := 0; c_nrel := 0; c_nln := 0; c_flags := 0 |}).
  apply (name_offset_iff s); [exact Hl|exact Hb|exact (Hr s eq_refl)].
Qed.
(** the reader accepts exactly the fields that designate an offset *)
Theorem C31_reader_exact s : zlen (c_name s) = 8 -> bytes_ok (c_name s) ->
  coff_name_offset s <> Panic /\ (forall off, coff_name_offset s = Ok (Some off) <-> name_designates (c_name s) off) /\
  (coff_name_offset s = Ok None <-> zget (c_name s) 0 <> Some 47).
Proof. exact (name_offset_iff s). Qed.
(** every section name of a written file is read back (see C44 for the rest of the section) *)
Theorem C31_names crc o sub fl F : coff_ok o fl -> zlen F < 2 ^ 32 -> coff_write crc o sub fl = Ok F ->
  exists f, coff_parse false F = Ok f /\ zlen (cf_sections f) = zlen (o_sections o) /\
    forall i s, zget (o_sections o) i = Some s -> exists x, zget (cf_sections f) i = Some x /\ cs_name f x = Ok (se_name s).
Proof.
  intros Hok HF HW. destruct (coff_written crc o sub fl F Hok HF HW) as (machine & so & t & tab & ys & sels & hs & blks & Em & IM).
  pose proof (machine_bound _ _ _ _ Em) as Hm. exists (read_file o fl F machine so hs blks). split; [exact (parse_ok _ _ _ _ _ _ _ _ _ _ _ _ HF Hok IM)|]. split.
  - cbn [cf_sections read_file]. unfold zlen at 1. rewrite map_length. exact (im_hlen _ _ _ _ _ _ _ _ _ _ _ _ IM).
  - intros i s Hi. destruct (section_ok _ _ _ _ _ _ _ _ _ _ _ _ HF Hok IM i s Hi) as (x & Hx & Hn & _). exists x. split; assumption.
Qed.

(** * C44: what is written is read *)
Theorem C44_round_trip crc o sub fl F : coff_ok o fl -> (forall b, 0 <= crc b < 2 ^ 32) -> zlen F < 2 ^ 32 -> coff_write crc o sub fl = Ok F ->
  exists f, coff_parse false F = Ok f /\
    ch_flags false (cf_header f) = fl /\ coff_endian f = (match o_arch o with APowerPc | APowerPc64 => o_endian o | _ => Little end) /\
    coff_arch f = (match o_arch o with APowerPc64 => APowerPc | a => a end) /\ coff_arm64ec f = (match sub with Some SubArm64EC => true | _ => false end) /\
    zlen (cf_sections f) = zlen (o_sections o) /\ (forall i s, zget (o_sections o) i = Some s -> reads_section o f i s) /\
    (exists l st, runs (coff_sym_next (cf_symbols f)) 0 l false st /\ map fst l = indices 0 (o_symbols o)) /\
    (forall i y, zget (o_symbols o) i = Some y -> reads_symbol o f i y /\ (sy_weak y = true -> reads_weak o f i y) /\
       forall id, sy_weak y = false -> sy_kind y = YSection -> sy_section y = YSec id -> reads_aux crc o f i id).
Proof.
  intros Hok Hcrc HF HW. destruct (coff_written crc o sub fl F Hok HF HW) as (machine & so & t & tab & ys & sels & hs & blks & Em & IM).
  pose proof (machine_bound _ _ _ _ Em) as Hm. exists (read_file o fl F machine so hs blks). split; [exact (parse_ok _ _ _ _ _ _ _ _ _ _ _ _ HF Hok IM)|].
  destruct (header_ok _ _ _ _ _ _ _ _ _ _ _ _ HF Hok IM Hm sub Em) as (H1 & H2 & H3 & H4).
  split; [exact H1|]. split; [exact H2|]. split; [exact H3|]. split; [exact H4|]. split; [|split; [|split]].
  - cbn [cf_sections read_file]. unfold zlen at 1. rewrite map_length. exact (im_hlen _ _ _ _ _ _ _ _ _ _ _ _ IM).
  - intros i s Hi. exact (section_ok _ _ _ _ _ _ _ _ _ _ _ _ HF Hok IM i s Hi).
  - destruct (written_runs _ _ _ _ _ _ _ _ _ _ _ _ HF Hok IM Hm) as (l & A & B). eauto.
  - intros i y Hi. split; [exact (symbol_ok _ _ _ _ _ _ _ _ _ _ _ _ HF Hok IM Hm i y Hi)|]. split.
    + intro Hw. exact (weak_ok _ _ _ _ _ _ _ _ _ _ _ _ HF Hok IM Hm i y Hi Hw).
    + intros id Hw Hk Hs. exact (aux_ok _ _ _ _ _ _ _ _ _ _ _ _ HF Hok IM i y id Hcrc Hi Hw Hk Hs).
Qed.

(** * C45: what the API reports for symbols and sections with default flags *)
Theorem C45_reports crc o sub fl F : coff_ok o fl -> (forall b, 0 <= crc b < 2 ^ 32) -> zlen F < 2 ^ 32 -> coff_write crc o sub fl = Ok F ->
  exists f, coff_parse false F = Ok f /\
    (forall i y, zget (o_symbols o) i = Some y -> sy_flags y = None -> reports_symbol o f i y) /\
    (forall i s, zget (o_sections o) i = Some s -> se_flags s = SFNone ->
       exists x, zget (cf_sections f) i = Some x /\ coff_section_kind x = expected_skind (se_kind s)).
Proof.
  intros Hok Hcrc HF HW. destruct (coff_written crc o sub fl F Hok HF HW) as (machine & so & t & tab & ys & sels & hs & blks & Em & IM).
  pose proof (machine_bound _ _ _ _ Em) as Hm. exists (read_file o fl F machine so hs blks). split; [exact (parse_ok _ _ _ _ _ _ _ _ _ _ _ _ HF Hok IM)|]. split.
  - intros i y Hi Hf. exact (reports_ok _ _ _ _ _ _ _ _ _ _ _ _ HF Hok IM Hm i y Hcrc Hi Hf).
  - intros i s Hi Hf. exact (skind_ok _ _ _ _ _ _ _ _ _ _ _ _ HF Hok IM i s Hi Hf).
Qed.

(** * C46: COMDATs *)
Theorem C46_comdats crc o sub fl F : coff_ok o fl -> comdats_ok o -> (forall b, 0 <= crc b < 2 ^ 32) -> zlen F < 2 ^ 32 -> coff_write crc o sub fl = Ok F ->
  exists f, coff_parse false F = Ok f /\
    (exists l st, runs (coff_comdat_next f) 0 l false st /\ NoDup l /\ forall r, In r l <-> exists c, In c (o_comdats o) /\ reads_comdat o c r) /\
    (forall c leader, In c (o_comdats o) -> comdat_ok o c leader ->
       exists l st, runs (coff_comdat_sec_next f (leader + 1)) 0 l false st /\ NoDup l /\ forall n, In n l <-> exists id, In id (oc_sections c) /\ n = id + 1).
Proof.
  intros Hok Hco Hcrc HF HW. destruct (coff_written crc o sub fl F Hok HF HW) as (machine & so & t & tab & ys & sels & hs & blks & Em & IM).
  pose proof (machine_bound _ _ _ _ Em) as Hm. exists (read_file o fl F machine so hs blks). split; [exact (parse_ok _ _ _ _ _ _ _ _ _ _ _ _ HF Hok IM)|].
  exact (written_comdats _ _ _ _ _ _ _ _ _ _ _ _ HF Hok IM Hm Hcrc Hco).
Qed.

(** * C47: any file *)
(** the reader never panics *)
Theorem C47_no_panic big F : file_ok F -> coff_parse big F <> Panic /\
  forall f, coff_parse big F = Ok f ->
    (forall s, In s (cf_sections f) -> cs_name f s <> Panic /\ coff_data F s <> Panic /\ coff_relocations F s <> Panic) /\
    (forall k, 0 <= k -> coff_symbol (cf_symbols f) k <> Panic) /\
    (forall k y, 0 <= k -> coff_symbol (cf_symbols f) k = Ok y -> cy_name f k y <> Panic).
Proof.
  intro HF. split; [apply parse_no_panic; exact HF|]. intros f E. split; [|split].
  - intros s Hs. eapply section_no_panic; eassumption.
  - intros k Hk. destruct (parse_inv _ _ _ HF E) as (HT & _). rewrite coff_symbol_eq by assumption. destruct (zget _ k); discriminate.
  - intros k y Hk Hy. destruct (parse_inv _ _ _ HF E) as (HT & _). eapply symbol_no_panic; eassumption.
Qed.
(** iteration over the symbols gives the entries that are not auxiliary records, and ends; the iterations over COMDATs and over the sections of a
    COMDAT end too *)
Theorem C47_iterates big F f : file_ok F -> coff_parse big F = Ok f ->
  exists l k', walk (cf_symbols f) 0 l k' /\ runs (coff_sym_next (cf_symbols f)) 0 l false k' /\
    (exists cs, runs (coff_comdat_next f) 0 cs false k' /\ zlen cs <= zlen l) /\ (forall n, exists ss, runs (coff_comdat_sec_next f n) 0 ss false k' /\ zlen ss <= zlen l).
Proof. exact (iterates big F f). Qed.

(** * Example: an object with a long section name, data, relocations, a weak symbol, a file symbol, a COMDAT *)
Definition ex_sec (n : bytes) (k : skind) (al : Z) (d : bytes) (rs : list orel) (y : option Z) : osec :=
  {| se_segment := []; se_name := n; se_kind := k; se_size := zlen d; se_align := al; se_data := d; se_relocs := rs; se_symbol := y; se_flags := SFNone |}.
Definition ex_ysym (n : bytes) (v : Z) (k : symkind) (sc : scope) (wk : bool) (s : ysec) : osym :=
  {| sy_name := n; sy_value := v; sy_size := 0; sy_kind := k; sy_scope := sc; sy_weak := wk; sy_section := s; sy_flags := None |}.
Definition ex_coff : obj :=
  {| o_format := FCoff; o_arch := AX86_64; o_endian := Little;
     o_sections := [ex_sec (str ".text") SKText 16 [144; 195] [{| ol_offset := 1; ol_symbol := 4; ol_sub := None; ol_addend := 0; ol_flags := RFcoff 4 |}] (Some 1);
                    ex_sec (str ".rdata$long_name") SKReadOnlyData 4 [1; 2; 3; 4] [] (Some 2)];
     o_std := [];
     o_symbols := [ex_ysym (str "a_source_file_name.c") 0 YFile ScCompilation false YNone;
                   ex_ysym (str ".text") 0 YSection ScCompilation false (YSec 0);
                   ex_ysym (str ".rdata$long_name") 0 YSection ScCompilation false (YSec 1);
                   ex_ysym (str "weak_f") 1 YText ScLinkage true (YSec 0);
                   ex_ysym (str "puts") 0 YText ScUnknown false YUndefined;
                   ex_ysym (str "constant") 0 YData ScLinkage false (YSec 1)];
     o_map := []; o_comdats := [{| oc_kind := 1; oc_symbol := 5; oc_sections := [1] |}]; o_prefix := None; o_stubs := []; o_tlv := None; o_subsections := false |}.
Definition ex_crc (b : bytes) : Z := zlen b mod 2 ^ 32.
Definition ex_coff_file : bytes := match coff_write ex_crc ex_coff None 7 with Ok F => F | _ => [] end.
Definition ex_read : option cfile := match coff_parse false ex_coff_file with Ok f => Some f | _ => None end.
Fixpoint steps {S A} (next : S -> out (option A) * S) (n : nat) (s : S) : list A :=
  match n with O => [] | S n => match next s with (Ok (Some x), s) => x :: steps next n s | _ => [] end end.
Example C44_ex_file : 0 < zlen ex_coff_file < 2 ^ 32 /\ match ex_read with
  | Some f => map (cs_name f) (cf_sections f) = [Ok (str ".text"); Ok (str ".rdata$long_name")] /\
      map (coff_data ex_coff_file) (cf_sections f) = [Ok [144; 195]; Ok [1; 2; 3; 4]] /\
      map (coff_relocations ex_coff_file) (cf_sections f) = [Ok [{| cr_va := 1; cr_sym := 10; cr_typ := 4 |}]; Ok []] /\
      map (fun p => (fst p, cy_name f (fst p) (snd p))) (steps (coff_sym_next (cf_symbols f)) 100 0) =
        [(0, Ok (str "a_source_file_name.c")); (3, Ok (str ".text")); (5, Ok (str ".rdata$long_name")); (7, Ok (str ".weak.weak_f.constant")); (8, Ok (str "weak_f"));
         (10, Ok (str "puts")); (11, Ok (str "constant"))] /\
      map (fun p => (cy_kind (snd p), cy_section (snd p), cy_is_global (snd p))) (steps (coff_sym_next (cf_symbols f)) 100 0) =
        [(YFile, RNone, false); (YSection, RSection 1, false); (YSection, RSection 2, false); (YData, RSection 1, true); (YText, RUnknown, true);
         (YText, RUndefined, true); (YData, RSection 2, true)] /\
      steps (coff_comdat_next f) 100 0 = [{| cc_symbol := 11; cc_section := 2; cc_sel := 2 |}] /\
      steps (coff_comdat_sec_next f 2) 100 0 = [2] /\ coff_arch f = AX86_64 /\ ch_flags false (cf_header f) = 7
  | None => False
  end.
Proof. vm_compute. repeat split. Qed.

Example C44_ex_hyps : coff_ok ex_coff 7 /\ (forall b, 0 <= ex_crc b < 2 ^ 32) /\ zlen ex_coff_file < 2 ^ 32 /\ coff_write ex_crc ex_coff None 7 = Ok ex_coff_file.
Proof.
  assert (Hstr : forall s : bytes, forallb (fun b => (0 <? b) && (b <? 256)) s = true -> str_ok s).
  { intros s H. rewrite forallb_forall in H. split; [apply Forall_forall; intros x Hx; specialize (H x Hx); unfold byte_ok; lia|]. intro Hx. specialize (H _ Hx). discriminate. }
  split; [|split; [|split]].
  - split; [vm_compute; discriminate|]. split; [lia|]. split.
    + repeat (constructor; [split; [apply Hstr; reflexivity|]; split; [intros ? H; discriminate H|]; split; [apply bytes_ok_forallb; reflexivity|]; split; [intros ? H; discriminate H|]|]); [| |constructor].
      * constructor; [|constructor]. split; [vm_compute; split; congruence|]. intros ty H. injection H as <-. lia.
      * constructor.
    + repeat (constructor; [split; [apply Hstr; reflexivity|]; split; [discriminate|]; split; [intros; cbn; lia || discriminate|]; split; [intros id H; injection H as <- || discriminate H; cbn; lia|intros; discriminate]|]). constructor.
  - intro b. unfold ex_crc. apply Z.mod_pos_bound. lia.
  - vm_compute. reflexivity.
  - vm_compute. reflexivity.
Qed.

Example C46_ex_hyps : comdats_ok ex_coff /\ comdat_ok ex_coff {| oc_kind := 1; oc_symbol := 5; oc_sections := [1] |} 1.
Proof.
  assert (Hsec : forall i id, is_section_symbol ex_coff i id <-> (i = 1 /\ id = 0) \/ (i = 2 /\ id = 1)).
  { intros i id. split.
    - intros (y & Hy & _ & Hk & Hs). pose proof (zget_Some_lt _ _ _ Hy) as Hl. change (zlen (o_symbols ex_coff)) with 6 in Hl.
      assert (Hc : i = 0 \/ i = 1 \/ i = 2 \/ i = 3 \/ i = 4 \/ i = 5) by lia.
      destruct Hc as [-> |[-> |[-> |[-> |[-> | -> ]]]]]; vm_compute in Hy; injection Hy as <-; try discriminate Hk; injection Hs as <-; lia.
    - intros [[-> ->]|[-> ->]]; eexists; repeat split. }
  assert (Hc : comdat_ok ex_coff {| oc_kind := 1; oc_symbol := 5; oc_sections := [1] |} 1).
  { split; [cbn; auto|]. split; [cbn; repeat constructor; intros []|]. split.
    - intros id [<-|[]]. exists 2. apply Hsec. lia.
    - exists 2. eexists. split; [apply Hsec; lia|]. split; [cbn; lia|]. split; [reflexivity|]. split; [reflexivity|]. split; [reflexivity|].
      intros j z Hj Hz. cbn [oc_symbol] in Hj. assert (Hj' : j = 3 \/ j = 4) by lia. destruct Hj' as [-> | ->]; vm_compute in Hz; injection Hz as <-; discriminate. }
  split; [|exact Hc]. split; [|split; [|split]].
  - intros i j id Hi Hj. apply Hsec in Hi. apply Hsec in Hj. lia.
  - intros c [<-|[]]. exists 1. exact Hc.
  - intros a b c d id Ha Hb _ _. apply zget_Some_lt in Ha. apply zget_Some_lt in Hb. change (zlen (o_comdats ex_coff)) with 1 in *. lia.
  - repeat constructor.
Qed.
(** a base-64 name field, and what the reader makes of some odd fields *)
Example C31_ex : sec_name_field 10000000 = str "//AAmJaA" /\ name_designates (str "//AAmJaA") 10000000 /\ sec_name_field 1234567 = str "/1234567" /\
  name_designates (47 :: zeros 7) 0 /\ (forall off, ~ name_designates (str "/12x4567") off).
Proof.
  split; [reflexivity|]. split; [apply (C31_field_round_trip 10000000); lia|]. split; [reflexivity|]. split.
  - split; [reflexivity|]. exists [], (zeros 7). repeat split; [constructor|]. right. exists (zeros 6). reflexivity.
  - intros off [_ (ds & rest & E & HF & Hr & _)]. pose (s := {| c_name := str "/12x4567"; c_vsize := 0; c_vaddr := 0; c_rawsize := 0; c_rawptr := 0; c_relptr := 0; c_lnptr := 0; c_nrel := 0; c_nln := 0; c_flags := 0 |}).
    assert (E0 : coff_name_offset s = Ok (Some (number_in 10 ds))).
    { apply (name_offset_iff s); [reflexivity|apply bytes_ok_forallb; reflexivity|]. split; [reflexivity|]. exists ds, rest. repeat split; assumption. }
    discriminate E0.
Qed.
(** a section whose name starts with a slash is not read back: the hypothesis of [sec_ok] is needed *)
Definition ex_slash : obj :=
  {| o_format := FCoff; o_arch := AX86_64; o_endian := Little; o_sections := [ex_sec (str "/4") SKText 1 [] [] None; ex_sec (str "a_long_section_name") SKText 1 [] [] None];
     o_std := []; o_symbols := []; o_map := []; o_comdats := []; o_prefix := None; o_stubs := []; o_tlv := None; o_subsections := false |}.
Definition ex_slash_file : bytes := match coff_write ex_crc ex_slash None 0 with Ok F => F | _ => [] end.
Theorem C31_slash_name_refuted : exists F, coff_write ex_crc ex_slash None 0 = Ok F /\
  match coff_parse false F with Ok f => map (cs_name f) (cf_sections f) = [Ok (str "a_long_section_name"); Ok (str "a_long_section_name")] | _ => False end.
Proof. exists ex_slash_file. split; vm_compute; reflexivity. Qed.
(** an undefined symbol with a value is read as a common symbol *)
Definition ex_value : obj :=
  {| o_format := FCoff; o_arch := AX86_64; o_endian := Little; o_sections := []; o_std := []; o_symbols := [ex_ysym (str "u") 8 YData ScLinkage false YUndefined];
     o_map := []; o_comdats := []; o_prefix := None; o_stubs := []; o_tlv := None; o_subsections := false |}.
Example C45_ex_undefined : match coff_write ex_crc ex_value None 0 with
  | Ok F => match coff_parse false F with Ok f => match coff_symbol (cf_symbols f) 0 with Ok x => cy_section x = RCommon /\ cy_size f 0 x = 8 | _ => False end | _ => False end
  | _ => False
  end.
Proof. vm_compute. split; reflexivity. Qed.
Example C47_ex : file_ok ex_coff_file /\ match coff_parse false ex_coff_file with Ok _ => True | _ => False end.
Proof. split; [split; [apply bytes_ok_forallb; vm_compute; reflexivity|vm_compute; reflexivity]|]. vm_compute. exact I. Qed.

Print Assumptions C31_field_round_trip.
Print Assumptions C31_reader_exact.
Print Assumptions C31_names.
Print Assumptions C44_round_trip.
Print Assumptions C45_reports.
Print Assumptions C46_comdats.
Print Assumptions C47_no_panic.
Print Assumptions C47_iterates.
