(** C27: the two-phase ELF writer. *)
From Verif Require Import Base Core_spec Core_proofs Str_spec Str_proofs Util_proofs File_spec File_proofs Elf_spec Elf_proofs.
From Verif Require CoffW_proofs.
From Verif Require Import ElfW_spec ElfWR_proofs ElfWB_proofs ElfWC_proofs ElfWT_proofs.

(** For every sequence of reserve calls in the documented order that succeeds, and every sequence of write calls that matches it: the
    write phase succeeds, the file has the length reserved, and consists of the data of the calls, each at the offset reserved for it, with
    zeros between them.  The sections of the tables are named through the section name table. *)
Theorem C27_layout : forall is64 e cs vs R x ws ds,
  in_order (RFileHeader :: cs) -> r_run (r_new is64 e) (RFileHeader :: cs) = Ok (vs, R) ->
  (forall s, named s = true -> r_off R s <> 0 -> In (RIndex s) (RFileHeader :: cs)) ->
  blocks (fun _ _ => True) R x [] (RFileHeader :: cs) vs ws ds ->
  exists w ds', w_run R (w_start R) ws = Ok w /\ zlen (w_out w) = r_len R /\ blocks (name_at R) R x [] (RFileHeader :: cs) vs ws ds' /\ lays 0 vs ds' (w_out w).
Proof. intros is64 e cs vs R x ws ds. exact (writer_ok is64 e cs vs R (fun _ _ => True) x ws ds). Qed.
Print Assumptions C27_layout.
(** In particular what a call writes is at the offset that the reserve call returned, and later calls write after it. *)
Theorem C27_held : forall vs ds F i v d, lays 0 vs ds F -> zget vs i = Some v -> zget ds i = Some d -> d <> [] -> holds F v d.
Proof. intros vs ds F i v d L Hv Hd Nd. destruct (lays_holds 0 vs ds F L ltac:(lia) i v d Hv Hd Nd) as (_ & H). rewrite Z.sub_0_r in H. exact H. Qed.
Print Assumptions C27_held.
Theorem C27_disjoint : forall vs ds F i j v v' d d', lays 0 vs ds F -> zget vs i = Some v -> zget ds i = Some d -> d <> [] ->
  zget vs j = Some v' -> zget ds j = Some d' -> d' <> [] -> i < j -> v + zlen d <= v'.
Proof.
  assert (G : forall pos vs ds F, lays pos vs ds F -> 0 <= pos -> forall i j v v' d d', zget vs i = Some v -> zget ds i = Some d -> d <> [] ->
    zget vs j = Some v' -> zget ds j = Some d' -> d' <> [] -> i < j -> v + zlen d <= v').
  { induction 1 as [pos|pos v vs ds F H IH|pos v vs d ds F Hp H IH]; intros P i j v0 v1 d0 d1 Hv Hd Nd Hv' Hd' Nd' Lt.
    - apply zget_In in Hv. destruct Hv.
    - apply zget_Some_lt in Hv as Bi. destruct (Z.eq_dec i 0) as [->|Ni]; [rewrite zget_0 in Hd; congruence|].
      rewrite zget_S in Hv by lia. rewrite zget_S in Hd by lia. rewrite zget_S in Hv' by lia. rewrite zget_S in Hd' by lia. exact (IH P (i - 1) (j - 1) _ _ _ _ Hv Hd Nd Hv' Hd' Nd' ltac:(lia)).
    - apply zget_Some_lt in Hv as Bi. pose proof (zlen_nonneg d) as Ln. rewrite zget_S in Hv' by lia. rewrite zget_S in Hd' by lia. destruct (Z.eq_dec i 0) as [->|Ni].
      + rewrite zget_0 in Hv. rewrite zget_0 in Hd. assert (v0 = v) by congruence. assert (d0 = d) by congruence. subst. apply (lays_holds _ _ _ _ H ltac:(lia) _ _ _ Hv' Hd' Nd').
      + rewrite zget_S in Hv by lia. rewrite zget_S in Hd by lia. exact (IH ltac:(lia) (i - 1) (j - 1) _ _ _ _ Hv Hd Nd Hv' Hd' Nd' ltac:(lia)). }
  intros vs ds F i j v v' d d' L. apply (G 0 vs ds F L ltac:(lia)).
Qed.
Print Assumptions C27_disjoint.
(** The reader finds the header, the program headers and the section headers that the calls wrote: [h] is the file header given, and the
    headers are those of the calls, in their order, after the null section header. *)
Theorem C27_reads_back : forall is64 e cs vs R x h ws ds, 
  in_order (RFileHeader :: cs) -> r_run (r_new is64 e) (RFileHeader :: cs) = Ok (vs, R) ->
  (forall s, named s = true -> r_off R s <> 0 -> In (RIndex s) (RFileHeader :: cs)) ->
  blocks (fun _ _ => True) R x [] (RFileHeader :: cs) vs (WFileHeader h :: ws) ds ->
  (r_secs R <> 0 -> r_shoff R <> 0) -> fhdr_ok is64 h -> Forall (phdr_ok is64) (segment_calls ws) ->
  (forall w s, In w (header_calls ws) -> header_written R w s -> shdr_ok is64 s) ->
  exists w raw ss, w_run R (w_start R) (WFileHeader h :: ws) = Ok w /\ eh_parse is64 (w_out w) = Ok raw /\ eh_endian raw = Ok e /\
    fhdr_from_raw is64 e raw = h /\
    (exists l, layout_from_raw is64 e raw (w_out w) = Ok l /\ ly_segment_num l = zlen (segment_calls ws) /\ ly_section_num l = r_secs R /\ index_given (RFileHeader :: cs) vs SShstrtab (ly_shstrtab_index l)) /\
    program_headers is64 e raw (w_out w) = Ok (segment_calls ws) /\
    section_headers is64 e raw (w_out w) = Ok (if r_secs R =? 0 then [] else null_shdr (w_layout R) :: ss) /\ Forall2 (header_written R) (header_calls ws) ss.
Proof.
  intros is64 e cs vs R x h ws ds Ord Run HN B Sec Hh Hp Hs. destruct (writer_ok is64 e cs vs R _ x _ ds Ord Run HN B) as (w & ds' & Ew & Lw & Bw & Ly).
  destruct (tables_good is64 e cs vs R x h ws ds' _ Ord Run Sec Bw Ly) as (H1 & ss & H2 & H3).
  pose proof (final is64 e cs vs R Ord Run) as Fi. pose proof (i_len _ _ Fi) as Rl.
  assert (H32 : is64 = false -> r_len R < 2 ^ 32).
  { destruct (run_const _ _ _ _ _ Run) as (K1 & _). inversion B as [|a0 c0 cs0 v vs0 w0 ws0 d ds0 B1 B2]; subst. inversion B1; subst; [assumption|contradiction]. }
  pose proof (layout_good is64 e cs vs R Ord Run Sec _ x _ ds' _ H32 Bw Ly Lw) as Lg.
  assert (Hz : zlen (w_out w) < 2 ^ 64) by lia.
  assert (Hss : Forall (shdr_ok is64) ss).
  { apply Forall_forall. intros s Is. apply In_zget in Is. destruct Is as (i & Hi).
    assert (exists c, In c (header_calls ws) /\ header_written R c s) as (c & Ic & Hc); [|exact (Hs c s Ic Hc)].
    clear - H3 Hi. revert i Hi. induction H3 as [|c y l l' Hc Hf IH]; intros i Hi; [apply zget_In in Hi; destruct Hi|]. apply zget_Some_lt in Hi as Bi.
    destruct (Z.eq_dec i 0) as [->|Ni].
    - rewrite zget_0 in Hi. assert (y = s) by congruence. subst. exists c. split; [left; reflexivity|exact Hc].
    - rewrite zget_S in Hi by lia. destruct (IH _ Hi) as (c' & I' & H'). exists c'. split; [right; exact I'|exact H']. }
  destruct (header_roundtrip is64 e h _ _ Hh Lg Hz H1) as (raw & E1 & _ & E2 & E3 & E4 & _).
  destruct (tables_roundtrip is64 e h _ _ _ ss Hh Lg Hz H1 H2 Hp Hss) as (raw' & E5 & E6 & E7). assert (raw' = raw) by congruence. subst raw'.
  exists w, raw, ss. cbn [w_layout ly_section_num] in E7. do 4 (split; [assumption|]). split.
  { exists (w_layout R). split; [exact E4|]. split; [|split; [reflexivity|]].
    - destruct H2 as (Q & _). exact Q.
    - apply (index_is is64 e cs vs R Ord Run SShstrtab). reflexivity. }
  split; [assumption|]. split; [assumption|]. exact H3.
Qed.
Print Assumptions C27_reads_back.

(** The section of each table: at the index that was reserved for it the reader finds a header of the right type with the name of the table
    in .shstrtab, whose offset and size are those of the data of the table, and which links to the section of the table it depends on. *)
Theorem C27_tables : forall is64 e cs vs R x h ws ds, 
  in_order (RFileHeader :: cs) -> r_run (r_new is64 e) (RFileHeader :: cs) = Ok (vs, R) ->
  (forall s, named s = true -> r_off R s <> 0 -> In (RIndex s) (RFileHeader :: cs)) ->
  blocks (fun _ _ => True) R x [] (RFileHeader :: cs) vs (WFileHeader h :: ws) ds ->
  (r_secs R <> 0 -> r_shoff R <> 0) -> fhdr_ok is64 h -> Forall (phdr_ok is64) (segment_calls ws) ->
  (forall w s, In w (header_calls ws) -> header_written R w s -> shdr_ok is64 s) ->
  exists w raw ss ds', w_run R (w_start R) (WFileHeader h :: ws) = Ok w /\ eh_parse is64 (w_out w) = Ok raw /\ section_headers is64 e raw (w_out w) = Ok ss /\
    blocks (name_at R) R x [] (RFileHeader :: cs) vs (WFileHeader h :: ws) ds' /\ lays 0 vs ds' (w_out w) /\
    forall i c s v j, zget (RFileHeader :: cs) i = Some c -> part_of c = Some (PTable s) -> zget vs i = Some v -> v <> 0 -> zget (RFileHeader :: cs) j = Some (RIndex s) ->
      exists k g d, zget vs j = Some k /\ zget ss k = Some g /\ zget ds' i = Some d /\ table_section is64 (RFileHeader :: cs) vs s v d g /\
        string_at (r_data R SShstrtab) (sh_name g) (table_name s) /\ (d = [] \/ holds (w_out w) v d).
Proof.
  intros is64 e cs vs R x h ws ds Ord Run HN B Sec Hh Hp Hs.
  destruct (C27_reads_back is64 e cs vs R x h ws ds Ord Run HN B Sec Hh Hp Hs) as (w & raw & ss & Ew & E1 & _ & _ & _ & _ & E2 & F2).
  destruct (C27_layout is64 e cs vs R x _ ds Ord Run HN B) as (w' & ds' & Ew' & Lw & Bw & Ly). assert (w' = w) by congruence. subst w'.
  exists w, raw. eexists. exists ds'. split; [exact Ew|]. split; [exact E1|]. split; [exact E2|]. split; [exact Bw|]. split; [exact Ly|].
  intros i c s v j Hi Pc Hv Nv Hj. destruct (index_at is64 e cs vs R Ord Run j _ (Some s) Hj (or_intror (ex_intro _ s (conj eq_refl eq_refl)))) as (k & Hk & Pk & Hd).
  pose proof (final is64 e cs vs R Ord Run) as Fi. destruct (i_secs _ _ Fi) as (Is & _). apply zget_Some_lt in Hd as Bd.
  assert (Sz : r_secs R <> 0). { destruct Is as [(_ & Q)|Q]; [|pose proof (zlen_nonneg (headers (RFileHeader :: cs))); lia]. rewrite Q in Bd. change (zlen (@nil (option slot))) with 0 in Bd. lia. }
  destruct (headers_match is64 e cs vs R Ord Run _ x _ ds' Bw (Sec Sz) _ _ Hd) as (c' & Hc & addr & n & ->).
  change (header_calls (WFileHeader h :: ws)) with (header_calls ws) in Hc.
  destruct (CoffW_proofs.Forall2_zget_l _ _ _ _ _ F2 Hc) as (g & Hg & name & Un & Sn & ->).
  apply blocks_len in Bw as Bl. destruct (zget_lt_Some ds' i) as (d & Hd'); [apply zget_Some_lt in Hi; lia|].
  pose proof (table_header is64 e cs vs R Ord Run _ x _ ds' i c s v d name addr n Bw Hi Pc Hv Nv Hd') as T.
  exists k, (slot_header R s name addr n), d. split; [exact Hk|]. split; [rewrite (proj2 (Z.eqb_neq _ _) Sz), zget_S by lia; exact Hg|]. split; [exact Hd'|]. split; [exact T|].
  split; [destruct s; exact Sn|]. destruct d as [|y d]; [left; reflexivity|right; apply (C27_held vs ds' _ i v _ Ly Hv Hd'); discriminate].
Qed.
Print Assumptions C27_tables.
(** An example: a 32-bit big endian file with a segment, a section, a symbol in section 70000, and all four tables. *)
Definition ex_calls : list rcmd := [RProgramHeaders 1; RRange 3 4; RAdd SShstrtab (str ".text"); RSection; RAdd SStrtab (str "f"); RSymbol (Some 70000);
  RIndex SSymtab; RIndex SShndx; RIndex SStrtab; RIndex SShstrtab; RSymtab SSymtab; RShndx; RStrings SStrtab; RStrings SShstrtab; RSectionHeaders].
Definition ex_fh : fhdr := {| fh_os_abi := 3; fh_abi_version := 1; fh_type := 2; fh_machine := 8; fh_entry := 4096; fh_flags := 7 |}.
Definition ex_ph : phdr := {| p_type := 1; p_flags := 5; p_offset := 84; p_vaddr := 4096; p_paddr := 0; p_filesz := 3; p_memsz := 3; p_align := 1 |}.
Definition ex_sym : wsym := {| ws_section := Some 70000; ws_name := 1; ws_info := 18; ws_other := 2; ws_shndx := 0; ws_value := 16; ws_size := 9 |}.
Definition ex_sh : shdr := {| sh_name := 1; sh_type := 1; sh_flags := 6; sh_addr := 4096; sh_offset := 84; sh_size := 3; sh_link := 0; sh_info := 0; sh_addralign := 4; sh_entsize := 0 |}.
Definition ex_writes : list wcmd := [WAlignProgramHeaders; WProgramHeader ex_ph; WAlign 4; WData [1; 2; 3]; WNullSymbol SSymtab; WSymbol SSymtab ex_sym; WSymtabShndx;
  WStrings SStrtab; WStrings SShstrtab; WNullSectionHeader; WSectionHeader ex_sh; WSlotHeader SSymtab 0 1; WSlotHeader SShndx 0 0; WSlotHeader SStrtab 0 0; WSlotHeader SShstrtab 0 0].
Definition ex_state : list Z * rst := match r_run (r_new false Big) (RFileHeader :: ex_calls) with Ok p => p | _ => ([], r_new false Big) end.
Example C27_ex : let R := snd ex_state in fst ex_state = [0; 52; 84; 0; 1; 0; 1; 2; 3; 4; 5; 88; 120; 128; 131; 180] /\ r_len R = 420 /\
  match w_run R (w_start R) (WFileHeader ex_fh :: ex_writes) with
  | Ok w => zlen (w_out w) = 420 /\ zslice 84 3 (w_out w) = [1; 2; 3] /\ zslice 120 8 (w_out w) = [0; 0; 0; 0; 0; 1; 17; 112]
  | _ => False end.
Proof. vm_compute. repeat split. Qed.
Lemma five {A} (a b c d e x : A) i : zget [a; b; c; d; e] i = Some x -> (i = 0 /\ x = a) \/ (i = 1 /\ x = b) \/ (i = 2 /\ x = c) \/ (i = 3 /\ x = d) \/ (i = 4 /\ x = e).
Proof.
  intro H. apply zget_Some_lt in H as B. change (zlen [a; b; c; d; e]) with 5 in B.
  assert (i = 0 \/ i = 1 \/ i = 2 \/ i = 3 \/ i = 4) as [->|[->|[->|[->| ->]]]] by lia; cbn in H; injection H as <-; intuition.
Qed.
Example C27_ex_hyps : let R := snd ex_state in exists x ds,
  in_order (RFileHeader :: ex_calls) /\ r_run (r_new false Big) (RFileHeader :: ex_calls) = Ok (fst ex_state, R) /\
  (forall s, named s = true -> r_off R s <> 0 -> In (RIndex s) (RFileHeader :: ex_calls)) /\
  blocks (fun _ _ => True) R x [] (RFileHeader :: ex_calls) (fst ex_state) (WFileHeader ex_fh :: ex_writes) ds /\
  (r_secs R <> 0 -> r_shoff R <> 0) /\ fhdr_ok false ex_fh /\ Forall (phdr_ok false) (segment_calls ex_writes) /\
  (forall w s, In w (header_calls ex_writes) -> header_written R w s -> shdr_ok false s).
Proof.
  set (X := {| x_mips64el := false; x_shndx := [0; 0; 0; 0; 0; 1; 17; 112] |}).
  assert (E0 : r_run (r_new false Big) (RFileHeader :: ex_calls) = Ok (fst ex_state, snd ex_state)) by (vm_compute; reflexivity).
  assert (Ev : fst ex_state = [0; 52; 84; 0; 1; 0; 1; 2; 3; 4; 5; 88; 120; 128; 131; 180]) by (vm_compute; reflexivity).
  assert (V : forall s, u32_ok (r_off (snd ex_state) s)) by (intro s; destruct s; vm_compute; split; congruence).
  assert (Vn : forall s, 0 <= r_num (snd ex_state) s < 2 ^ 24) by (intro s; destruct s; vm_compute; split; congruence).
  assert (Vx : forall s, u32_ok (r_index (snd ex_state) s)) by (intro s; destruct s; vm_compute; split; congruence).
  assert (Vi : r_is64 (snd ex_state) = false) by (vm_compute; reflexivity).
  cbv zeta. exists X. eexists. split; [|split; [exact E0|split; [|split; [|split; [|split; [|split]]]]]].
  - constructor.
    + repeat (apply Forall_cons; [cbn [call_ok In]|]); try apply Forall_nil; repeat match goal with |- _ /\ _ => split | |- True => exact I end; try lia; try tauto.
      * right. exists 2. lia.
      * apply bytes_ok_forallb. vm_compute. reflexivity.
      * apply bytes_ok_forallb. vm_compute. reflexivity.
    + vm_compute. reflexivity.
    + repeat constructor; cbn; intuition discriminate.
    + intros a b H. unfold ex_calls in H. destruct a as [|c a]; [reflexivity|]. cbn [app] in H. injection H as _ H.
      repeat (destruct a as [|? a]; cbn [app] in H; [discriminate H|injection H as _ H]). destruct a; discriminate H.
    + intros a s b H. unfold ex_calls in H.
      repeat (destruct a as [|? a]; cbn [app] in H; [try discriminate H|injection H as _ H]); [|destruct a; discriminate H].
      injection H as <- <-. repeat (apply Forall_cons; [discriminate|]). apply Forall_nil.
    + intros a b H. unfold ex_calls in H.
      repeat (destruct a as [|? a]; cbn [app] in H; [try discriminate H|injection H as <- H]); [|destruct a; discriminate H].
      injection H as <-. split; [cbn; tauto|]. split; [repeat (apply Forall_cons; [split; discriminate|]); apply Forall_nil|reflexivity].
    + intros a b H. unfold ex_calls in H.
      repeat (destruct a as [|? a]; cbn [app] in H; [try discriminate H|injection H as <- H]); [|destruct a; discriminate H].
      injection H as <-. repeat (apply Forall_cons; [discriminate|]). apply Forall_nil.
    + intros s _. cbn. tauto.
  - intros s Hs. destruct s; try discriminate Hs; intro Ho; first [exfalso; apply Ho; vm_compute; reflexivity|clear; cbn [In ex_calls]; tauto].
  - rewrite Ev. unfold ex_calls, ex_writes.
    apply (bs_cons _ _ _ _ _ _ _ _ [WFileHeader ex_fh]); [apply b_file_header; [reflexivity|vm_compute; reflexivity|vm_compute; reflexivity]|].
    apply (bs_cons _ _ _ _ _ _ _ _ [WAlignProgramHeaders; WProgramHeader ex_ph]); [apply (b_segments _ _ _ _ _ [ex_ph])|].
    apply (bs_cons _ _ _ _ _ _ _ _ [WAlign 4; WData [1; 2; 3]]); [apply b_range; reflexivity|].
    do 8 (apply (bs_cons _ _ _ _ _ _ _ _ []); [apply b_other; [reflexivity|exact I]|]).
    apply (bs_cons _ _ _ _ _ _ _ _ [WNullSymbol SSymtab; WSymbol SSymtab ex_sym]); [apply (b_symtab _ _ _ _ _ _ [ex_sym]); [lia|reflexivity|intros _; vm_compute; reflexivity]|].
    apply (bs_cons _ _ _ _ _ _ _ _ [WSymtabShndx]); [apply b_shndx; lia|].
    apply (bs_cons _ _ _ _ _ _ _ _ [WStrings SStrtab]); [apply b_strings; lia|].
    apply (bs_cons _ _ _ _ _ _ _ _ [WStrings SShstrtab]); [apply b_strings; lia|].
    rewrite <- (app_nil_r [WNullSectionHeader; _; _; _; _; _]). eapply bs_cons; [|apply bs_nil].
    apply (b_sections _ _ _ _ 180 _ [enc_shdr (r_is64 (snd ex_state)) (r_end (snd ex_state)) ex_sh; enc_shdr (r_is64 (snd ex_state)) (r_end (snd ex_state)) (slot_header (snd ex_state) SSymtab 0 0 1); enc_shdr (r_is64 (snd ex_state)) (r_end (snd ex_state)) (slot_header (snd ex_state) SShndx 0 0 0);
       enc_shdr (r_is64 (snd ex_state)) (r_end (snd ex_state)) (slot_header (snd ex_state) SStrtab 0 0 0); enc_shdr (r_is64 (snd ex_state)) (r_end (snd ex_state)) (slot_header (snd ex_state) SShstrtab 0 0 0)]); [lia|reflexivity|reflexivity|].
    intros i h w d Hh Hw Hd. apply five in Hd. destruct Hd as [(-> & ->)|[(-> & ->)|[(-> & ->)|[(-> & ->)|(-> & ->)]]]]; cbn in Hh, Hw;
      injection Hh as <-; injection Hw as <-; first [apply (hc_any _ _ ex_sh)|apply (hc_slot _ (snd ex_state)); [unfold u32_ok; lia|exact I]].
  - intros _. vm_compute. discriminate.
  - unfold fhdr_ok, u16_ok, u32_ok, word_ok, ex_fh; cbn; lia.
  - repeat constructor; cbn; lia.
  - intros w s Hw Hs. assert (U : u32_ok 0 /\ u32_ok 1 /\ u32_ok 2 /\ u32_ok 3 /\ u32_ok 4) by (unfold u32_ok; lia).
    cbn [header_calls ex_writes flat_map app In] in Hw. destruct Hw as [<-|[<-|[<-|[<-|[<-|[]]]]]]; cbn [header_written] in Hs.
    { subst s. repeat split; cbn; lia. }
    all: destruct Hs as (name & Un & _ & ->); unfold shdr_ok, word_ok, slot_header; cbn [sh_name sh_type sh_flags sh_addr sh_offset sh_size sh_link sh_info sh_addralign sh_entsize];
      rewrite ?Vi; pose proof (V SSymtab); pose proof (V SShndx); pose proof (V SStrtab); pose proof (V SShstrtab);
      pose proof (Vn SSymtab); pose proof (Vn SStrtab); pose proof (Vn SShstrtab); pose proof (Vx SStrtab); pose proof (Vx SSymtab);
      match goal with |- context [if r_off ?r SShndx =? 0 then _ else _] => destruct (r_off r SShndx =? 0) | _ => idtac end; unfold u32_ok, u64_ok, wrap_u, sym_size, addr_size in *; repeat (split; [lia|]); lia.
Qed.
