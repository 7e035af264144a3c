(** C41, C42: relocation kinds and Mach-O relocation entries. *)
From Verif Require Import Kind_proofs.

(** C41, ELF.  A generic relocation that the writer accepts gets a type that the reader of the same machine, class and byte
    order reads with the same size and kind ([Relative] and [PltRelative] may be exchanged for calls), and writing what was
    read gives the same type again.  The one exception is a 32-bit relative relocation on RISC-V. *)
Theorem C41_elf : forall a e k enc size t, elf_translate a e k enc size = Ok t ->
  exists m c, elf_machine a = Ok m /\ elf_is_64 a = Ok c /\
  let '(k', enc', size') := elf_parse m c e t in
  (size' = size /\ kind_kept k k' enc' /\ elf_translate a e k' enc' size' = Ok t) \/
  ((a = ARiscv32 \/ a = ARiscv64) /\ k = KRelative /\ size = 32 /\ k' = KUnknown).
Proof. exact elf_round_trip. Qed.
Print Assumptions C41_elf.
(** ... and the architecture is read back from the file header. *)
Theorem C41_elf_architecture : forall a m flags, elf_machine a = Ok m -> (a = AMips -> Z.land flags 32 <> 32) ->
  exists c, elf_is_64 a = Ok c /\ elf_architecture m c (elf_e_flags a flags) = a.
Proof. exact elf_arch_round_trip. Qed.
Print Assumptions C41_elf_architecture.
(** The exception is real: the type written for RISC-V is unknown to the reader. *)
Theorem C41_riscv_refuted : exists t, elf_translate ARiscv64 Little KRelative EGeneric 32 = Ok t /\ elf_parse 243 true Little t = (KUnknown, EUnknown, 0).
Proof. eexists. split; vm_compute; reflexivity. Qed.
Print Assumptions C41_riscv_refuted.
(** So is the exchange of the encodings of SHARC: type B is read as type A. *)
Theorem C41_sharc_refuted : exists t, elf_translate ASharc Little KRelative ESharcTypeB 6 = Ok t /\ elf_parse 133 false Little t = (KRelative, ESharcTypeA, 6).
Proof. eexists. split; vm_compute; reflexivity. Qed.
Print Assumptions C41_sharc_refuted.

(** C41, COFF.  The reader's addend and what the writer stores in the section's data add up to the addend that was given. *)
Theorem C41_coff : forall a e k enc size addend typ, coff_translate a k enc size addend = Ok typ ->
  exists m, coff_machine a e = Ok m /\ coff_architecture m = a /\
  let '(k', enc', size', bias) := coff_parse m typ in
  size' = size /\ coff_kind_kept k k' /\ (enc' = enc \/ enc' = EGeneric) /\ -9 <= bias <= 0 /\
  (forall stored, coff_adjust a typ addend = Ok stored -> bias + stored = addend) /\
  (addend < 2 ^ 63 - 9 -> - 2 ^ 63 <= addend -> exists stored, coff_adjust a typ addend = Ok stored).
Proof. exact coff_round_trip. Qed.
Print Assumptions C41_coff.

(** C41, XCOFF, for the sizes that the field holds. *)
Theorem C41_xcoff : forall k size rt rs, xcoff_translate k size = Ok (rt, rs) -> 1 <= size <= 64 ->
  let '(k', enc', size', bias) := xcoff_parse rt rs in
  k' = k /\ size' = size /\ enc' = EGeneric /\
  (forall addend stored, xcoff_adjust rt addend = Ok stored -> bias + stored = addend) /\
  xcoff_reloc_size rs = Ok size.
Proof. exact xcoff_round_trip. Qed.
Print Assumptions C41_xcoff.
(** Size 0 panics, and a size over 64 is accepted and read as another. *)
Theorem C41_xcoff_size_refuted : xcoff_translate KAbsolute 0 = Panic /\
  exists rt rs, xcoff_translate KAbsolute 128 = Ok (rt, rs) /\ xcoff_parse rt rs = (KAbsolute, EGeneric, 64, 0).
Proof. split; [reflexivity|]. do 2 eexists. split; reflexivity. Qed.
Print Assumptions C41_xcoff_size_refuted.

(** C41, Mach-O (little endian): the entries that the writer emits for a generic relocation are one relocation to the reader:
    same offset, target and subtractor; same kind (a relative relocation of data on ARM64 is a difference from its section);
    same size, but for ARM64 instructions; and the explicit and the in-place addend add up to the addend that was given. *)
Theorem C41_macho : forall a c k enc size offset addend t pcrel len ad1 ad2 imp target sub es rest,
  cpu_of a c ->
  macho_translate a k enc size offset addend = Ok (t, pcrel, len, ad1) -> macho_adjust a t pcrel ad1 = Ok (ad2, imp) ->
  macho_entries a t pcrel len offset target sub (if imp then 0 else ad2) = Ok es ->
  0 <= offset < (if c =? 16777223 then 2 ^ 32 else 2 ^ 31) -> 0 <= fst target < 2 ^ 24 ->
  match sub with Some n => 0 <= n < 2 ^ 24 | None => True end -> (imp = false -> - 2 ^ 23 <= ad2 < 2 ^ 23) ->
  exists x, macho_next Little c 0 None (map (minfo_pack Little) es ++ rest) = Some (x, rest) /\
    rr_offset x = offset /\ rr_subtractor x = sub /\
    rr_target x = (if snd target then TSymbol (fst target) else if fst target =? 0 then TAbsolute else TSection (fst target)) /\
    (if macho_subtracts a k enc then k = KRelative /\ rr_kind x = KAbsolute else kind_kept k (rr_kind x) (rr_enc x)) /\
    (rr_size x = size \/ (rr_enc x = EAArch64Call /\ rr_size x = 26) \/ (a = AAarch64 /\ rr_size x = 32 /\ (size = 12 \/ size = 21 \/ size = 26))) /\
    (pcrel = false \/ a <> AX86_64 \/ size = 32 ->
     rr_addend x + (if imp then ad2 else 0) = (if macho_subtracts a k enc then addend - offset else addend)).
Proof. exact macho_round_trip. Qed.
Print Assumptions C41_macho.
(** An 8-bit PC-relative relocation on x86-64 is written with the bias of a 32-bit one and read with its own. *)
Theorem C41_macho_pcrel8_refuted : exists t len ad es,
  macho_translate AX86_64 KRelative EGeneric 8 16 0 = Ok (t, true, len, 0) /\ macho_adjust AX86_64 t true 0 = Ok (ad, true) /\
  macho_entries AX86_64 t true len 16 (1, true) None 0 = Ok es /\
  exists x, macho_next Little 16777223 0 None (map (minfo_pack Little) es) = Some (x, []) /\ rr_addend x + ad = 3.
Proof. do 4 eexists. split; [reflexivity|]. split; [reflexivity|]. split; [reflexivity|]. eexists. split; vm_compute; reflexivity. Qed.
Print Assumptions C41_macho_pcrel8_refuted.
Example C41_ex : elf_translate AX86_64 Little KRelative EX86RipRelative 32 = Ok 2 /\ elf_parse 62 true Little 2 = (KRelative, EGeneric, 32) /\
  coff_translate AX86_64 KRelative EGeneric 32 (-6) = Ok 6 /\ coff_adjust AX86_64 6 (-6) = Ok 0 /\ coff_parse 34404 6 = (KRelative, EGeneric, 32, -6) /\
  xcoff_translate KRelative 32 = Ok (2, 31) /\ xcoff_parse 2 31 = (KRelative, EGeneric, 32, -4).
Proof. vm_compute. repeat split. Qed.
Example C41_ex_macho : exists t len es,
  macho_translate AX86_64 KPltRelative EX86Branch 32 64 (-4) = Ok (t, true, len, -4) /\ macho_adjust AX86_64 t true (-4) = Ok (0, true) /\
  macho_entries AX86_64 t true len 64 (5, true) None 0 = Ok es /\
  exists x, macho_next Little 16777223 0 None (map (minfo_pack Little) es) = Some (x, []) /\ rr_addend x = -4 /\ rr_kind x = KPltRelative.
Proof. do 3 eexists. split; [reflexivity|]. split; [reflexivity|]. split; [reflexivity|]. eexists. split; [vm_compute; reflexivity|split; reflexivity]. Qed.
Example C41_ex_macho_arm64 : exists t len es,
  macho_translate AAarch64 KPltRelative EAArch64Call 26 64 (-8) = Ok (t, true, len, -8) /\ macho_adjust AAarch64 t true (-8) = Ok (-8, false) /\
  macho_entries AAarch64 t true len 64 (5, true) None (-8) = Ok es /\ length es = 2%nat /\
  exists x, macho_next Little 16777228 0 None (map (minfo_pack Little) es) = Some (x, []) /\ rr_addend x = -8 /\ rr_size x = 26.
Proof. do 3 eexists. split; [reflexivity|]. split; [reflexivity|]. split; [reflexivity|]. split; [reflexivity|]. eexists. split; [vm_compute; reflexivity|split; reflexivity]. Qed.

(** C42: a little-endian Mach-O relocation entry and its fields determine one another. *)
Theorem C42_entry : forall i, 0 <= mi_symbolnum i < 2 ^ 24 -> 0 <= mi_length i < 4 -> 0 <= mi_type i < 16 -> minfo_unpack Little (minfo_pack Little i) = i.
Proof. exact minfo_little. Qed.
Print Assumptions C42_entry.
Theorem C42_word : forall w, 0 <= fst w < 2 ^ 32 -> 0 <= snd w < 2 ^ 32 -> minfo_pack Little (minfo_unpack Little w) = w.
Proof. exact word_little. Qed.
Print Assumptions C42_word.
(** A scattered entry, in either byte order; it is recognized as one except on x86-64. *)
Theorem C42_scattered : forall i, 0 <= si_address i < 2 ^ 24 -> 0 <= si_type i < 16 -> 0 <= si_length i < 4 ->
  sinfo_unpack (sinfo_pack i) = i /\ (forall c, r_scattered c (sinfo_pack i) = negb (c =? 16777223)).
Proof. exact sinfo_ok. Qed.
Print Assumptions C42_scattered.
(** Big endian: the writer shifts the symbol number the wrong way, so that every number from 1 to 255 is read as 0 *)
Theorem C42_big_refuted : forall i, 0 < mi_symbolnum i < 256 -> 0 <= mi_length i < 4 -> 0 <= mi_type i < 16 ->
  mi_symbolnum (minfo_unpack Big (minfo_pack Big i)) = 0.
Proof.
  intros i Hs Hl Ht. unfold minfo_unpack, minfo_pack. cbn [fst snd mi_symbolnum]. rewrite (Z.shiftr_div_pow2 (mi_symbolnum i)) by lia.
  rewrite Z.div_small by lia. rewrite Z.shiftr_div_pow2 by lia. apply Z.div_small.
  assert (mi_length i = 0 \/ mi_length i = 1 \/ mi_length i = 2 \/ mi_length i = 3) as Hd by lia.
  assert (mi_type i = 0 \/ mi_type i = 1 \/ mi_type i = 2 \/ mi_type i = 3 \/ mi_type i = 4 \/ mi_type i = 5 \/ mi_type i = 6 \/ mi_type i = 7 \/
    mi_type i = 8 \/ mi_type i = 9 \/ mi_type i = 10 \/ mi_type i = 11 \/ mi_type i = 12 \/ mi_type i = 13 \/ mi_type i = 14 \/ mi_type i = 15) as Ht' by lia.
  clear Hs Hl Ht. destruct (mi_pcrel i), (mi_extern i); destruct Hd as [->|[->|[->| ->]]];
  repeat (destruct Ht' as [->|Ht']; [vm_compute; split; [intros [=]|reflexivity]|]); rewrite Ht'; vm_compute; split; try reflexivity; intros [=].
Qed.
Print Assumptions C42_big_refuted.
(** The entries of any relocations, one after the other, are read as those relocations in that order, each with its pairs. *)
Theorem C42_iterator : forall a c rs es, cpu_of a c -> Forall (mrel_ok c) rs ->
  Forall2 (fun r l => macho_entries a (mr_type r) (mr_pcrel r) (mr_length r) (mr_offset r) (mr_target r) (mr_sub r) (mr_addend r) = Ok l) rs es ->
  exists xs, Forall2 (reads_as c) rs xs /\ forall fuel, (length rs <= fuel)%nat -> macho_relocs fuel Little c (map (minfo_pack Little) (concat es)) = xs.
Proof.
  intros a c rs es Hc Hr He. destruct (relocs_all a c rs es Hc Hr He) as (xs & F & _ & E). exists xs. split; [exact F|].
  intros fuel Hf. specialize (E fuel [] Hf). rewrite app_nil_r in E. rewrite E.
  assert (macho_relocs (fuel - length rs) Little c [] = []) as -> by (destruct (fuel - length rs)%nat; reflexivity). apply app_nil_r.
Qed.
Print Assumptions C42_iterator.
(** The writer emits a section's relocations in the order given or in reverse; ascending offsets become descending. *)
Theorem C42_order : forall A (off : A -> Z) l, (reloc_order off l = l \/ reloc_order off l = rev l) /\
  (Sorted.StronglySorted (fun x y => off x < off y) l -> Sorted.StronglySorted (fun x y => off x > off y) (reloc_order off l)).
Proof. intros. split; [apply reloc_order_perm|apply reloc_order_desc]. Qed.
Print Assumptions C42_order.

Definition ex_rs : list mrel := [
  {| mr_offset := 32; mr_type := 2; mr_pcrel := true; mr_length := 2; mr_target := (7, true); mr_sub := None; mr_addend := -8 |};
  {| mr_offset := 16; mr_type := 0; mr_pcrel := false; mr_length := 3; mr_target := (3, true); mr_sub := Some 9; mr_addend := 0 |};
  {| mr_offset := 0; mr_type := 0; mr_pcrel := false; mr_length := 3; mr_target := (1, false); mr_sub := None; mr_addend := 0 |}].
Example C42_ex_hyps : cpu_of AAarch64 16777228 /\ Forall (mrel_ok 16777228) ex_rs.
Proof. split; [reflexivity|]. repeat constructor; cbn; try lia; unfold is_pair; lia. Qed.
Example C42_ex : map (fun x => (rr_offset x, rr_kind x, rr_target x, rr_subtractor x, rr_addend x)) (macho_relocs 3 Little 16777228 (map (minfo_pack Little)
  (concat (map (fun r => match entries_of AAarch64 r with Ok l => l | _ => [] end) ex_rs)))) =
  [(32, KPltRelative, TSymbol 7, None, -8); (16, KAbsolute, TSymbol 3, Some 9, 0); (0, KAbsolute, TSection 1, None, 0)].
Proof. vm_compute. reflexivity. Qed.
Example C42_ex_big : mi_symbolnum (minfo_unpack Big (minfo_pack Big {| mi_address := 0; mi_symbolnum := 5; mi_pcrel := false; mi_length := 2; mi_extern := true; mi_type := 0 |})) = 0.
Proof. reflexivity. Qed.
