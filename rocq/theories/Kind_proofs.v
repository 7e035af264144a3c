(** Proofs about relocation kinds. *)
From Verif Require Import Core_proofs Util_proofs Hash_proofs Rel_proofs ElfR_proofs.
From Verif Require Export Kind_spec.

(** * Enumerations *)
Definition all_enc : list renc := [EUnknown; EGeneric; EX86Signed; EX86RipRelative; EX86RipRelativeMovq; EX86Branch; ES390xDbl;
  EAArch64Call; ELoongArchBranch; ESharcTypeA; ESharcTypeB; EE2KLit; EE2KDisp].
Lemma all_enc_in x : In x all_enc. Proof. destruct x; cbv; tauto. Qed.
Lemma arch_eq a b : arch_beq a b = true -> a = b. Proof. apply internal_arch_dec_bl. Qed.
Lemma rkind_eq a b : rkind_beq a b = true -> a = b. Proof. apply internal_rkind_dec_bl. Qed.
Lemma renc_eq a b : renc_beq a b = true -> a = b. Proof. apply internal_renc_dec_bl. Qed.

Definition kind_kept_b (k k' : rkind) (enc' : renc) : bool :=
  rkind_beq k' k || ((renc_beq enc' EAArch64Call || renc_beq enc' EX86Branch || renc_beq enc' ELoongArchBranch) &&
    (rkind_beq k KRelative || rkind_beq k KPltRelative) && (rkind_beq k' KRelative || rkind_beq k' KPltRelative)).
Lemma kind_kept_b_ok k k' enc' : kind_kept_b k k' enc' = true -> kind_kept k k' enc'.
Proof.
  unfold kind_kept_b, kind_kept, is_call. intros H. apply orb_prop in H as [H|H]; [left; apply rkind_eq, H|right].
  rewrite !andb_true_iff, !orb_true_iff in H. destruct H as [[[[H1|H1]|H1] [H2|H2]] [H3|H3]];
  apply renc_eq in H1; apply rkind_eq in H2; apply rkind_eq in H3; subst; tauto.
Qed.

(** * ELF *)
Definition out_eqb (x : out Z) (t : Z) : bool := match x with Ok y => y =? t | _ => false end.
Definition elf_good (a : arch) (e : endian) (k : rkind) (enc : renc) (size : Z) : bool :=
  match elf_translate a e k enc size with
  | Ok t =>
    match elf_machine a, elf_is_64 a, elf_has_addend a with
    | Ok m, Ok c, Ok _ =>
      arch_beq (elf_architecture m c (elf_e_flags a 0)) a &&
      let '(k', enc', size') := elf_parse m c e t in
      ((arch_beq a ARiscv32 || arch_beq a ARiscv64) && rkind_beq k KRelative && (size =? 32) && rkind_beq k' KUnknown) ||
      ((size' =? size) && kind_kept_b k k' enc' && out_eqb (elf_translate a e k' enc' size') t)
    | _, _, _ => false
    end
  | _ => true
  end.
Lemma elf_good_all : forallb (fun r => let '(a, _, k, _, s, _) := r in forallb (fun e => forallb (fun enc => elf_good a e k enc s) all_enc) [Little; Big]) elf_write_rows = true.
Proof. vm_compute. reflexivity. Qed.
Lemma elf_translate_row a e k enc size t : elf_translate a e k enc size = Ok t ->
  exists e' enc', In (a, e', k, enc', size, t) elf_write_rows.
Proof.
  unfold elf_translate. destruct (find _ elf_write_rows) as [[[[[[a' e'] k'] enc'] s'] t']|] eqn:F; [|discriminate].
  intros [= <-]. apply find_some in F as [Hin Hm]. rewrite !andb_true_iff in Hm. destruct Hm as [[[[H1 _] H2] _] H3].
  apply arch_eq in H1 as ->. apply rkind_eq in H2 as ->. apply Z.eqb_eq in H3 as ->. eauto.
Qed.
Lemma elf_good_ok a e k enc size t : elf_translate a e k enc size = Ok t -> elf_good a e k enc size = true.
Proof.
  intros H. destruct (elf_translate_row _ _ _ _ _ _ H) as (e' & enc' & Hin).
  pose proof elf_good_all as G. rewrite forallb_forall in G. specialize (G _ Hin). cbv beta iota in G.
  rewrite forallb_forall in G. specialize (G e ltac:(destruct e; cbn; auto)). cbv beta in G.
  rewrite forallb_forall in G. exact (G enc (all_enc_in enc)).
Qed.
Lemma elf_round_trip a e k enc size t : elf_translate a e k enc size = Ok t ->
  exists m c, elf_machine a = Ok m /\ elf_is_64 a = Ok c /\
  let '(k', enc', size') := elf_parse m c e t in
  (size' = size /\ kind_kept k k' enc' /\ elf_translate a e k' enc' size' = Ok t) \/
  ((a = ARiscv32 \/ a = ARiscv64) /\ k = KRelative /\ size = 32 /\ k' = KUnknown).
Proof.
  intros H. pose proof (elf_good_ok _ _ _ _ _ _ H) as G. unfold elf_good in G. rewrite H in G.
  destruct (elf_machine a) as [m| |]; try discriminate G. destruct (elf_is_64 a) as [c| |]; try discriminate G.
  destruct (elf_has_addend a) as [ad| |]; try discriminate G. exists m, c. split; [reflexivity|]. split; [reflexivity|].
  destruct (elf_parse m c e t) as [[k' enc'] s']. apply andb_prop in G as [_ G]. apply orb_prop in G as [G|G].
  - right. rewrite !andb_true_iff, orb_true_iff in G. destruct G as [[[G1 G2] G3] G4].
    apply rkind_eq in G2, G4. apply Z.eqb_eq in G3. split; [|tauto]. destruct G1 as [G1|G1]; apply arch_eq in G1; tauto.
  - left. rewrite !andb_true_iff in G. destruct G as [[G1 G2] G3]. apply Z.eqb_eq in G1. split; [exact G1|].
    split; [apply kind_kept_b_ok, G2|]. unfold out_eqb in G3. destruct (elf_translate a e k' enc' s') as [x| |]; try discriminate.
    apply Z.eqb_eq in G3 as ->. reflexivity.
Qed.
Definition all_arch : list arch := [AUnknown; AAarch64; AAarch64_Ilp32; AAlpha; AArm; AAvr; ABpf; ACsky; AE2K32; AE2K64; AI386; AX86_64;
  AX86_64_X32; AHexagon; AHppa; AIa64; ALoongArch32; ALoongArch64; AM68k; AMips; AMips64; AMips64_N32; AMsp430; APowerPc; APowerPc64;
  ARiscv32; ARiscv64; AS390x; ASbf; ASharc; ASparc; ASparc32Plus; ASparc64; ASuperH; AWasm32; AWasm64; AXtensa].
(** The architecture is read back from the file header, whatever the other flags *)
Lemma elf_arch_round_trip a m flags : elf_machine a = Ok m -> (a = AMips -> Z.land flags 32 <> 32) ->
  exists c, elf_is_64 a = Ok c /\ elf_architecture m c (elf_e_flags a flags) = a.
Proof.
  intros H Hf. destruct a; vm_compute in H; try discriminate H; injection H as <-; (eexists; split; [reflexivity|]);
  cbn [elf_e_flags elf_architecture]; try reflexivity.
  - destruct (Z.eqb_spec (Z.land flags 32) 32) as [E|E]; [exfalso; apply Hf; auto|reflexivity].
  - replace (Z.land (Z.lor flags 32) 32) with 32; [reflexivity|]. symmetry. apply Z.bits_inj'. intros n Hn. rewrite Z.land_spec, Z.lor_spec.
    destruct (Z.testbit flags n), (Z.testbit 32 n); reflexivity.
Qed.

(** * COFF *)
Definition coff_off (a : arch) (typ : Z) : Z :=
  match find (fun '(a', t, _) => arch_beq a' a && (t =? typ)) coff_adjust_rows with Some (_, o) => o | None => 0 end.
Definition coff_good (r : arch * rkind * option renc * Z * option Z * Z) : bool :=
  let '(a, k, enc, size, _, typ) := r in
  match coff_machine a Little, coff_machine a Big with
  | Ok m, Ok m2 =>
    (m =? m2) && arch_beq (coff_architecture m) a &&
    match a with AArm | AAarch64 | AI386 | AX86_64 => true | _ => false end &&
    let '(k', enc', size', bias) := coff_parse m typ in
    rkind_beq k' k && (size' =? size) && (bias =? - coff_off a typ) &&
    match enc with Some x => renc_beq enc' x | None => renc_beq enc' EGeneric end
  | _, _ => false
  end.
Lemma coff_good_all : forallb coff_good coff_write_rows = true.
Proof. vm_compute. reflexivity. Qed.
Lemma iadd_inv a b v : iadd a b = Ok v -> v = a + b /\ - 2 ^ 63 <= v < 2 ^ 63.
Proof. unfold iadd. destruct (_ && _) eqn:E; [|discriminate]. intros [= <-]. lia. Qed.
Lemma coff_round_trip a e k enc size addend typ : coff_translate a k enc size addend = Ok typ ->
  exists m, coff_machine a e = Ok m /\ coff_architecture m = a /\
  let '(k', enc', size', bias) := coff_parse m typ in
  size' = size /\ coff_kind_kept k k' /\ (enc' = enc \/ enc' = EGeneric) /\ -9 <= bias <= 0 /\
  (forall stored, coff_adjust a typ addend = Ok stored -> bias + stored = addend) /\
  (addend < 2 ^ 63 - 9 -> - 2 ^ 63 <= addend -> exists stored, coff_adjust a typ addend = Ok stored).
Proof.
  unfold coff_translate. destruct (find _ coff_write_rows) as [[[[[[a' k0] enc0] s0] ad0] t0]|] eqn:F; [|discriminate].
  intros [= ->]. apply find_some in F as [Hin Hm]. rewrite !andb_true_iff in Hm. destruct Hm as [[[[H1 H2] H3] H4] _].
  apply arch_eq in H1 as ->. apply rkind_eq in H2 as ->. apply Z.eqb_eq in H4 as ->.
  pose proof coff_good_all as G. rewrite forallb_forall in G. specialize (G _ Hin). unfold coff_good in G.
  destruct (coff_machine a Little) as [m| |] eqn:M1; try discriminate G.
  destruct (coff_machine a Big) as [m2| |] eqn:M2; try discriminate G.
  rewrite !andb_true_iff in G. destruct G as [[[G0 G1] G2] G3]. apply Z.eqb_eq in G0 as <-. apply arch_eq in G1.
  exists m. split; [destruct e; assumption|]. split; [exact G1|].
  destruct (coff_parse m typ) as [[[k' enc'] s'] bias]. rewrite !andb_true_iff in G3. destruct G3 as [[[G3 G4] G5] G6].
  apply rkind_eq in G3 as ->. apply Z.eqb_eq in G4 as ->. apply Z.eqb_eq in G5.
  split; [reflexivity|]. split.
  { unfold coff_kind_kept, coff_kind. destruct k; auto. }
  split. { destruct enc0 as [x|]; [left|right]; [|apply renc_eq, G6]. cbn in H3. apply renc_eq in H3, G6. congruence. }
  assert (coff_adjust a typ addend = iadd addend (coff_off a typ)) as EA by (destruct a; try discriminate G2; reflexivity).
  assert (0 <= coff_off a typ <= 9) as Hoff.
  { unfold coff_off. destruct (find _ coff_adjust_rows) as [[[a2 t2] o]|] eqn:F; [|lia]. apply find_some in F as [F _].
    assert (forallb (fun '(_, o) => (0 <=? o) && (o <=? 9)) coff_adjust_rows = true) as A by reflexivity.
    rewrite forallb_forall in A. specialize (A _ F). cbv beta iota in A. lia. }
  split; [lia|]. rewrite EA. split.
  - intros stored Hs. apply iadd_inv in Hs. lia.
  - intros Ha1 Ha2. unfold iadd. destruct (_ && _) eqn:E; [eauto|]. lia.
Qed.

(** * XCOFF *)
Lemma xcoff_round_trip k size rt rs : xcoff_translate k size = Ok (rt, rs) -> 1 <= size <= 64 ->
  let '(k', enc', size', bias) := xcoff_parse rt rs in
  k' = k /\ size' = size /\ enc' = EGeneric /\
  (forall addend stored, xcoff_adjust rt addend = Ok stored -> bias + stored = addend) /\
  xcoff_reloc_size rs = Ok size.
Proof.
  unfold xcoff_translate. intros H Hs. 
  assert (exists t, match k with KAbsolute => Ok 0 | KRelative => Ok 2 | KGot => Ok 3 | _ => Err end = Ok t /\ psub size 1 = Ok rs /\ rt = t) as (t & Ht & Hp & ->).
  { destruct k; cbn [bind] in H; try discriminate H; destruct (psub size 1); cbn [bind] in H; try discriminate H; injection H as <- <-; eauto. }
  unfold psub in Hp. destruct (1 <=? size) eqn:E; [|lia]. injection Hp as <-.
  assert (Z.land (size - 1) 63 = size - 1) as L.
  { change 63 with (Z.ones 6). rewrite Z.land_ones by lia. apply Z.mod_small. lia. }
  assert (xcoff_reloc_size (size - 1) = Ok size) as RS.
  { unfold xcoff_reloc_size, padd. destruct (size - 1 + 1 <? 2 ^ 8) eqn:E2; [f_equal; lia|lia]. }
  unfold xcoff_parse, xcoff_adjust. rewrite L.
  destruct k; try discriminate Ht; injection Ht as <-; cbv beta iota; 
  (split; [reflexivity|]; split; [lia|]; split; [reflexivity|]; split; [|exact RS]); cbn [Z.eqb Pos.eqb]; intros addend stored H1.
  - injection H1 as <-. reflexivity.
  - apply iadd_inv in H1. lia.
  - injection H1 as <-. reflexivity.
Qed.

(** * Mach-O relocation entries *)
Lemma land_ones' x n k : 0 <= n -> k = Z.ones n -> Z.land x k = x mod 2 ^ n.
Proof. intros Hn ->. apply Z.land_ones, Hn. Qed.
Lemma b2z_bound b : 0 <= Z.b2z b <= 1. Proof. destruct b; cbn; lia. Qed.
Lemma b2z_negb b : negb (Z.b2z b =? 0) = b. Proof. destruct b; reflexivity. Qed.
Lemma z_b2z_eqb x : 0 <= x < 2 -> Z.b2z (negb (x =? 0)) = x.
Proof. intros. assert (x = 0 \/ x = 1) as [->| ->] by lia; reflexivity. Qed.

(** the packed word, as a number *)
Lemma pack_little i : 0 <= mi_symbolnum i -> 0 <= mi_type i < 16 ->
  snd (minfo_pack Little i) = mi_symbolnum i mod 2 ^ 24 + Z.b2z (mi_pcrel i) * 2 ^ 24 + mi_length i mod 4 * 2 ^ 25 + Z.b2z (mi_extern i) * 2 ^ 27 + mi_type i * 2 ^ 28.
Proof.
  intros Hs Ht. unfold minfo_pack. cbn [snd]. unfold wrap_u. pose proof (b2z_bound (mi_pcrel i)). pose proof (b2z_bound (mi_extern i)).
  rewrite (land_ones' (mi_symbolnum i) 24) by (reflexivity || lia). rewrite (land_ones' (mi_length i) 2) by (reflexivity || lia).
  rewrite !Z.shiftl_mul_pow2 by lia. change (2 ^ 2) with 4.
  pose proof (Z.mod_pos_bound (mi_symbolnum i) (2 ^ 24) ltac:(lia)). pose proof (Z.mod_pos_bound (mi_length i) 4 ltac:(lia)).
  rewrite (Z.mod_small (_ * 2 ^ 28)) by lia.
  rewrite (lor_add' _ (mi_symbolnum i mod 2 ^ 24) 24) by lia. rewrite (lor_add' _ _ 25) by lia. rewrite (lor_add' _ _ 27) by lia. rewrite (lor_add' _ _ 28) by lia. reflexivity.
Qed.
Lemma minfo_little i : 0 <= mi_symbolnum i < 2 ^ 24 -> 0 <= mi_length i < 4 -> 0 <= mi_type i < 16 -> minfo_unpack Little (minfo_pack Little i) = i.
Proof.
  intros Hs Hl Ht. unfold minfo_unpack. rewrite pack_little by lia. cbn [fst minfo_pack].
  rewrite (Z.mod_small (mi_symbolnum i)), (Z.mod_small (mi_length i)) by lia.
  rewrite (land_ones' _ 24) by (reflexivity || lia). rewrite !(land_ones' _ 1 1) by (reflexivity || lia). rewrite (land_ones' _ 2) by (reflexivity || lia).
  rewrite !Z.shiftr_div_pow2 by lia. pose proof (b2z_bound (mi_pcrel i)). pose proof (b2z_bound (mi_extern i)).
  destruct i as [ad s p l x t]. cbn [mi_address mi_symbolnum mi_pcrel mi_length mi_extern mi_type] in *. unfold wrap_u.
  f_equal.
  - Z.to_euclidean_division_equations; lia.
  - rewrite <- (b2z_negb p) at 2. do 2 f_equal. Z.to_euclidean_division_equations; lia.
  - Z.to_euclidean_division_equations; lia.
  - rewrite <- (b2z_negb x) at 2. do 2 f_equal. Z.to_euclidean_division_equations; lia.
  - Z.to_euclidean_division_equations; lia.
Qed.
Lemma word_little w : 0 <= fst w < 2 ^ 32 -> 0 <= snd w < 2 ^ 32 -> minfo_pack Little (minfo_unpack Little w) = w.
Proof.
  destruct w as [w0 w1]. cbn [fst snd]. intros H0 H1. 
  assert (0 <= w1 / 2 ^ 28 < 16) as Ht by (Z.to_euclidean_division_equations; lia).
  apply injective_projections; [reflexivity|]. rewrite pack_little.
  - unfold minfo_unpack. cbn [fst snd mi_address mi_symbolnum mi_pcrel mi_length mi_extern mi_type]. unfold wrap_u.
    rewrite (land_ones' _ 24) by (reflexivity || lia). rewrite !(land_ones' _ 1 1) by (reflexivity || lia). rewrite (land_ones' _ 2) by (reflexivity || lia).
    rewrite !Z.shiftr_div_pow2 by lia. rewrite !z_b2z_eqb by (apply Z.mod_pos_bound; lia).
    Z.to_euclidean_division_equations; lia.
  - unfold minfo_unpack. cbn [fst snd mi_symbolnum]. rewrite (land_ones' _ 24) by (reflexivity || lia). apply Z.mod_pos_bound. lia.
  - unfold minfo_unpack. cbn [fst snd mi_type]. unfold wrap_u. rewrite Z.shiftr_div_pow2 by lia. rewrite Z.mod_small; lia.
Qed.
Lemma sinfo_ok i : 0 <= si_address i < 2 ^ 24 -> 0 <= si_type i < 16 -> 0 <= si_length i < 4 ->
  sinfo_unpack (sinfo_pack i) = i /\ (forall c, r_scattered c (sinfo_pack i) = negb (c =? 16777223)).
Proof.
  intros Ha Ht Hl. assert (fst (sinfo_pack i) = si_address i + si_type i * 2 ^ 24 + si_length i * 2 ^ 28 + Z.b2z (si_pcrel i) * 2 ^ 30 + 1 * 2 ^ 31) as E.
  { unfold sinfo_pack. cbn [fst]. pose proof (b2z_bound (si_pcrel i)).
    rewrite (land_ones' _ 24), (land_ones' _ 4), (land_ones' _ 2) by (reflexivity || lia).
    rewrite !Z.shiftl_mul_pow2 by lia. rewrite !Z.mod_small by lia. change 2147483648 with (1 * 2 ^ 31).
    rewrite (lor_add' _ _ 24) by lia. rewrite (lor_add' _ _ 28) by lia. rewrite (lor_add' _ _ 30) by lia. rewrite (lor_add' _ _ 31) by lia. reflexivity. }
  pose proof (b2z_bound (si_pcrel i)). split.
  - unfold sinfo_unpack. rewrite E. change (snd (sinfo_pack i)) with (si_value i).
    rewrite (land_ones' _ 24), (land_ones' _ 4), (land_ones' _ 2), (land_ones' _ 1 1) by (reflexivity || lia).
    rewrite !Z.shiftr_div_pow2 by lia. destruct i as [ad t l p v]. cbn [si_address si_type si_length si_pcrel si_value] in *. f_equal.
    + Z.to_euclidean_division_equations; lia.
    + Z.to_euclidean_division_equations; lia.
    + Z.to_euclidean_division_equations; lia.
    + rewrite <- (b2z_negb p) at 2. do 2 f_equal. Z.to_euclidean_division_equations; lia.
  - intros c. unfold r_scattered. destruct (c =? 16777223); [reflexivity|]. cbn [negb]. 
    destruct (Z.land (fst (sinfo_pack i)) 2147483648 =? 0) eqn:E2; [|reflexivity]. exfalso. apply Z.eqb_eq in E2.
    assert (Z.testbit (Z.land (fst (sinfo_pack i)) 2147483648) 31 = false) as T by (rewrite E2; apply Z.bits_0).
    rewrite Z.land_spec in T. change (Z.testbit 2147483648 31) with true in T. rewrite andb_true_r in T.
    rewrite Z.testbit_false in T by lia. rewrite E in T. Z.to_euclidean_division_equations; lia.
Qed.

(** * The Mach-O relocation iterator *)
Lemma not_scattered c w : 0 <= fst w < (if c =? 16777223 then 2 ^ 32 else 2 ^ 31) -> r_scattered c w = false.
Proof.
  unfold r_scattered. destruct (c =? 16777223); [reflexivity|]. intros H. 
  replace (Z.land (fst w) 2147483648) with 0; [reflexivity|]. symmetry. apply Z.bits_inj'. intros n Hn. rewrite Z.land_spec, Z.bits_0.
  change 2147483648 with (2 ^ 31). rewrite Z.pow2_bits_eqb by lia. destruct (Z.eqb_spec 31 n) as [<-|]; [|apply andb_false_r].
  rewrite andb_true_r. apply Z.testbit_false; [lia|]. rewrite Z.div_small by lia. reflexivity.
Qed.
Lemma wrap_s_24 v : - 2 ^ 23 <= v < 2 ^ 23 -> wrap_s 24 (wrap_u 32 v mod 2 ^ 24) = v.
Proof. intros H. unfold wrap_s, wrap_u. change (24 - 1) with 23. Z.to_euclidean_division_equations; lia. Qed.
Lemma parse_pair c i : (c = 12 \/ c = 16777228 \/ c = 33554444 \/ c = 7 \/ c = 16777223 \/ c = 18 \/ c = 16777234) -> 0 <= mi_type i < 16 -> ~ is_pair c (mi_type i) -> exists k enc size, macho_parse c i = MKind k enc size.
Proof.
  intros Hc Ht Hp. unfold macho_parse.
  assert (mi_type i = 0 \/ mi_type i = 1 \/ mi_type i = 2 \/ mi_type i = 3 \/ mi_type i = 4 \/ mi_type i = 5 \/ mi_type i = 6 \/ mi_type i = 7 \/
    mi_type i = 8 \/ mi_type i = 9 \/ mi_type i = 10 \/ mi_type i = 11 \/ mi_type i = 12 \/ mi_type i = 13 \/ mi_type i = 14 \/ mi_type i = 15) as Hd by lia.
  unfold is_pair in Hp. destruct (mi_pcrel i); destruct Hc as [->|[->|[->|[->|[->|[->| ->]]]]]];
  repeat (destruct Hd as [Hd|Hd]; [rewrite Hd in *; try (do 3 eexists; reflexivity); exfalso; apply Hp; tauto|]);
  rewrite Hd in *; do 3 eexists; reflexivity.
Qed.
Lemma cpu_cases a c : cpu_of a c -> c = 12 \/ c = 16777228 \/ c = 33554444 \/ c = 7 \/ c = 16777223 \/ c = 18 \/ c = 16777234.
Proof. unfold cpu_of, macho_cputype. destruct a; intros [= <-]; tauto. Qed.

Definition final_info (r : mrel) : minfo :=
  {| mi_address := mr_offset r; mi_symbolnum := fst (mr_target r); mi_pcrel := mr_pcrel r; mi_length := mr_length r; mi_extern := snd (mr_target r); mi_type := mr_type r |}.
Definition entries_of (a : arch) (r : mrel) : out (list minfo) :=
  macho_entries a (mr_type r) (mr_pcrel r) (mr_length r) (mr_offset r) (mr_target r) (mr_sub r) (mr_addend r).
Definition rrel_of (c : Z) (r : mrel) (k : rkind) (enc : renc) (size : Z) : rrel :=
  {| rr_offset := mr_offset r; rr_kind := k; rr_enc := enc; rr_size := size;
     rr_target := if snd (mr_target r) then TSymbol (fst (mr_target r)) else if fst (mr_target r) =? 0 then TAbsolute else TSection (fst (mr_target r));
     rr_subtractor := mr_sub r; rr_addend := mr_addend r - macho_pcrel_bias c (final_info r); rr_implicit := mr_addend r =? 0;
     rr_flags := RFmacho (mr_type r) (mr_pcrel r) (mr_length r) |}.

Lemma next_final c r k enc size paired sub rest : mrel_ok c r -> macho_parse c (final_info r) = MKind k enc size ->
  macho_next Little c paired sub (minfo_pack Little (final_info r) :: rest) =
  Some ({| rr_offset := mr_offset r; rr_kind := k; rr_enc := enc; rr_size := size;
     rr_target := if snd (mr_target r) then TSymbol (fst (mr_target r)) else if fst (mr_target r) =? 0 then TAbsolute else TSection (fst (mr_target r));
     rr_subtractor := sub; rr_addend := paired - macho_pcrel_bias c (final_info r); rr_implicit := paired =? 0;
     rr_flags := RFmacho (mr_type r) (mr_pcrel r) (mr_length r) |}, rest).
Proof.
  intros [Ho Ht Hp Hl Htg Hs Ha] Hk. cbn [macho_next]. rewrite not_scattered by exact Ho.
  rewrite minfo_little by assumption. rewrite Hk. reflexivity.
Qed.
Lemma next_pair c i paired sub rest : 0 <= mi_address i < (if c =? 16777223 then 2 ^ 32 else 2 ^ 31) -> 0 <= mi_length i < 4 -> 0 <= mi_type i < 16 -> 0 <= mi_symbolnum i ->
  macho_next Little c paired sub (minfo_pack Little i :: rest) =
  let i' := {| mi_address := mi_address i; mi_symbolnum := mi_symbolnum i mod 2 ^ 24; mi_pcrel := mi_pcrel i; mi_length := mi_length i; mi_extern := mi_extern i; mi_type := mi_type i |} in
  match macho_parse c i' with
  | MAddend => macho_next Little c (wrap_s 24 (mi_symbolnum i')) sub rest
  | MSubtractor => macho_next Little c paired (Some (mi_symbolnum i')) rest
  | _ => macho_next Little c paired sub (minfo_pack Little i :: rest)
  end.
Proof.
  intros Ha Hl Ht Hs. cbv zeta. 
  assert (minfo_pack Little i = minfo_pack Little {| mi_address := mi_address i; mi_symbolnum := mi_symbolnum i mod 2 ^ 24; mi_pcrel := mi_pcrel i; mi_length := mi_length i; mi_extern := mi_extern i; mi_type := mi_type i |}) as E.
  { apply injective_projections; [reflexivity|]. rewrite !pack_little; cbn [mi_address mi_symbolnum mi_pcrel mi_length mi_extern mi_type]; try lia.
  }
  rewrite E. cbn [macho_next]. rewrite not_scattered by exact Ha. rewrite minfo_little; cbn [mi_symbolnum mi_length mi_type]; try lia.
  destruct (macho_parse c _); reflexivity.
Qed.
Lemma next_entries a c r es rest : cpu_of a c -> mrel_ok c r -> entries_of a r = Ok es ->
  exists k enc size, macho_parse c (final_info r) = MKind k enc size /\
  macho_next Little c 0 None (map (minfo_pack Little) es ++ rest) = Some (rrel_of c r k enc size, rest).
Proof.
  intros Hc Hr He. pose proof Hr as [Ho Ht Hp Hl Htg Hs Ha].
  destruct (parse_pair c (final_info r) (cpu_cases _ _ Hc) Ht Hp) as (k & enc & size & Hk). exists k, enc, size. split; [exact Hk|].
  assert (0 <= mr_offset r < 2 ^ 32) as Ho' by (destruct (c =? 16777223); lia).
  assert (wrap_u 32 (mr_offset r) = mr_offset r) as Hw by (apply wrap_u_id; lia).
  unfold entries_of, macho_entries in He. rewrite Hw in He. fold (final_info r) in He.
  destruct (mr_sub r) as [n|] eqn:Esub.
  - assert ((exists t, match a with AAarch64 | AAarch64_Ilp32 => Ok 1 | AX86_64 => Ok 5 | _ => Err end = Ok t /\ 0 <= t < 16 /\ forall i, mi_type i = t -> macho_parse c i = MSubtractor)) as (t & Et & Htb & Hsub).
    { unfold cpu_of, macho_cputype in Hc. destruct a; cbn [bind] in He; try discriminate He; injection Hc as <-; eexists; (split; [reflexivity|]); (split; [lia|]); intros i Hi; unfold macho_parse; rewrite Hi; reflexivity. }
    rewrite Et in He. cbn [bind] in He. destruct (Z.eqb_spec (mr_addend r) 0) as [E0|E0].
    + cbn [bind app] in He. injection He as <-. cbn [map app]. rewrite next_pair; cbn [mi_address mi_symbolnum mi_pcrel mi_length mi_extern mi_type]; try lia.
      cbv zeta. rewrite Hsub by reflexivity. rewrite Z.mod_small by lia. change (fst (mr_target r)) with (mi_symbolnum (final_info r)).
      rewrite (next_final _ _ k enc size) by assumption. unfold rrel_of. rewrite Esub, E0. reflexivity.
    + destruct (match a with AAarch64 | AAarch64_Ilp32 => Ok 10 | _ => Err end) as [ta| |] eqn:Eta; cbn [bind] in He; try discriminate He.
      assert (ta = 10 /\ forall i, mi_type i = 10 -> macho_parse c i = MAddend) as [-> Hadd].
      { unfold cpu_of, macho_cputype in Hc. destruct a; try discriminate Eta; injection Hc as <-; injection Eta as <-; (split; [reflexivity|]); intros i Hi; unfold macho_parse; rewrite Hi; reflexivity. }
      injection He as <-. cbn [map app]. rewrite next_pair; cbn [mi_address mi_symbolnum mi_pcrel mi_length mi_extern mi_type]; try lia.
      cbv zeta. rewrite Hsub by reflexivity. rewrite next_pair; cbn [mi_address mi_symbolnum mi_pcrel mi_length mi_extern mi_type]; try lia; try (unfold wrap_u; apply Z.mod_pos_bound; lia).
      cbv zeta. rewrite Hadd by reflexivity. cbn [mi_symbolnum]. rewrite wrap_s_24 by lia. rewrite (Z.mod_small n) by lia.
      change (minfo_pack Little {| mi_address := mr_offset r; mi_symbolnum := fst (mr_target r); mi_pcrel := mr_pcrel r; mi_length := mr_length r; mi_extern := snd (mr_target r); mi_type := mr_type r |}) with (minfo_pack Little (final_info r)).
      rewrite (next_final _ _ k enc size) by assumption. unfold rrel_of. rewrite Esub. reflexivity.
  - cbn [bind] in He. destruct (Z.eqb_spec (mr_addend r) 0) as [E0|E0].
    + cbn [bind app] in He. injection He as <-. cbn [map app]. rewrite (next_final _ _ k enc size) by assumption. unfold rrel_of. rewrite Esub, E0. reflexivity.
    + destruct (match a with AAarch64 | AAarch64_Ilp32 => Ok 10 | _ => Err end) as [ta| |] eqn:Eta; cbn [bind] in He; try discriminate He.
      assert (ta = 10 /\ forall i, mi_type i = 10 -> macho_parse c i = MAddend) as [-> Hadd].
      { unfold cpu_of, macho_cputype in Hc. destruct a; try discriminate Eta; injection Hc as <-; injection Eta as <-; (split; [reflexivity|]); intros i Hi; unfold macho_parse; rewrite Hi; reflexivity. }
      injection He as <-. cbn [map app]. rewrite next_pair; cbn [mi_address mi_symbolnum mi_pcrel mi_length mi_extern mi_type]; try lia; try (unfold wrap_u; apply Z.mod_pos_bound; lia).
      cbv zeta. rewrite Hadd by reflexivity. cbn [mi_symbolnum]. rewrite wrap_s_24 by lia.
      rewrite (next_final _ _ k enc size) by assumption. unfold rrel_of. rewrite Esub. reflexivity.
Qed.
Lemma rrel_reads c r k enc size : reads_as c r (rrel_of c r k enc size).
Proof.
  unfold reads_as, rrel_of. cbn [rr_offset rr_flags rr_subtractor rr_target rr_implicit rr_addend]. repeat (split; [reflexivity|]).
  intros H. unfold macho_pcrel_bias. cbn [final_info mi_pcrel mi_type mi_length]. destruct H as [->|[H1 H2]]; [lia|].
  destruct (mr_pcrel r); [|lia]. 
  assert (match c with 7 => Z.shiftl 1 (mr_length r) | 16777223 => Z.shiftl 1 (mr_length r) + match mr_type r with 6 => 1 | 7 => 2 | 8 => 4 | _ => 0 end | _ => 0 end = 0) as ->; [|lia].
  destruct c as [|p|p]; try reflexivity. repeat (destruct p as [p|p|]; try reflexivity; try congruence).
Qed.
Lemma relocs_all a c rs es : cpu_of a c -> Forall (mrel_ok c) rs -> Forall2 (fun r l => entries_of a r = Ok l) rs es ->
  exists xs, Forall2 (reads_as c) rs xs /\ Forall2 (fun r x => macho_parse c (final_info r) = MKind (rr_kind x) (rr_enc x) (rr_size x)) rs xs /\
  forall fuel rest, (length rs <= fuel)%nat ->
  macho_relocs fuel Little c (map (minfo_pack Little) (concat es) ++ rest) = xs ++ macho_relocs (fuel - length rs) Little c rest.
Proof.
  intros Hc Hok He. induction He as [|r l rs es Hrl He IH].
  - exists []. split; [constructor|]. split; [constructor|]. intros fuel rest _. cbn [concat map app length]. rewrite Nat.sub_0_r. reflexivity.
  - inversion_clear Hok. destruct (IH H0) as (xs & F1 & F2 & E).
    destruct (parse_pair c (final_info r) (cpu_cases _ _ Hc) (mk_type _ _ H) (mk_pair _ _ H)) as (k & enc & size & Hk).
    exists (rrel_of c r k enc size :: xs). split; [constructor; auto; apply rrel_reads|]. split; [constructor; auto|].
    intros fuel rest Hf. destruct fuel as [|fuel]; [cbn in Hf; lia|]. cbn [length Nat.sub]. cbn [concat]. rewrite map_app, <- app_assoc. cbn [macho_relocs].
    destruct (next_entries a c r l (map (minfo_pack Little) (concat es) ++ rest) Hc H Hrl) as (k' & enc' & size' & Hk' & ->).
    rewrite Hk in Hk'. injection Hk' as <- <- <-. rewrite E by (cbn in Hf; lia). reflexivity.
Qed.
Lemma reloc_order_perm {A} (off : A -> Z) l : reloc_order off l = l \/ reloc_order off l = rev l.
Proof. unfold reloc_order. destruct l; [auto|]. destruct (last _ _); [|auto]. destruct (_ <? _); auto. Qed.
(** descending if the first and the last say so *)
Lemma last_map_Some {A} (l : list A) d : l <> [] -> last (map Some l) None = Some (last l d).
Proof. induction l as [|x [|y l] IH]; intros; [congruence|reflexivity|]. cbn [map last] in *. apply IH. discriminate. Qed.
Lemma reloc_order_desc {A} (off : A -> Z) l : Sorted.StronglySorted (fun x y => off x < off y) l -> Sorted.StronglySorted (fun x y => off x > off y) (reloc_order off l).
Proof.
  intros H. assert (Sorted.StronglySorted (fun x y => off x > off y) (rev l)) as Hr.
  { induction H as [|x l H IH Hx]; [constructor|]. cbn [rev]. clear H. assert (Forall (fun y => off x < off y) (rev l)) as Hx' by (apply Forall_rev, Hx).
    clear Hx. induction (rev l) as [|y l' IHl]; cbn; [repeat constructor|].
    inversion_clear IH. inversion_clear Hx'. constructor; [apply IHl; auto|]. apply Forall_app. split; [assumption|].
    constructor; [|constructor]. lia. }
  unfold reloc_order. destruct l as [|x l]; [constructor|]. rewrite (last_map_Some _ x) by discriminate.
  destruct (Z.ltb_spec (off x) (off (last (x :: l) x))) as [|E]; [exact Hr|].
  destruct l as [|y l]; [repeat constructor|]. exfalso. inversion_clear H. rewrite Forall_forall in H1.
  assert (In (last (x :: y :: l) x) (y :: l)) as Hin.
  { clear. change (last (x :: y :: l) x) with (last (y :: l) x). revert y. induction l as [|z l IH]; intros y; [left; reflexivity|right; apply IH]. }
  specialize (H1 _ Hin). lia.
Qed.

(** * A generic relocation through Mach-O *)
Lemma macho_length_eq a size len : macho_length a size = Ok len ->
  0 <= len <= 3 /\ (size = 8 * 2 ^ len \/ (a = AAarch64 /\ len = 2 /\ (size = 12 \/ size = 21 \/ size = 26))).
Proof.
  unfold macho_length. destruct (arch_beq a AAarch64 && _) eqn:E.
  - intros [= <-]. apply andb_prop in E as [E1 E2]. apply arch_eq in E1. split; [lia|right]. split; [exact E1|]. split; [reflexivity|]. lia.
  - repeat (destruct (_ =? _) eqn:E1 in |- *; [intros [= <-]; split; [lia|left; lia]|clear E1]). discriminate.
Qed.
Lemma macho_round_trip a c k enc size offset addend t pcrel len ad1 ad2 imp target sub es rest :
  cpu_of a c ->
  macho_translate a k enc size offset addend = Ok (t, pcrel, len, ad1) -> macho_adjust a t pcrel ad1 = Ok (ad2, imp) ->
  macho_entries a t pcrel len offset target sub (if imp then 0 else ad2) = Ok es ->
  0 <= offset < (if c =? 16777223 then 2 ^ 32 else 2 ^ 31) -> 0 <= fst target < 2 ^ 24 ->
  match sub with Some n => 0 <= n < 2 ^ 24 | None => True end -> (imp = false -> - 2 ^ 23 <= ad2 < 2 ^ 23) ->
  exists x, macho_next Little c 0 None (map (minfo_pack Little) es ++ rest) = Some (x, rest) /\
    rr_offset x = offset /\ rr_subtractor x = sub /\
    rr_target x = (if snd target then TSymbol (fst target) else if fst target =? 0 then TAbsolute else TSection (fst target)) /\
    (if macho_subtracts a k enc then k = KRelative /\ rr_kind x = KAbsolute else kind_kept k (rr_kind x) (rr_enc x)) /\
    (rr_size x = size \/ (rr_enc x = EAArch64Call /\ rr_size x = 26) \/ (a = AAarch64 /\ rr_size x = 32 /\ (size = 12 \/ size = 21 \/ size = 26))) /\
    (pcrel = false \/ a <> AX86_64 \/ size = 32 ->
     rr_addend x + (if imp then ad2 else 0) = (if macho_subtracts a k enc then addend - offset else addend)).
Proof.
  intros Hc Ht Had He Ho Htg Hsub Hr.
  unfold macho_translate in Ht. destruct (macho_length a size) as [len'| |] eqn:El; try discriminate Ht. cbn [bind] in Ht.
  destruct (macho_type a k enc) as [[pc ty]| |] eqn:Ety; try discriminate Ht. cbn [bind] in Ht.
  destruct (if macho_subtracts a k enc then _ else _) as [ad1'| |] eqn:E1; try discriminate Ht. cbn [bind] in Ht. injection Ht as -> -> -> ->.
  apply macho_length_eq in El as [Hl Hsize].
  set (r := {| mr_offset := offset; mr_type := t; mr_pcrel := pcrel; mr_length := len; mr_target := target; mr_sub := sub; mr_addend := if imp then 0 else ad2 |}).
  assert (0 <= t < 16 /\ ~ is_pair c t) as [Ht Hp].
  { unfold cpu_of, macho_cputype in Hc. unfold macho_type in Ety. unfold is_pair.
    destruct a; try discriminate Ety; injection Hc as <-; destruct k; try discriminate Ety; try (injection Ety as <- <-; split; lia);
    destruct enc; try discriminate Ety; injection Ety as <- <-; split; lia. }
  assert (mrel_ok c r) as Hok.
  { constructor; cbn; try assumption; try lia. }
  destruct (next_entries a c r es rest Hc Hok He) as (k' & enc' & size' & Hk & Hn). exists (rrel_of c r k' enc' size').
  split; [exact Hn|]. split; [reflexivity|]. split; [reflexivity|]. split; [reflexivity|]. cbn [rrel_of rr_kind rr_enc rr_size rr_addend].
  assert (wrap_s 64 offset = offset) as Hws by (apply wrap_s_id; destruct (c =? 16777223); lia).
  assert (match a with AX86_64 => True | _ => macho_pcrel_bias c (final_info r) = 0 end) as Hb0.
  { unfold macho_pcrel_bias. cbn [final_info mi_pcrel mi_type mi_length r mr_pcrel mr_type mr_length]. unfold cpu_of, macho_cputype in Hc. unfold macho_type in Ety.
    destruct a; try discriminate Hc; try exact I; injection Hc as <-; destruct pcrel; try reflexivity; destruct k; discriminate Ety. }
  assert (exists ad0, (if macho_subtracts a k enc then iadd addend (- offset) else Ok addend) = Ok ad0 /\ ad1 = ad0 /\ ad0 = if macho_subtracts a k enc then addend - offset else addend) as (ad0 & _ & -> & E0).
  { rewrite Hws in E1. exists ad1. split; [exact E1|]. split; [reflexivity|]. destruct (macho_subtracts a k enc); [apply iadd_inv in E1; lia|injection E1; auto]. }
  rewrite <- E0. clear E1 E0 Hn He Hws.
  assert (a = AX86_64 -> pcrel = true -> ad2 = ad0 + 4 /\ imp = true /\ macho_pcrel_bias c (final_info r) = 2 ^ len) as HX.
  { intros -> ->. unfold macho_type in Ety. unfold cpu_of, macho_cputype in Hc. injection Hc as <-.
    assert (t = 1 \/ t = 2 \/ t = 3 \/ t = 4) as Htc by (destruct k; try discriminate Ety; destruct enc; try discriminate Ety; injection Ety as <-; lia).
    unfold macho_adjust in Had. unfold macho_pcrel_bias. cbn [final_info mi_pcrel mi_type mi_length r mr_pcrel mr_type mr_length].
    rewrite Z.shiftl_1_l. destruct Htc as [->|[->|[->| ->]]]; cbn [Z.eqb Pos.eqb] in Had; (destruct (iadd ad0 4) as [v| |] eqn:Ei; try discriminate Had);
    cbn [bind] in Had; injection Had as <- <-; apply iadd_inv in Ei; (split; [lia|]); (split; [reflexivity|lia]). }
  assert ((pcrel = false \/ a <> AX86_64) -> ad2 = ad0 /\ macho_pcrel_bias c (final_info r) = 0) as HY.
  { intros Hpc. unfold macho_adjust in Had. destruct pcrel.
    - destruct Hpc as [Hpc|Hpc]; [discriminate|]. split; [|destruct a; congruence].
      unfold macho_type in Ety. destruct a; try congruence; try discriminate Ety; try (destruct k; discriminate Ety);
      (destruct (iadd ad0 0) as [v| |] eqn:Ei; try discriminate Had); cbn [bind] in Had; injection Had as <- _; apply iadd_inv in Ei; lia.
    - cbn [bind] in Had. injection Had as <- _. split; reflexivity. }
  assert (pcrel = false \/ a <> AX86_64 \/ size = 32 -> mr_addend r - macho_pcrel_bias c (final_info r) + (if imp then ad2 else 0) = ad0) as HA.
  { intros Hpc. cbn [r mr_addend]. assert ((pcrel = false \/ a <> AX86_64) \/ (a = AX86_64 /\ pcrel = true /\ size = 32)) as [D|(Da & Dp & Ds)].
    { destruct pcrel; [|tauto]. destruct (arch_beq a AX86_64) eqn:Ea.
      - apply arch_eq in Ea. destruct Hpc as [?|[?|?]]; [discriminate|tauto|tauto].
      - left. right. intros ->. discriminate Ea. }
    - apply HY in D as [D1 D2]. rewrite D1, D2. destruct imp; lia.
    - destruct (HX Da Dp) as (D1 & D2 & D3). rewrite D1, D2, D3. destruct Hsize as [Hsize|(? & _)]; [|congruence].
      assert (2 ^ len = 4) as -> by lia. lia. }
  split; [|split; [|exact HA]].
  - unfold macho_parse in Hk. cbn [final_info mi_pcrel mi_type mi_length r mr_pcrel mr_type mr_length] in Hk.
    unfold macho_type in Ety. unfold cpu_of, macho_cputype in Hc. unfold kind_kept, is_call.
    destruct a; try discriminate Hc; injection Hc as <-; destruct k; try discriminate Ety; try (injection Ety as <- <-; cbn in Hk; injection Hk as <- <- <-; cbn; tauto);
    destruct enc; try discriminate Ety; injection Ety as <- <-; cbn in Hk; injection Hk as <- <- <-; cbn; tauto.
  - assert (0 <= len <= 3 -> wrap_u 8 (Z.shiftl 8 len) = 8 * 2 ^ len) as Hw by (intros; assert (len = 0 \/ len = 1 \/ len = 2 \/ len = 3) as [->|[->|[->| ->]]] by lia; reflexivity).
    specialize (Hw Hl).
    assert (size' = 8 * 2 ^ len \/ (enc' = EAArch64Call /\ size' = 26)) as Hs'.
    { unfold macho_parse in Hk. cbn [final_info mi_pcrel mi_type mi_length r mr_pcrel mr_type mr_length] in Hk. rewrite Hw in Hk.
      unfold macho_type in Ety. unfold cpu_of, macho_cputype in Hc.
      destruct a; try discriminate Hc; injection Hc as <-; destruct k; try discriminate Ety; try (injection Ety as <- <-; cbn -[Z.mul Z.pow] in Hk; injection Hk as <- <- <-; tauto);
      destruct enc; try discriminate Ety; injection Ety as <- <-; cbn -[Z.mul Z.pow] in Hk; injection Hk as <- <- <-; tauto. }
    destruct Hs' as [->|Hs']; [|tauto]. destruct Hsize as [->|(-> & -> & Hz)]; [tauto|]. right. right. split; [reflexivity|]. split; [reflexivity|exact Hz].
Qed.
