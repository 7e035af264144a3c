(** Proofs about the Mach-O writer: sections, relocations, symbol table entries, strings. *)
From Coq Require Import Sorted.
From Verif Require Import Base Core_proofs Util_proofs Pod_proofs File_proofs Hash_proofs Rel_proofs Str_proofs Ar_proofs Kind_proofs Coff_spec CoffW_proofs CoffR_proofs CoffI_proofs.
From Verif Require Pe_proofs PeI_proofs.
From Verif Require Import Mach_proofs MachF_proofs MachP_proofs MachW_spec MachW_proofs MachWS_proofs.

(** * Encodings *)
Lemma mw_u_word is64 e v : mw_u is64 e v = word is64 e v.
Proof. destruct is64; reflexivity. Qed.
Lemma mw_section_eq is64 e s : mw_section is64 e s = mach_sec is64 e s.
Proof. unfold mw_section, mach_sec. rewrite !mw_u_word. reflexivity. Qed.
Lemma mw_segment_eq is64 e g : mw_segment is64 e g = mach_seg is64 e (mw_segment_size is64 (g_nsects g)) g.
Proof. unfold mw_segment, mach_seg. rewrite !mw_u_word. destruct is64; reflexivity. Qed.
Lemma mw_nlist_eq is64 e n : mw_nlist is64 e n = mach_nlist is64 e n.
Proof. unfold mw_nlist, mach_nlist. rewrite !mw_u_word. reflexivity. Qed.
Lemma tz_pow2 k : 0 <= k < 64 -> trailing_zeros (2 ^ k) = k.
Proof.
  intros H. unfold trailing_zeros. assert (K : forall n j, (j < n)%nat -> tz n (2 ^ Z.of_nat j) = Z.of_nat j).
  { induction n as [|n IH]; intros j Hj; [lia|]. cbn [tz]. destruct j as [|j]; [reflexivity|]. rewrite Nat2Z.inj_succ, Z.pow_succ_r by lia. rewrite Z.odd_mul. change (Z.odd 2) with false. cbn [andb].
    replace (2 * 2 ^ Z.of_nat j / 2) with (2 ^ Z.of_nat j) by (rewrite Z.mul_comm, Z.div_mul by lia; reflexivity). rewrite IH by lia. lia. }
  specialize (K 64%nat (Z.to_nat k) ltac:(lia)). rewrite Z2Nat.id in K by lia. exact K.
Qed.

(** * Loops that put things at places *)
Lemma fold_holds {X} (f : X -> bytes -> out bytes) (R : X -> Z -> bytes -> Prop) l :
  (forall x b b', In x l -> f x b = Ok b' -> exists pad u, b' = b ++ pad ++ u /\ bytes_ok (pad ++ u) /\ R x (zlen (b ++ pad)) u) ->
  forall b b', fold_m f l b = Ok b' -> exists tl, b' = b ++ tl /\ bytes_ok tl /\ forall x, In x l -> exists off u, R x off u /\ holds b' off u.
Proof.
  induction l as [|x l IH]; intros Hf b b' E; cbn [fold_m] in E.
  - injection E as <-. exists []. split; [symmetry; apply app_nil_r|]. split; [constructor|]. intros x [].
  - destruct (f x b) as [b1| |] eqn:E1; cbn [bind] in E; try discriminate. destruct (Hf x b b1 (or_introl eq_refl) E1) as (pad & u & -> & Hb & Hu).
    destruct (IH (fun y c c' Hy => Hf y c c' (or_intror Hy)) _ _ E) as (tl & -> & Hl & Hz). exists ((pad ++ u) ++ tl). split; [rewrite <- !app_assoc; reflexivity|]. split; [apply bytes_ok_app; split; assumption|].
    intros y [->|Hy]; [|exact (Hz y Hy)]. exists (zlen (b ++ pad)), u. split; [exact Hu|]. exists (b ++ pad), tl. split; [rewrite <- !app_assoc; reflexivity|reflexivity].
Qed.

(** * Section headers *)
Definition header_of (x : osec * ((Z * Z) * (Z * Z))) : out msec :=
  let '(s, ((address, offset), (reloff, nreloc))) := x in
  sectname <- mw_field (se_name s) ;; segname <- mw_field (se_segment s) ;; ' (flags, reserved2) <- mw_section_flags s ;;
  Ok {| x_sectname := sectname; x_segname := segname; x_addr := address; x_size := se_size s; x_offset := offset;
    x_align := trailing_zeros (se_align s); x_reloff := reloff; x_nreloc := nreloc; x_flags := flags; x_reserved1 := 0; x_reserved2 := reserved2;
    x_reserved3 := 0 |}.
Lemma headers_ok is64 e l b b' : fold_m (mw_section_header is64 e) l b = Ok b' ->
  exists hs, Forall2 (fun x h => header_of x = Ok h) l hs /\ b' = b ++ concat (map (mach_sec is64 e) hs).
Proof.
  intros E. rewrite (fold_ext _ (fun x b => y <- header_of x ;; Ok (b ++ mach_sec is64 e y))) in E.
  - apply (fold_enc header_of (mach_sec is64 e)). exact E.
  - intros (s & ((a & o) & (ro & nr))) c. unfold mw_section_header, header_of. destruct (mw_field (se_name s)); cbn [bind]; [|reflexivity..]. destruct (mw_field (se_segment s)); cbn [bind]; [|reflexivity..].
    destruct (mw_section_flags s) as [(f & r)| |]; cbn [bind]; [|reflexivity..]. rewrite mw_section_eq. reflexivity.
Qed.
Lemma mw_field_ok n f : str_ok n -> mw_field n = Ok f -> zlen f = 16 /\ bytes_ok f /\ until_null f = n.
Proof.
  intros (B & N) E. unfold mw_field in E. destruct (Z.ltb_spec 16 (zlen n)); [discriminate|]. assert (E0 : f = n ++ zeros (16 - zlen n)) by congruence. subst f. clear E. pose proof (zlen_nonneg n). split; [rewrite zlen_app, zlen_zeros by lia; lia|]. split; [apply bytes_ok_app; split; [exact B|apply bytes_ok_zeros]|]. apply until_null_pad. exact N.
Qed.
Lemma flags_ok s f r : (forall f r, se_flags s = SFMachO f r -> u32_ok f /\ u32_ok r) -> mw_section_flags s = Ok (f, r) -> u32_ok f /\ u32_ok r /\ flags_of s f r.
Proof.
  intros H E. unfold mw_section_flags, flags_of in *. destruct (se_flags s) eqn:Ef; try discriminate.
  - assert (f = 0 \/ f = 1 \/ f = 2 \/ f = 17 \/ f = 18 \/ f = 19 \/ f = 33554432 \/ f = 2147484672) by (destruct (se_kind s); cbn in E; try discriminate; inversion E; lia).
    assert (r = 0) by (destruct (se_kind s); cbn in E; try discriminate; inversion E; reflexivity). split; [unfold u32_ok; lia|]. split; [unfold u32_ok; lia|]. split; [assumption|]. destruct (se_kind s); cbn in E; try discriminate; inversion E; reflexivity.
  - injection E as <- <-. destruct (H _ _ eq_refl) as (H1 & H2). split; [exact H1|]. split; [exact H2|]. split; reflexivity.
Qed.
Lemma header_fields is64 s a off ro nr h : msec_in s -> header_of (s, ((a, off), (ro, nr))) = Ok h ->
  mword_ok is64 a -> mword_ok is64 (se_size s) -> u32_ok off -> u32_ok ro -> u32_ok nr ->
  msec_ok is64 h /\ ms_name h = se_name s /\ ms_segment h = se_segment s /\ x_addr h = a /\ x_size h = se_size s /\ x_offset h = off /\ ms_align h = se_align s /\ x_reloff h = ro /\ x_nreloc h = nr /\
  flags_of s (x_flags h) (x_reserved2 h).
Proof.
  intros (Hn & Hg & _ & _ & (k & Hk & Ha) & _ & Hf) E A1 A2 A3 A4 A5. unfold header_of in E.
  destruct (mw_field (se_name s)) as [f1| |] eqn:E1; cbn [bind] in E; try discriminate. destruct (mw_field (se_segment s)) as [f2| |] eqn:E2; cbn [bind] in E; try discriminate.
  destruct (mw_section_flags s) as [(fl & r)| |] eqn:E3; cbn [bind] in E; try discriminate. injection E as <-. apply mw_field_ok in E1; [|exact Hn]. apply mw_field_ok in E2; [|exact Hg]. apply flags_ok in E3; [|exact Hf].
  destruct E1 as (L1 & B1 & U1). destruct E2 as (L2 & B2 & U2). destruct E3 as (F1 & F2 & F3). unfold ms_name, ms_segment, ms_align, msec_ok. cbn [x_sectname x_segname x_addr x_size x_offset x_align x_reloff x_nreloc x_flags x_reserved1 x_reserved2 x_reserved3].
  rewrite Ha, tz_pow2 by lia. split.
  - repeat (split; [first [assumption|unfold u32_ok; lia]|]). destruct is64; [unfold u32_ok; lia|reflexivity].
  - split; [exact U1|]. split; [exact U2|]. split; [reflexivity|]. split; [reflexivity|]. split; [reflexivity|]. split; [replace (k <? 64) with true by lia; rewrite Z.shiftl_1_l; reflexivity|]. split; [reflexivity|]. split; [reflexivity|exact F3].
Qed.

(** * Data *)
Lemma resize_inv b n b' : mw_resize b n = Ok b' -> b' = b ++ zeros (n - zlen b) /\ zlen b' = n.
Proof.
  unfold mw_resize. destruct (Z.ltb_spec n (zlen b)); [discriminate|]. intros Q. injection Q as <-. split; [reflexivity|]. rewrite zlen_app, zlen_zeros by lia. lia.
Qed.
Lemma data_ok l b b' : Forall (fun x => bytes_ok (se_data (fst x))) l -> fold_m mw_data l b = Ok b' ->
  exists tl, b' = b ++ tl /\ bytes_ok tl /\ forall x, In x l -> is_bss (se_kind (fst x)) = false -> holds b' (snd (fst (snd x))) (se_data (fst x)).
Proof.
  intros HB E. apply (fold_holds mw_data (fun x o u => is_bss (se_kind (fst x)) = false -> o = snd (fst (snd x)) /\ u = se_data (fst x))) in E.
  - destruct E as (tl & -> & Hl & H). exists tl. split; [reflexivity|]. split; [exact Hl|]. intros x Hx Hb. destruct (H x Hx) as (o & u & HR & Hh). destruct (HR Hb) as (-> & ->). exact Hh.
  - intros x c c' Hx Ec. unfold mw_data in Ec. destruct (is_bss (se_kind (fst x))).
    + injection Ec as <-. exists [], []. split; [symmetry; apply app_nil_r|]. split; [constructor|discriminate].
    + destruct (mw_resize c (snd (fst (snd x)))) as [d| |] eqn:Ed; cbn [bind] in Ec; try discriminate. injection Ec as <-. apply resize_inv in Ed. destruct Ed as (-> & L).
      eexists _, (se_data (fst x)). split; [rewrite <- app_assoc; reflexivity|]. split; [apply bytes_ok_app; split; [apply bytes_ok_zeros|exact (proj1 (Forall_forall _ _) HB x Hx)]|]. intros _. split; [exact L|reflexivity].
Qed.

(** * Relocations *)
Definition total (l : list orel) : Z := fold_right (fun r n => mw_entries r + n) 0 l.
Lemma entries_1 r : 0 < mw_entries r.
Proof. unfold mw_entries. destruct (negb _), (ol_sub r); cbn; lia. Qed.
Lemma total_0 l : 0 <= total l.
Proof. induction l as [|r l IH]; cbn; [lia|]. pose proof (entries_1 r). unfold total in IH. lia. Qed.
Lemma padd_sum l : forall n m, 0 <= n < 2 ^ 32 -> fold_m (fun r n => padd 32 n (mw_entries r)) l n = Ok m -> m = n + total l /\ m < 2 ^ 32.
Proof.
  induction l as [|r l IH]; intros n m Hn E; cbn [fold_m] in E; [injection E as <-; cbn; lia|].
  destruct (padd 32 n (mw_entries r)) as [k| |] eqn:Ek; cbn [bind] in E; try discriminate. apply padd_ok in Ek. destruct Ek as (-> & L).
  pose proof (entries_1 r). apply IH in E; [|lia]. destruct E as (-> & K). cbn [total fold_right]. fold (total l). lia.
Qed.
Lemma lay_relocs_ok is64 l : forall off rels off', 0 <= off < 2 ^ 64 -> map_m (lay_relocs is64) l off = Ok (rels, off') ->
  off <= off' < 2 ^ 64 /\ zlen rels = zlen l /\
  forall i s, zget l i = Some s -> exists p, zget rels i = Some p /\ snd p = total (se_relocs s) /\ 0 <= snd p < 2 ^ 32 /\ (se_relocs s = [] -> p = (0, 0)) /\ (se_relocs s <> [] -> off <= fst p /\ fst p + 8 * snd p <= off').
Proof.
  induction l as [|s l IH]; intros off rels off' Ho E; cbn [map_m] in E.
  - injection E as <- <-. split; [lia|]. split; [reflexivity|]. intros i s Hi. apply zget_Some_lt in Hi. change (zlen (@nil osec)) with 0 in Hi. lia.
  - destruct (lay_relocs is64 s off) as [(p & o1)| |] eqn:E1; cbn [bind] in E; try discriminate. destruct (map_m (lay_relocs is64) l o1) as [(ps & o2)| |] eqn:E2; cbn [bind] in E; try discriminate. injection E as <- <-.
    unfold lay_relocs in E1. destruct (fold_m (fun r n => padd 32 n (mw_entries r)) (se_relocs s) 0) as [c| |] eqn:Ec; cbn [bind] in E1; try discriminate. apply padd_sum in Ec; [|lia]. destruct Ec as (Ec & Lc). rewrite Z.add_0_l in Ec. pose proof (total_0 (se_relocs s)) as T0.
    assert (K : off <= o1 < 2 ^ 64 /\ snd p = c /\ (se_relocs s = [] -> p = (0, 0)) /\ (se_relocs s <> [] -> off <= fst p /\ fst p + 8 * snd p <= o1)).
    { destruct (Z.eqb_spec c 0) as [Z0|N0].
      - injection E1 as <- <-. split; [lia|]. split; [cbn; lia|]. split; [reflexivity|]. intros N. exfalso. apply N. destruct (se_relocs s) as [|r rs]; [reflexivity|]. cbn [total fold_right] in Ec. pose proof (entries_1 r). pose proof (total_0 rs) as T1. unfold total in T1. lia.
      - unfold mw_reserve in E1. destruct (align 64 off (mw_word is64)) as [a| |] eqn:Ea; cbn [bind] in E1; try discriminate. destruct (padd 64 a (c * 8)) as [b| |] eqn:Eb; cbn [bind] in E1; try discriminate. injection E1 as <- <-.
        apply padd_ok in Eb. destruct Eb as (-> & Lb). apply align_ok in Ea; [|destruct is64; [exists 3|exists 2]; (split; [lia|reflexivity])|exact Ho]. split; [lia|]. split; [reflexivity|]. split; [intros N; rewrite N in Ec; cbn in Ec; lia|]. intros _. cbn [fst snd]. lia. }
    destruct K as (K1 & K2 & K3 & K4). destruct (IH o1 ps o2 ltac:(lia) E2) as (R1 & R2 & R3). split; [lia|]. split; [rewrite !zlen_cons; lia|].
    intros i t Hi. pose proof (zget_Some_lt _ _ _ Hi) as Hl. destruct (Z.eq_dec i 0) as [->|N].
    + rewrite zget_0 in Hi. injection Hi as <-. exists p. split; [apply zget_0|]. split; [congruence|]. split; [lia|]. split; [exact K3|]. intros N. specialize (K4 N). lia.
    + rewrite zget_S in Hi by lia. rewrite zget_S by lia. destruct (R3 _ _ Hi) as (q & Hq & Q1 & Q2 & Q3 & Q4). exists q. split; [exact Hq|]. split; [exact Q1|]. split; [exact Q2|]. split; [exact Q3|]. intros N'. specialize (Q4 N'). lia.
Qed.
(** what is written for a relocation *)
Definition reloc_of (o : obj) (order : list Z) (r : orel) (m : mrel) (es : list minfo) : Prop :=
  ol_flags r = RFmacho (mr_type m) (mr_pcrel m) (mr_length m) /\ mr_offset m = ol_offset r /\ mr_addend m = ol_addend r /\
  mw_target o order (ol_symbol r) = Ok (mr_target m) /\ match ol_sub r with None => mr_sub m = None | Some i => exists k, mw_index o order i = Ok k /\ mr_sub m = Some k end /\
  entries_of (o_arch o) m = Ok es.
Lemma reloc_fold o order l : forall b b', fold_m (mw_reloc o order) l b = Ok b' ->
  exists ms es, Forall2 (fun r x => reloc_of o order r (fst x) (snd x)) l (combine ms es) /\ length ms = length l /\ length es = length l /\ b' = b ++ concat (map (mw_relocation (o_endian o)) (concat es)).
Proof.
  induction l as [|r l IH]; intros b b' E; cbn [fold_m] in E.
  - injection E as <-. exists [], []. split; [constructor|]. split; [reflexivity|]. split; [reflexivity|]. symmetry. apply app_nil_r.
  - destruct (mw_reloc o order r b) as [b1| |] eqn:E1; cbn [bind] in E; try discriminate. apply IH in E. destruct E as (ms & es & HF & L1 & L2 & ->). unfold mw_reloc in E1.
    destruct (ol_flags r) as [| | |t pcrel len|] eqn:Ef; try discriminate.
    destruct (match ol_sub r with None => Ok None | Some i => k <- mw_index o order i ;; Ok (Some k) end) as [sub| |] eqn:Es; cbn [bind] in E1; try discriminate.
    destruct (mw_target o order (ol_symbol r)) as [tg| |] eqn:Et; cbn [bind] in E1; try discriminate.
    destruct (macho_entries (o_arch o) t pcrel len (ol_offset r) tg sub (ol_addend r)) as [u| |] eqn:Eu; cbn [bind] in E1; try discriminate. injection E1 as <-.
    exists ({| mr_offset := ol_offset r; mr_type := t; mr_pcrel := pcrel; mr_length := len; mr_target := tg; mr_sub := sub; mr_addend := ol_addend r |} :: ms), (u :: es).
    split; [|split; [cbn; lia|split; [cbn; lia|cbn [concat]; rewrite map_app, concat_app, <- app_assoc; reflexivity]]].
    cbn [combine]. constructor; [|exact HF]. cbn [fst snd]. unfold reloc_of, entries_of. cbn [mr_offset mr_type mr_pcrel mr_length mr_target mr_sub mr_addend]. split; [exact Ef|]. split; [reflexivity|]. split; [reflexivity|]. split; [exact Et|]. split; [|exact Eu].
    destruct (ol_sub r) as [i|]; [|congruence]. destruct (mw_index o order i) as [k| |]; cbn [bind] in Es; try discriminate. injection Es as <-. exists k. split; reflexivity.
Qed.
Lemma entries_len a m es : entries_of a m = Ok es -> zlen es = 1 + Z.b2z (negb (mr_addend m =? 0)) + match mr_sub m with Some _ => 1 | None => 0 end.
Proof.
  unfold entries_of, macho_entries. intros E. destruct (mr_sub m) as [n|].
  - destruct (match a with AAarch64 | AAarch64_Ilp32 => Ok 1 | AX86_64 => Ok 5 | _ => Err end); cbn [bind] in E; try discriminate. destruct (mr_addend m =? 0); cbn [bind negb Z.b2z] in E |- *.
    + injection E as <-. reflexivity.
    + destruct (match a with AAarch64 | AAarch64_Ilp32 => Ok 10 | _ => Err end); cbn [bind] in E; try discriminate. injection E as <-. reflexivity.
  - cbn [bind] in E. destruct (mr_addend m =? 0); cbn [bind negb Z.b2z] in E |- *.
    + injection E as <-. reflexivity.
    + destruct (match a with AAarch64 | AAarch64_Ilp32 => Ok 10 | _ => Err end); cbn [bind] in E; try discriminate. injection E as <-. reflexivity.
Qed.
Lemma total_app a b : total (a ++ b) = total a + total b.
Proof. induction a as [|r a IH]; [reflexivity|]. cbn [app total fold_right]. fold (total (a ++ b)). fold (total a). lia. Qed.
Lemma total_rev l : total (rev l) = total l.
Proof. induction l as [|r l IH]; [reflexivity|]. cbn [rev]. rewrite total_app, IH. cbn [total fold_right]. fold (total l). lia. Qed.
Lemma total_order l : total (reloc_order ol_offset l) = total l.
Proof. destruct (reloc_order_perm ol_offset l) as [-> | ->]; [reflexivity|apply total_rev]. Qed.
Lemma total_entries o order l ms es : Forall2 (fun r x => reloc_of o order r (fst x) (snd x)) l (combine ms es) -> length ms = length l -> length es = length l -> zlen (concat es) = total l.
Proof.
  revert ms es. induction l as [|r l IH]; intros [|m ms] [|u es] HF L1 L2; cbn [length] in *; try discriminate; [reflexivity|]. cbn [combine] in HF. inversion HF as [|? ? ? ? H1 H2]; subst. cbn [fst snd] in H1.
  cbn [concat total fold_right]. fold (total l). rewrite zlen_app, (IH ms es H2) by lia. f_equal. destruct H1 as (_ & _ & Ha & _ & Hs & He). rewrite (entries_len _ _ _ He). unfold mw_entries. rewrite Ha. destruct (ol_sub r); [destruct Hs as (k & _ & ->)|rewrite Hs]; reflexivity.
Qed.
Lemma relocs_ok o order l b b' : fold_m (mw_relocs o order) l b = Ok b' ->
  exists tl, b' = b ++ tl /\ bytes_ok tl /\ forall x, In x l -> se_relocs (fst x) <> [] ->
    exists ms es, Forall2 (fun r x => reloc_of o order r (fst x) (snd x)) (reloc_order ol_offset (se_relocs (fst x))) (combine ms es) /\
      length ms = length (se_relocs (fst x)) /\ length es = length (se_relocs (fst x)) /\ zlen (concat es) = total (se_relocs (fst x)) /\
      holds b' (fst (snd (snd x))) (concat (map (mw_relocation (o_endian o)) (concat es))).
Proof.
  intros E. apply (fold_holds (mw_relocs o order) (fun x off u => se_relocs (fst x) <> [] -> off = fst (snd (snd x)) /\
    exists ms es, Forall2 (fun r x => reloc_of o order r (fst x) (snd x)) (reloc_order ol_offset (se_relocs (fst x))) (combine ms es) /\
      length ms = length (se_relocs (fst x)) /\ length es = length (se_relocs (fst x)) /\ u = concat (map (mw_relocation (o_endian o)) (concat es)))) in E.
  - destruct E as (tl & -> & Hl & H). exists tl. split; [reflexivity|]. split; [exact Hl|]. intros x Hx Hn. destruct (H x Hx) as (off & u & HR & Hh). destruct (HR Hn) as (-> & ms & es & H1 & H2 & H3 & ->). exists ms, es. split; [exact H1|]. split; [exact H2|]. split; [exact H3|]. split; [|exact Hh].
    rewrite <- total_order. assert (LL : length (reloc_order ol_offset (se_relocs (fst x))) = length (se_relocs (fst x))) by (destruct (reloc_order_perm ol_offset (se_relocs (fst x))) as [-> | ->]; [reflexivity|apply rev_length]).
    eapply total_entries; [exact H1|congruence|congruence].
  - intros x c c' Hx Ec. unfold mw_relocs in Ec. destruct (se_relocs (fst x)) as [|r0 rs] eqn:Er.
    + injection Ec as <-. exists [], []. split; [symmetry; apply app_nil_r|]. split; [constructor|congruence].
    + destruct (mw_resize c (fst (snd (snd x)))) as [d| |] eqn:Ed; cbn [bind] in Ec; try discriminate. apply resize_inv in Ed. destruct Ed as (-> & L). apply reloc_fold in Ec. destruct Ec as (ms & es & HF & L1 & L2 & ->).
      eexists _, _. split; [rewrite <- app_assoc; reflexivity|]. split.
      * apply bytes_ok_app. split; [apply bytes_ok_zeros|]. apply Forall_concat. apply Forall_map. apply Forall_forall. intros i _. unfold mw_relocation. apply bytes_ok_app. split; apply bytes_ok_write_u.
      * intros _. split; [exact L|]. exists ms, es. assert (LL : length (reloc_order ol_offset (r0 :: rs)) = length (r0 :: rs)) by (destruct (reloc_order_perm ol_offset (r0 :: rs)) as [-> | ->]; [reflexivity|apply rev_length]).
        split; [exact HF|]. split; [congruence|]. split; [congruence|reflexivity].
Qed.
