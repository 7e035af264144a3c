(** Proofs about the Mach-O writer: what is read of relocations, symbols and names. *)
From Coq Require Import Sorted.
From Verif Require Import Base Core_proofs Util_proofs Pod_proofs File_proofs Hash_proofs Rel_proofs Str_proofs Ar_proofs Kind_proofs Coff_spec CoffW_proofs CoffR_proofs CoffI_proofs.
From Verif Require Import Mach_proofs MachF_proofs MachP_proofs MachW_spec MachW_proofs MachWS_proofs MachWF_proofs.

(** * Relocations *)
Lemma pack_bound i : 0 <= mi_address i < 2 ^ 32 -> u32_ok (fst (minfo_pack Little i)) /\ u32_ok (snd (minfo_pack Little i)).
Proof.
  intros H. unfold minfo_pack, u32_ok. cbn [fst snd]. split; [exact H|].
  assert (B1 : 0 <= Z.land (mi_symbolnum i) 16777215 < 2 ^ 32) by (change 16777215 with (Z.ones 24); rewrite Z.land_ones by lia; pose proof (Z.mod_pos_bound (mi_symbolnum i) (2 ^ 24)); lia).
  assert (B2 : 0 <= Z.shiftl (Z.b2z (mi_pcrel i)) 24 < 2 ^ 32) by (rewrite Z.shiftl_mul_pow2 by lia; destruct (mi_pcrel i); cbn [Z.b2z]; lia).
  assert (B3 : 0 <= Z.shiftl (Z.land (mi_length i) 3) 25 < 2 ^ 32) by (change 3 with (Z.ones 2); rewrite Z.land_ones by lia; pose proof (Z.mod_pos_bound (mi_length i) (2 ^ 2)); rewrite Z.shiftl_mul_pow2 by lia; lia).
  assert (B4 : 0 <= Z.shiftl (Z.b2z (mi_extern i)) 27 < 2 ^ 32) by (rewrite Z.shiftl_mul_pow2 by lia; destruct (mi_extern i); cbn [Z.b2z]; lia).
  assert (B5 : 0 <= wrap_u 32 (Z.shiftl (mi_type i) 28) < 2 ^ 32) by (unfold wrap_u; apply Z.mod_pos_bound; lia).
  repeat (apply lor_bound; [lia| |]); assumption.
Qed.
Lemma entries_addr a m es : entries_of a m = Ok es -> Forall (fun i => 0 <= mi_address i < 2 ^ 32) es.
Proof.
  assert (W : forall x, 0 <= wrap_u 32 x < 2 ^ 32) by (intros; unfold wrap_u; apply Z.mod_pos_bound; lia).
  unfold entries_of, macho_entries. intros E.
  destruct (match mr_sub m with None => Ok [] | Some n => t <- match a with AAarch64 | AAarch64_Ilp32 => Ok 1 | AX86_64 => Ok 5 | _ => Err end ;; Ok [{| mi_address := wrap_u 32 (mr_offset m); mi_symbolnum := n; mi_pcrel := false; mi_length := mr_length m; mi_extern := true; mi_type := t |}] end) as [s| |] eqn:E1; cbn [bind] in E; try discriminate.
  destruct (if mr_addend m =? 0 then Ok [] else t <- match a with AAarch64 | AAarch64_Ilp32 => Ok 10 | _ => Err end ;; Ok [{| mi_address := wrap_u 32 (mr_offset m); mi_symbolnum := wrap_u 32 (mr_addend m); mi_pcrel := false; mi_length := mr_length m; mi_extern := false; mi_type := t |}]) as [d| |] eqn:E2; cbn [bind] in E; try discriminate.
  assert (es = s ++ d ++ [{| mi_address := wrap_u 32 (mr_offset m); mi_symbolnum := fst (mr_target m); mi_pcrel := mr_pcrel m; mi_length := mr_length m; mi_extern := snd (mr_target m); mi_type := mr_type m |}]) as -> by congruence.
  apply Forall_app. split; [|apply Forall_app; split].
  - destruct (mr_sub m); [|inversion E1; constructor]. destruct (match a with AAarch64 | AAarch64_Ilp32 => Ok 1 | AX86_64 => Ok 5 | _ => Err end); cbn [bind] in E1; try discriminate. inversion E1. constructor; [apply W|constructor].
  - destruct (mr_addend m =? 0); [inversion E2; constructor|]. destruct (match a with AAarch64 | AAarch64_Ilp32 => Ok 10 | _ => Err end); cbn [bind] in E2; try discriminate. inversion E2. constructor; [apply W|constructor].
  - constructor; [apply W|constructor].
Qed.
Definition winfo (w : Z * Z) : bytes := write_u Little 4 (fst w) ++ write_u Little 4 (snd w).
Lemma read_words F o ws : bytes_ok F -> zlen F < 2 ^ 64 -> 0 <= o -> Forall (fun w => u32_ok (fst w) /\ u32_ok (snd w)) ws -> (ws <> [] -> holds F o (concat (map winfo ws))) ->
  (l <- rr_read_slice_at F o 8 (zlen ws) ;; Ok (map (fun b => (fld Little 0 4 b, fld Little 4 4 b)) l)) = Ok ws.
Proof.
  intros B L Ho HW HH. apply (array_iff (fun b => (fld Little 0 4 b, fld Little 4 4 b)) winfo (fun w => u32_ok (fst w) /\ u32_ok (snd w)) F o 8 (zlen ws) ws B L Ho ltac:(lia) (zlen_nonneg _)).
  - intros b Lb Bb. cbn [fst snd]. unfold winfo. cbn [fst snd]. split; [split; [apply (fld_bound Little 0 4 b Bb); lia|apply (fld_bound Little 4 4 b Bb); lia]|].
    unfold fld. pod_join. rewrite zslice_all by lia. reflexivity.
  - intros (u, v) (Hu & Hv). cbn [fst snd] in *. unfold winfo. cbn [fst snd]. split; [rewrite zlen_app, !zlen_write_u; reflexivity|]. unfold u32_ok in *. f_equal; repeat (rewrite fld_skip by lia); (first [apply fld_hd|apply fld_hd1]; [reflexivity|assumption]).
  - split; [reflexivity|]. split; [exact HW|exact HH].
Qed.
Lemma target_ok o order i tg : zlen order <= 2 ^ 24 -> zlen (o_sections o) <= 255 -> mw_target o order i = Ok tg ->
  0 <= fst tg < 2 ^ 24 /\ exists y, zget (o_symbols o) i = Some y /\
    if symkind_beq (sy_kind y) YSection then snd tg = false /\ exists id, sy_section y = YSec id /\ fst tg = id + 1 else snd tg = true /\ symbol_number order i (fst tg).
Proof.
  intros LO LS E. unfold mw_target in E. destruct (zget (o_symbols o) i) as [y|]; cbn [unwrap bind] in E; try discriminate.
  assert (K : sy_kind y <> YSection -> (k <- mw_index o order i ;; Ok (k, true)) = Ok tg -> 0 <= fst tg < 2 ^ 24 /\ snd tg = true /\ symbol_number order i (fst tg)).
  { intros _ E'. destruct (mw_index o order i) as [k| |] eqn:Ek; cbn [bind] in E'; try discriminate. injection E' as <-. cbn [fst snd]. apply mw_index_ok in Ek. destruct Ek as (S & B). split; [lia|]. split; [reflexivity|exact S]. }
  destruct (sy_kind y) eqn:Ek; cbn [symkind_beq];
    try (destruct (K ltac:(discriminate) E) as (K1 & K2); split; [exact K1|]; exists y; split; [reflexivity|]; rewrite Ek; exact K2).
  destruct (sy_section y) as [| | | |id] eqn:Es; try discriminate. destruct (zget (o_sections o) id) as [x|] eqn:Ex; cbn [unwrap bind] in E; try discriminate. injection E as <-. apply zget_Some_lt in Ex. cbn [fst snd].
  split; [lia|]. exists y. split; [reflexivity|]. rewrite Ek. cbn [symkind_beq]. split; [reflexivity|]. exists id. split; [exact Es|reflexivity].
Qed.
Lemma reads_relocs_ok o order F x s c : o_endian o = Little -> cpu_of (o_arch o) c -> bytes_ok F -> zlen F < 2 ^ 64 -> zlen order <= 2 ^ 24 -> zlen (o_sections o) <= 255 -> Forall (mrel_in c) (se_relocs s) ->
  0 <= x_reloff (xi_sec x) -> x_nreloc (xi_sec x) = total (se_relocs s) ->
  (se_relocs s <> [] -> exists ms es, Forall2 (fun r x => reloc_of o order r (fst x) (snd x)) (reloc_order ol_offset (se_relocs s)) (combine ms es) /\
      length ms = length (se_relocs s) /\ length es = length (se_relocs s) /\ zlen (concat es) = total (se_relocs s) /\
      holds F (x_reloff (xi_sec x)) (concat (map (mw_relocation (o_endian o)) (concat es)))) ->
  reads_relocs c o order F x s.
Proof.
  intros He Hc B L LO LS HR Ho Hn HH. unfold reads_relocs, ms_relocs. rewrite He, Hn in *. destruct (list_eq_dec (fun a b : Z => Z.eq_dec a b) (map ol_offset (se_relocs s)) []) as [Z0|N0].
  - assert (E0 : se_relocs s = []) by (destruct (se_relocs s); [reflexivity|discriminate]). rewrite E0. exists [], [], []. split; [exact (read_words F _ [] B L Ho ltac:(constructor) ltac:(congruence))|]. split; [left; reflexivity|]. split; [constructor|]. intros [|fuel] _; reflexivity.
  - assert (N : se_relocs s <> []) by (intros Q; rewrite Q in N0; apply N0; reflexivity). destruct (HH N) as (ms & es & HF & L1 & L2 & HL & Hh).
    assert (LL : length (reloc_order ol_offset (se_relocs s)) = length (se_relocs s)) by (destruct (reloc_order_perm ol_offset (se_relocs s)) as [-> | ->]; [reflexivity|apply rev_length]).
    assert (HR' : Forall (mrel_in c) (reloc_order ol_offset (se_relocs s))) by (destruct (reloc_order_perm ol_offset (se_relocs s)) as [-> | ->]; [exact HR|apply Forall_rev; exact HR]).
    set (rs := reloc_order ol_offset (se_relocs s)) in *.
    assert (K : Forall (mrel_ok c) ms /\ Forall2 (fun r l => entries_of (o_arch o) r = Ok l) ms es /\ (forall xs, Forall2 (reads_as c) ms xs -> Forall2 (reads_reloc c o order) rs xs)).
    { rewrite <- LL in L1, L2. clear HH Hh HL LL HR N N0. revert ms es HF L1 L2 HR'. generalize rs. clear rs. intros rs. induction rs as [|r rs IH]; intros [|m ms] [|u es] HF L1 L2 HR; cbn [length] in *; try discriminate.
      - split; [constructor|]. split; [constructor|]. intros xs H. inversion H. constructor.
      - cbn [combine] in HF. inversion HF as [|? ? ? ? H1 H2]; subst. inversion HR as [|? ? R1 R2]; subst. destruct (IH ms es H2 ltac:(lia) ltac:(lia) R2) as (I1 & I2 & I3). cbn [fst snd] in H1.
        destruct H1 as (F1 & F2 & F3 & F4 & F5 & F6). destruct R1 as (t & pc & len & G1 & G2 & G3 & G4 & G5 & G6). rewrite F1 in G1. injection G1 as <- <- <-. apply target_ok in F4; [|assumption..]. destruct F4 as (T1 & T2).
        split; [constructor; [|exact I1]|]. { constructor; [rewrite F2; exact G5|exact G2|exact G3|exact G4|exact T1| |rewrite F3; exact G6]. destruct (ol_sub r) as [i|]; [|rewrite F5; exact I]. destruct F5 as (k & Hk & ->). apply mw_index_ok in Hk. lia. }
        split; [constructor; assumption|]. intros xs H. inversion H as [|? x0 ? xs0 X1 X2]; subst. constructor; [|apply I3; exact X2].
        exists (mr_type m), (mr_pcrel m), (mr_length m), (mr_target m), (mr_sub m). split; [exact F1|]. split; [exact T2|]. split; [destruct (ol_sub r) as [i|]; [destruct F5 as (k & Hk & ->); apply mw_index_ok in Hk; exists k; split; [reflexivity|tauto]|exact F5]|].
        rewrite <- F2, <- F3. destruct m; exact X1. }
    destruct K as (K1 & K2 & K3). destruct (relocs_all (o_arch o) c ms es Hc K1 K2) as (xs & X1 & _ & X3).
    exists (map (minfo_pack Little) (concat es)), rs, xs. split; [|split; [|split]].
    + rewrite <- HL. replace (zlen (concat es)) with (zlen (map (minfo_pack Little) (concat es))) by (unfold zlen; rewrite map_length; reflexivity). apply read_words; try assumption.
      * apply Forall_map. apply Forall_concat. clear - K2. induction K2 as [|m u ms es H1 H2 IH]; constructor; [|exact IH]. eapply Forall_impl; [|exact (entries_addr _ _ _ H1)]. intros i Hi. apply pack_bound. exact Hi.
      * intros _. rewrite map_map. exact Hh.
    + apply reloc_order_perm.
    + apply K3. exact X1.
    + intros fuel Hf. assert (length ms <= fuel)%nat as Hf' by lia. specialize (X3 fuel [] Hf'). rewrite app_nil_r in X3. rewrite X3.
      assert (macho_relocs (fuel - length ms) Little c [] = []) as -> by (destruct (fuel - length ms)%nat; reflexivity). apply app_nil_r.
Qed.

(** * Strings *)
Lemma strtab_ok is64 t size d t' : tinv t -> st_in_order t = false -> mw_strtab is64 t = Ok (size, d, t') ->
  zlen d = size /\ bytes_ok d /\ 0 <= size < 2 ^ 32 /\ located d 0 [] /\ (forall id s, zget (st_strings t) id = Some s -> exists off, st_get_offset t' id = Ok off /\ 0 <= off < 2 ^ 32 /\ located d off s) /\
  (forall id off, st_get_offset t' id = Ok off -> 0 <= off < 2 ^ 32).
Proof.
  intros Ht Ho E. unfold mw_strtab in E. destruct (write_merge t [0] Ht Ho) as (ws & w & t1 & Ew & Hw & _ & Hm & _ & _ & Ln & _ & Hl); [left; exists []; reflexivity|]. change (zlen [0]) with 1 in *. rewrite Ew in E. clear Ew.
  destruct (Z.ltb_spec (1 + zlen w) (2 ^ 32)) as [Lw|]; [|discriminate]. specialize (Hl Lw). destruct (align 64 (1 + zlen w) (mw_word is64)) as [n| |] eqn:Ea; cbn [bind] in E; try discriminate.
  destruct (Z.ltb_spec n (2 ^ 32)) as [Lx|]; [|discriminate]. pose proof (zlen_nonneg w). apply align_ok in Ea; [|destruct is64; [exists 3|exists 2]; (split; [lia|reflexivity])|lia]. destruct Ea as (_ & Bn).
  assert (size = n /\ d = [0] ++ w ++ zeros (n - (1 + zlen w)) /\ t' = t1) as (-> & -> & ->) by (split; [|split]; congruence). clear E.
  split; [rewrite !zlen_app, zlen_zeros by lia; change (zlen [0]) with 1; lia|]. split.
  { apply bytes_ok_app. split; [repeat constructor; lia|]. apply bytes_ok_app. split; [|apply bytes_ok_zeros]. subst w. unfold cstrings. apply Forall_concat. apply Forall_map. apply Forall_forall. intros s Hs. apply Hm in Hs. destruct Hs as (Hs & _).
    apply bytes_ok_app. split; [|repeat constructor; lia]. exact (proj1 (proj1 (Forall_forall _ _) (ti_ok _ Ht) s Hs)). }
  split; [lia|]. split; [exists [], (w ++ zeros (n - (1 + zlen w))); split; reflexivity|].
  split; [|intros id off Q; unfold st_get_offset in Q; destruct (zget (st_offsets t1) id) as [o1|] eqn:Q1; cbn [unwrap] in Q; try discriminate; injection Q as <-; pose proof (zget_Some_lt _ _ _ Q1) as Q2; rewrite Ln in Q2; destruct (zget_lt_Some _ _ Q2) as (s & Hs); destruct (Hl id s Hs) as (off & Hoff & Bo & _); congruence].
  intros id s Hs. destruct (Hl id s Hs) as (off & Hoff & Bo & Lo). exists off. split; [unfold st_get_offset; rewrite Hoff; reflexivity|]. split; [exact Bo|]. rewrite app_assoc. apply located_app. exact Lo.
Qed.

(** * Symbol table entries *)
Lemma write_u_mod e n v : write_u e n (v mod 2 ^ (8 * Z.of_nat n)) = write_u e n v.
Proof.
  assert (K : forall x, write_u e n (read_u e (write_u e n x)) = write_u e n x).
  { intros x. pose proof (write_read_u e (write_u e n x) (bytes_ok_write_u e n x)) as H. replace (length (write_u e n x)) with n in H; [exact H|]. pose proof (zlen_write_u e n x) as Q. unfold zlen in Q. lia. }
  rewrite <- (K v). rewrite read_write_u. reflexivity.
Qed.
Definition norm (is64 : bool) (n : nlist) : nlist := {| n_strx := n_strx n; n_type := n_type n; n_sect := n_sect n; n_desc := n_desc n; n_value := n_value n mod (if is64 then 2 ^ 64 else 2 ^ 32) |}.
Lemma mach_nlist_norm is64 e n : mach_nlist is64 e (norm is64 n) = mach_nlist is64 e n.
Proof.
  unfold mach_nlist, norm, word. cbn [n_strx n_type n_sect n_desc n_value]. destruct is64; [rewrite <- (write_u_mod e 8 (n_value n))|rewrite <- (write_u_mod e 4 (n_value n))]; reflexivity.
Qed.
Lemma symbol_flags_ok y t d : 0 <= sy_value y < 2 ^ 64 -> (forall t d, sy_flags y = Some (YFMachO t d) -> 0 <= t < 256 /\ u16_ok d) -> mw_symbol_flags y = Ok (t, d) -> 0 <= t < 256 /\ u16_ok d /\ (forall t' d', sy_flags y = Some (YFMachO t' d') -> t = t' /\ d = d').
Proof.
  intros Hv H E. unfold mw_symbol_flags in E. destruct (sy_flags y) as [f|] eqn:Ef.
  - destruct f; try discriminate. assert (n_type = t /\ n_desc = d) as (-> & ->) by (split; congruence). destruct (H t d eq_refl) as (H1 & H2). split; [exact H1|]. split; [exact H2|]. intros t' d' Q. split; congruence.
  - unfold of_opt, macho_symbol_flags in E.
    set (dd := if sy_weak y then match sy_section y with YUndefined => 64 | _ => 128 end else 0) in *.
    assert (D1 : dd = 0 \/ dd = 64 \/ dd = 128) by (unfold dd; destruct (sy_weak y); [destruct (sy_section y)|]; lia). clearbody dd.
    set (d2 := match sy_section y with YCommon => Z.lor (Z.land dd 61695) (Z.shiftl (if 1 <? sy_value y then Z.min (trailing_zeros (sy_value y)) 15 else 0) 8) | _ => dd end) in *.
    assert (D2 : 0 <= d2 < 2 ^ 16).
    { unfold d2. destruct (sy_section y); try lia. assert (T : 0 <= trailing_zeros (sy_value y)).
      { unfold trailing_zeros. generalize (sy_value y). generalize 64%nat. induction n as [|n IH]; intros x; cbn [tz]; [lia|]. destruct (Z.odd x); [lia|]. specialize (IH (x / 2)). lia. }
      apply lor_bound; [lia| |].
      - destruct D1 as [-> |[-> | ->]]; cbn; lia.
      - rewrite Z.shiftl_mul_pow2 by lia. destruct (1 <? sy_value y); lia. }
    clearbody d2. unfold u16_ok. cbv zeta in E.
    assert (Q : d = d2 /\ 0 <= t < 256).
    { destruct (sy_section y), (sy_scope y); cbn [option_map] in E; try discriminate; injection E as <- <-; (split; [reflexivity|vm_compute; split; congruence]). }
    destruct Q as (-> & Q). split; [exact Q|]. split; [exact D2|]. discriminate.
Qed.
Lemma nlist_of_ok is64 o lay ids t i n : mw_nlist_of o lay ids t i = Ok n -> Forall (msym_in o) (o_symbols o) -> zlen (o_sections o) <= 255 ->
  (forall id off, st_get_offset t id = Ok off -> 0 <= off < 2 ^ 32) ->
  exists y, zget (o_symbols o) i = Some y /\ nlist_ok is64 (norm is64 n) /\
    match sy_section y with YCommon => n_value n = sy_size y | YSec id => exists x, zget lay id = Some x /\ n_value n = fst x + sy_value y | _ => n_value n = sy_value y end /\
    n_sect n = match sy_section y with YSec id => id + 1 | _ => 0 end /\
    match zget ids i with Some (Some (_, Some id)) => st_get_offset t id = Ok (n_strx n) | _ => n_strx n = 0 end /\
    mw_symbol_flags y = Ok (n_type n, n_desc n).
Proof.
  intros E HY LS HT. unfold mw_nlist_of in E. destruct (zget (o_symbols o) i) as [y|] eqn:Ey; cbn [unwrap bind] in E; try discriminate. pose proof (Forall_zget _ _ _ _ HY Ey) as (Y1 & Y2 & Y3 & Y4 & Y5).
  destruct (mw_symbol_flags y) as [(tt & dd)| |] eqn:Ef; cbn [bind] in E; try discriminate. pose proof (symbol_flags_ok y tt dd Y2 Y5 Ef) as (T1 & T2 & _).
  destruct (match sy_section y with YCommon => Ok (sy_size y) | YSec id => x <- unwrap (zget lay id) ;; padd 64 (fst x) (sy_value y) | _ => Ok (sy_value y) end) as [v| |] eqn:Ev; cbn [bind] in E; try discriminate.
  destruct (match zget ids i with Some (Some (_, Some id)) => st_get_offset t id | _ => Ok 0 end) as [sx| |] eqn:Es; cbn [bind] in E; try discriminate. assert (n = {| n_strx := sx; n_type := tt; n_sect := match sy_section y with YSec id => wrap_u 8 (id + 1) | _ => 0 end; n_desc := dd; n_value := v |}) as -> by congruence. clear E.
  cbn [n_strx n_type n_sect n_desc n_value norm]. exists y. split; [reflexivity|].
  assert (S : match sy_section y with YSec id => wrap_u 8 (id + 1) | _ => 0 end = match sy_section y with YSec id => id + 1 | _ => 0 end).
  { destruct (sy_section y) as [| | | |id] eqn:Esec; try reflexivity. specialize (Y4 id eq_refl). apply wrap_u_id. lia. }
  rewrite S. split; [|split; [|split; [reflexivity|split; [|exact Ef]]]].
  - unfold nlist_ok, norm. cbn [n_strx n_type n_sect n_desc n_value]. split; [|split; [exact T1|split; [|split; [exact T2|]]]].
    + unfold u32_ok. destruct (zget ids i) as [[(q & [id|])|]|]; try (assert (sx = 0) by congruence; lia). exact (HT _ _ Es).
    + destruct (sy_section y) as [| | | |id]; try lia. specialize (Y4 id eq_refl). lia.
    + unfold mword_ok. destruct is64; apply Z.mod_pos_bound; lia.
  - destruct (sy_section y) as [| | | |id]; try congruence. destruct (zget lay id) as [x|]; cbn [unwrap bind] in Ev; try discriminate. apply padd_ok in Ev. exists x. split; [reflexivity|tauto].
  - destruct (zget ids i) as [[(q & [id|])|]|]; congruence.
Qed.

(** * The CPU *)
Lemma cpu_ok a sub c s : mw_cpu a sub = Ok (c, s) -> cpu_type a = Some c /\ macho_architecture c = a /\ cpu_of a c /\ s = cpu_subtype a sub /\ u32_ok c /\ u32_ok s.
Proof.
  unfold mw_cpu. intros E. destruct a, sub as [[|]|]; try discriminate; (assert (Q : c = c /\ s = s) by (split; reflexivity); inversion E; subst; clear; repeat split; try reflexivity; unfold u32_ok; lia).
Qed.
(** * What is reported for default flags *)
Lemma reports_ok y n : sy_flags y = None -> 0 <= sy_value y -> mw_symbol_flags y = Ok (n_type n, n_desc n) -> n_sect n = match sy_section y with YSec id => id + 1 | _ => 0 end ->
  (forall id, sy_section y = YSec id -> 0 <= id) -> reports_symbol n y.
Proof.
  intros Hf Hv E Hs Hi. unfold mw_symbol_flags in E. rewrite Hf in E. unfold macho_symbol_flags in E. cbv zeta in E.
  assert (T : exists t, match sy_section y with YUndefined | YCommon => Some 1 | YAbsolute => Some 2 | YSec _ => Some 14 | YNone => None end = Some t /\ n_type n = Z.lor t (match sy_scope y with ScUnknown | ScCompilation => 0 | ScLinkage => 17 | ScDynamic => 1 end)).
  { destruct (match sy_section y with YUndefined | YCommon => Some 1 | YAbsolute => Some 2 | YSec _ => Some 14 | YNone => None end) as [t|]; [|discriminate]. exists t. split; [reflexivity|]. cbn [option_map of_opt] in E. congruence. }
  destruct T as (t & Ht & T).
  assert (W : my_is_weak n = sy_weak y).
  { assert (D : n_desc n = match sy_section y with YCommon => Z.lor (Z.land (if sy_weak y then match sy_section y with YUndefined => 64 | _ => 128 end else 0) 61695) (Z.shiftl (if 1 <? sy_value y then Z.min (trailing_zeros (sy_value y)) 15 else 0) 8) | _ => (if sy_weak y then match sy_section y with YUndefined => 64 | _ => 128 end else 0) end).
    { rewrite Ht in E. cbn [option_map of_opt] in E. congruence. }
    unfold my_is_weak. rewrite D. clear D E T Ht. destruct (sy_section y), (sy_weak y); try reflexivity.
    - generalize (if 1 <? sy_value y then Z.min (trailing_zeros (sy_value y)) 15 else 0). intros k. unfold fl_any. rewrite Z.land_lor_distr_l. change (Z.land (Z.land 128 61695) 192) with 128.
      destruct (Z.eqb_spec (Z.lor 128 (Z.land (Z.shiftl k 8) 192)) 0) as [Q|Q]; [|reflexivity]. apply Z.lor_eq_0_iff in Q. destruct Q; discriminate.
    - generalize (if 1 <? sy_value y then Z.min (trailing_zeros (sy_value y)) 15 else 0). intros k. unfold fl_any. rewrite Z.land_lor_distr_l. change (Z.land (Z.land 0 61695) 192) with 0. rewrite Z.lor_0_l.
      replace (Z.land (Z.shiftl k 8) 192) with 0; [reflexivity|]. symmetry. apply Z.bits_inj'. intros j Hj. rewrite Z.land_spec, Z.bits_0. destruct (Z.ltb_spec j 8) as [Lj|Lj]; [rewrite Z.shiftl_spec_low by lia; reflexivity|].
      assert (Z.testbit 192 j = false) as ->; [|apply andb_false_r]. apply Z.bits_above_log2; [lia|]. change (Z.log2 192) with 7. lia. }
  clear E. unfold reports_symbol. unfold is_stab, my_section, my_scope, my_is_undefined, my_is_common, my_address, my_size, my_is_common, is_stab, n_typ, undefined_sym. rewrite T, Hs. clear T Hs Hf.
  destruct (sy_section y) as [| | | |id] eqn:Esec; cbn beta iota in Ht; try discriminate; assert (t = t) by reflexivity; injection Ht as <-.
  - destruct (sy_scope y); (split; [reflexivity|]; split; [exact W|]; split; [cbn; destruct (n_value n =? 0); reflexivity|]; split; [intros Q; exfalso; apply Q; left; reflexivity|discriminate]).
  - destruct (sy_scope y); (split; [reflexivity|]; split; [exact W|]; split; [cbn; split; reflexivity|]; split; [reflexivity|discriminate]).
  - destruct (sy_scope y); (split; [reflexivity|]; split; [exact W|]; split; [cbn; destruct (n_value n =? 0); reflexivity|]; split; [intros Q; exfalso; apply Q; right; reflexivity|intros _; cbn; destruct (Z.eqb_spec (n_value n) 0); cbn [negb]; congruence]).
  - specialize (Hi id eq_refl). destruct (sy_scope y); (split; [reflexivity|]; split; [exact W|]; split; [cbn; replace (id + 1 =? 0) with false by lia; split; reflexivity|]; split; [reflexivity|discriminate]).
Qed.
