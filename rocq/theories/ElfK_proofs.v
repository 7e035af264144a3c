(** Proofs about the unified ELF reader: COMDAT groups, versions, the header, absence of panics. *)
From Verif Require Import Core_proofs Str_proofs Util_proofs Hash_proofs Rel_proofs Note_proofs Ver_proofs File_proofs Elf_proofs ElfR_proofs Pod_proofs.
From Verif Require PeI_proofs PeX_proofs Ar_spec Ar_proofs ArSym_proofs CoffR_proofs CoffI_proofs CoffW_proofs Trie_proofs MachW_proofs.
From Verif Require Import Obj_model ElfF_spec ElfF_proofs ElfG_proofs ElfH_proofs ElfI_proofs ElfJ_proofs.

Lemma sh_data_len s F d : zlen F < 2 ^ 63 -> sh_data s F = Ok d -> zlen d < 2 ^ 63.
Proof.
  intros HF D. unfold sh_data in D. destruct (sh_file_range s) as [[o n]|]; [|injection D as <-; change (zlen (@nil Z)) with 0; lia].
  unfold rr_read_bytes_at in D. destruct (n =? 0); [injection D as <-; change (zlen (@nil Z)) with 0; lia|]. unfold get_from in D. destruct (_ && _); cbn [of_opt bind] in D; [|discriminate].
  unfold get_to in D. destruct (_ && _) eqn:Q; cbn [of_opt] in D; [|discriminate]. assert (d = ztake n (zdrop o F)) as -> by congruence. unfold ztake, zdrop, zlen in *. rewrite firstn_length, skipn_length. clear - HF. lia.
Qed.
(** an array of numbers *)
Lemma numbers_inv e d k ws : (0 < k)%nat -> bytes_ok d -> slice_from_all_bytes d (Z.of_nat k) = Ok ws ->
  d = concat (map (write_u e k) (map (read_u e) ws)) /\ Forall (fun v => 0 <= v < 2 ^ (8 * Z.of_nat k)) (map (read_u e) ws).
Proof.
  intros Hk K H. pose proof (slice_all_ok d (Z.of_nat k) ws ltac:(lia) K H) as O. apply slice_all_inv in H as (-> & _); [|lia]. clear K. split.
  - f_equal. rewrite map_map. symmetry. refine (map_id_Forall _ _ _ _ O). cbn beta. intros c (Lc & Kc). apply write_read_n; assumption.
  - rewrite Forall_map. eapply Forall_impl; [|exact O]. cbn beta. intros c (Lc & Kc). pose proof (read_u_bound e c Kc) as R. rewrite Lc in R. exact R.
Qed.
Lemma numbers_read e k vs : (0 < k)%nat -> Forall (fun v => 0 <= v < 2 ^ (8 * Z.of_nat k)) vs -> zlen (concat (map (write_u e k) vs)) < 2 ^ 64 ->
  slice_from_all_bytes (concat (map (write_u e k) vs)) (Z.of_nat k) = Ok (map (write_u e k) vs) /\ map (read_u e) (map (write_u e k) vs) = vs.
Proof.
  intros Hk V L. split.
  - apply slice_from_all_bytes_concat; [lia| |exact L]. rewrite Forall_map. apply Forall_forall. intros v _. apply zlen_write_u.
  - rewrite map_map. refine (map_id_Forall _ _ _ _ V). cbn beta. intros v R. apply read_write_u_small. exact R.
Qed.

(** * COMDAT groups *)
Lemma comdat_iff e F s : bytes_ok F -> zlen F < 2 ^ 63 ->
  (forall c, comdat_parse e F s = Ok (Some c) <-> fst c = s /\ is_comdat e F s (snd c)) /\ (comdat_parse e F s = Ok None \/ exists c, comdat_parse e F s = Ok (Some c)).
Proof.
  intros K HF. unfold comdat_parse, sh_group, is_comdat, SHT_GROUP. destruct (Z.eqb_spec (sh_type s) 17) as [T|T]; cbn [negb].
  2: { split; [|left; reflexivity]. intros c. split; [discriminate|]. intros (_ & A & _). contradiction. }
  destruct (sh_data s F) as [d| |] eqn:D; cbn [bind]; [| |exfalso; exact (sh_data_no_panic _ _ D)].
  2: { split; [|left; reflexivity]. intros c. split; [discriminate|]. intros (_ & _ & d & flag & A & _). discriminate. }
  assert (Kd : bytes_ok d) by exact (sh_data_bytes _ _ _ K D). pose proof (sh_data_len _ _ _ HF D) as Ld. unfold from_bytes, get_from.
  destruct ((0 <=? 4) && (4 <=? zlen d)) eqn:L4; cbn [of_opt bind fst snd].
  2: { split; [|left; reflexivity]. intros c. split; [discriminate|]. intros (_ & _ & d' & flag & A & B & _). exfalso. assert (d' = d) as -> by congruence. rewrite B, zlen_app, zlen_write_u in L4. pose proof (zlen_nonneg (concat (map (write_u e 4) (snd c)))). lia. }
  assert (L : 4 <= zlen d) by lia. clear L4.
  assert (SP : d = write_u e 4 (read_u e (ztake 4 d)) ++ zdrop 4 d). { rewrite (write_read_n e 4) by (first [apply bytes_ok_ztake; exact Kd|rewrite zlen_ztake by lia; reflexivity]). symmetry. apply ztake_zdrop. }
  assert (UF : u32_ok (read_u e (ztake 4 d))). { pose proof (read_u_bound e (ztake 4 d) (bytes_ok_ztake 4 d Kd)) as R. rewrite zlen_ztake in R by lia. exact R. }
  assert (UQ : forall flag m, d = write_u e 4 flag ++ concat (map (write_u e 4) m) -> u32_ok flag -> flag = read_u e (ztake 4 d) /\ zdrop 4 d = concat (map (write_u e 4) m)).
  { intros flag m E U. split; [rewrite E, ztake_app_eq by (rewrite zlen_write_u; reflexivity); symmetry; apply read_write_u_small; exact U|]. rewrite E. apply zdrop_app_eq. rewrite zlen_write_u. reflexivity. }
  set (fl := read_u e (ztake 4 d)) in *. set (r := zdrop 4 d) in *. assert (Kr : bytes_ok r) by (apply bytes_ok_zdrop; exact Kd). assert (Lr : zlen r < 2 ^ 63) by (unfold r; rewrite zlen_zdrop by lia; lia).
  unfold bit. assert (BF : has_flags fl 1 = Z.testbit fl 0) by (apply (has_flags_bit fl 0); lia).
  destruct (slice_from_all_bytes r 4) as [ws| |] eqn:S; cbn [bind]; [| |exfalso; exact (slice_from_all_bytes_no_panic _ _ S)].
  - destruct (numbers_inv e r 4 ws ltac:(lia) Kr S) as (Er & Ew). rewrite BF. destruct (Z.testbit fl 0) eqn:B.
    + split; [|right; eexists; reflexivity]. intros (s', m). cbn [fst snd]. split.
      * intro Q. assert (s' = s /\ m = map (read_u e) ws) as [-> ->] by (split; congruence). split; [reflexivity|]. split; [exact T|]. exists d, fl. split; [reflexivity|]. split; [rewrite <- Er; exact SP|]. split; [exact UF|]. split; [exact B|exact Ew].
      * intros (-> & _ & d' & flag & A & E & U & _ & Um). assert (d' = d) as -> by congruence. destruct (UQ flag m E U) as (_ & Q). destruct (numbers_read e 4 m ltac:(lia) Um) as (N1 & N2); [rewrite <- Q; lia|]. change (Z.of_nat 4) with 4 in N1. rewrite <- Q, S in N1. assert (ws = map (write_u e 4) m) as -> by congruence. rewrite N2. reflexivity.
    + split; [|left; reflexivity]. intros c. split; [discriminate|]. intros (_ & _ & d' & flag & A & E & U & B' & _). assert (d' = d) as -> by congruence. destruct (UQ flag _ E U) as (-> & _). congruence.
  - split; [|left; reflexivity]. intros c. split; [discriminate|]. intros (_ & _ & d' & flag & A & E & U & _ & Um). assert (d' = d) as -> by congruence. destruct (UQ flag _ E U) as (_ & Q). destruct (numbers_read e 4 (snd c) ltac:(lia) Um) as (N1 & _); [rewrite <- Q; lia|]. change (Z.of_nat 4) with 4 in N1. rewrite <- Q, S in N1. discriminate.
Qed.
Lemma comdats_run e F l : bytes_ok F -> zlen F < 2 ^ 63 -> exists r, groups e F l r /\ runs (comdat_next e F) l r false [].
Proof.
  intros K HF. induction l as [|s l (r & G & R)]; [exists []; split; [constructor|apply runs_done; reflexivity]|].
  destruct (comdat_iff e F s K HF) as (A & [E|((s', m) & E)]).
  - exists r. split; [apply gr_other; [|exact G]; intros m H; assert (comdat_parse e F s = Ok (Some (s, m))) by (apply A; split; [reflexivity|exact H]); congruence|].
    inversion R; subst; [apply runs_done|eapply runs_more; [|eassumption]]; cbn [comdat_next]; rewrite E; assumption.
  - destruct (proj1 (A (s', m)) E) as (E1 & E2). cbn [fst snd] in *. subst s'. exists ((s, m) :: r). split; [apply gr_group; assumption|]. eapply runs_more; [cbn [comdat_next]; rewrite E; reflexivity|exact R].
Qed.

(** * Versions *)
Lemma first_type {B} (f : shdr -> out (option B)) (g : shdr -> out B) t ty : (forall s, f s = if negb (sh_type s =? ty) then Ok None else x <- g s ;; Ok (Some x)) ->
  (forall x, first_found f (stab_sections t) = Ok (Some x) <-> exists h, first_of_type t ty (Some h) /\ g h = Ok x) /\
  (first_found f (stab_sections t) = Ok None <-> first_of_type t ty None).
Proof.
  intros E. assert (N : forall s, f s = Ok None <-> sh_type s <> ty). { intro s. rewrite E. destruct (Z.eqb_spec (sh_type s) ty); cbn [negb]; [|tauto]. destruct (g s); cbn [bind]; split; try discriminate; contradiction. }
  assert (S : forall s x, f s = Ok (Some x) <-> sh_type s = ty /\ g s = Ok x). { intros s x. rewrite E. destruct (Z.eqb_spec (sh_type s) ty); cbn [negb]; [|split; [discriminate|tauto]]. destruct (g s); cbn [bind]; split; try discriminate; [intro; split; congruence|intros (_ & ?); congruence|intros (_ & ?); discriminate|intros (_ & ?); discriminate]. }
  split.
  - intro x. rewrite first_some. unfold first_of_type. split.
    + intros (a & s & c & A & B1 & B2). apply S in B2 as (B2 & B3). exists s. split; [|exact B3]. exists a, c. split; [exact A|]. split; [exact B2|]. eapply Forall_impl; [|exact B1]. cbn beta. intros h. apply N.
    + intros (s & (a & c & A & B1 & B2) & B3). exists a, s, c. split; [exact A|]. split; [|apply S; split; assumption]. eapply Forall_impl; [|exact B2]. cbn beta. intros h. apply N.
  - rewrite first_none. cbn [first_of_type]. split; intro H; (eapply Forall_impl; [|exact H]; cbn beta; intros h; apply N).
Qed.
Lemma verdata_iff t F ty o : first_found (sh_verdata ty F) (stab_sections t) = Ok o <-> data_of_type t F ty o.
Proof.
  destruct (first_type (sh_verdata ty F) (fun s => sh_data s F) t ty (fun s => eq_refl)) as (A & B). destruct o as [d|]; [apply A|apply B].
Qed.
Lemma verdata_ok t F ty o : bytes_ok F -> data_of_type t F ty o -> opt_ok o.
Proof. intros K. destruct o as [d|]; [|constructor]. intros (h & _ & D). exact (sh_data_bytes _ _ _ K D). Qed.
Lemma first_of_type_fun t ty a b : first_of_type t ty a -> first_of_type t ty b -> a = b.
Proof.
  unfold first_of_type. destruct a as [s|], b as [s'|]; try reflexivity.
  - intros (a & c & E & T & A) (a' & c' & E' & T' & A'). rewrite E in E'. clear E. revert a' E' A'. induction A as [|x a Hx A IH]; intros [|x' a'] E' A'; cbn [app] in E'; injection E' as -> E'.
    + reflexivity.
    + inversion A'; congruence.
    + congruence.
    + inversion A'; subst. exact (IH _ E' H2).
  - intros (a & c & E & T & A) H. rewrite E in H. apply Forall_app in H as (_ & H). inversion H. contradiction.
  - intros H (a & c & E & T & A). rewrite E in H. apply Forall_app in H as (_ & H). inversion H. contradiction.
Qed.
Lemma data_fun t F ty a b : data_of_type t F ty a -> data_of_type t F ty b -> a = b.
Proof. intros A B. apply verdata_iff in A, B. congruence. Qed.
Lemma symtab_index_np is64 e F t i : symtab_by_index is64 e F t i <> Panic.
Proof. pose proof (symtab_total is64 e F t 2 i 0 {| st_name := 0; st_info := 0; st_other := 0; st_shndx := 0; st_value := 0; st_size := 0 |} symtab_default (or_introl eq_refl)) as (_ & H & _). exact H. Qed.
Lemma versions_iff is64 f F : bytes_ok F -> zlen F < 2 ^ 63 ->
  match ef_versions is64 f F with
  | Ok (Some v) => exists l, version_tables is64 (ef_endian f) F (ef_sections f) (vt_symbols v) l /\
      forall i, 0 <= i -> vt_version v i = if i <? 2 then Ok None else match lookup_last l i with Some v => Ok (Some v) | None => Err end
  | Ok None => first_of_type (ef_sections f) 1879048191 None
  | Err => ~ first_of_type (ef_sections f) 1879048191 None /\ ~ exists syms l, version_tables is64 (ef_endian f) F (ef_sections f) syms l
  | Panic => False
  end.
Proof.
  intros K HF. unfold ef_versions. set (e := ef_endian f). set (t := ef_sections f).
  set (g := fun s => a <- sh_data_as_array 2 s F ;; Ok (map (read_u e) a, sh_link s)).
  destruct (first_type (sh_versym e F) g t SHT_GNU_VERSYM) as (A & B). { intro s. unfold sh_versym, g. destruct (negb _); [reflexivity|]. destruct (sh_data_as_array 2 s F); reflexivity. }
  assert (NP : first_found (sh_versym e F) (stab_sections t) <> Panic). { apply first_np. intros s _. unfold sh_versym. destruct (negb _); [discriminate|]. pose proof (sh_array_no_panic 2 s F). destruct (sh_data_as_array 2 s F); [discriminate|discriminate|contradiction]. }
  change 1879048191 with SHT_GNU_VERSYM. destruct (first_found (sh_versym e F) (stab_sections t)) as [[(syms, link)|]| |] eqn:E; cbn [bind]; [|apply B; reflexivity| |contradiction].
  2: { split; [intro H; apply B in H; discriminate|]. intros (syms & l & h & st & defs & needs & H1 & H2 & H3 & _). assert (Err = Ok (Some (syms, sh_link h))); [|discriminate]. apply A. exists h. split; [exact H1|].
       unfold g, sh_data_as_array. rewrite H2. cbn [bind]. pose proof (sh_data_len _ _ _ HF H2) as L. destruct (numbers_read e 2 syms ltac:(lia) H3 ltac:(lia)) as (N1 & N2). change (Z.of_nat 2) with 2 in N1. rewrite N1. cbn [bind]. rewrite N2. reflexivity. }
  destruct (proj1 (A (syms, link)) eq_refl) as (h & FT & G). unfold g, sh_data_as_array in G. destruct (sh_data h F) as [d| |] eqn:D; cbn [bind] in G; try discriminate. destruct (slice_from_all_bytes d 2) as [ws| |] eqn:S; cbn [bind] in G; try discriminate.
  assert (syms = map (read_u e) ws /\ link = sh_link h) as [Es El] by (split; congruence). assert (Kd := sh_data_bytes _ _ _ K D). destruct (numbers_inv e d 2 ws ltac:(lia) Kd S) as (Ed & Ew).
  assert (NT : ~ first_of_type t SHT_GNU_VERSYM None). { intro H. pose proof (first_of_type_fun _ _ _ _ FT H). discriminate. }
  assert (UQ : forall syms' l, version_tables is64 e F t syms' l -> syms' = syms /\ exists st defs needs, symtab_by_index is64 e F t link = Ok st /\ data_of_type t F SHT_GNU_VERDEF defs /\ data_of_type t F SHT_GNU_VERNEED needs /\ table_entries e defs needs (stb_get (smt_strings st)) l).
  { intros syms' l (h' & st & defs & needs & H1 & H2 & H3 & H4 & H5 & H6 & H7). pose proof (first_of_type_fun _ _ _ _ H1 FT) as Q. injection Q as ->. assert (d = concat (map (write_u e 2) syms')) as E' by congruence. subst link. split; [|exists st, defs, needs; repeat (split; [assumption|]); assumption].
    pose proof (sh_data_len _ _ _ HF D) as L. rewrite E' in L. destruct (numbers_read e 2 syms' ltac:(lia) H3 ltac:(lia)) as (N1 & N2). change (Z.of_nat 2) with 2 in N1. rewrite <- E', S in N1. assert (ws = map (write_u e 2) syms') as -> by congruence. subst syms. symmetry. exact N2. }
  destruct (symtab_by_index is64 e F t link) as [st| |] eqn:ST; cbn [bind]; [| |exfalso; exact (symtab_index_np _ _ _ _ _ ST)].
  2: { split; [exact NT|]. intros (syms' & l & H). apply UQ in H as (_ & st & defs & needs & H & _). discriminate. }
  assert (NPV : forall ty, first_found (sh_verdata ty F) (stab_sections t) <> Panic). { intro ty. apply first_np. intros s _. unfold sh_verdata. destruct (negb _); [discriminate|]. pose proof (sh_data_no_panic s F). destruct (sh_data s F); [discriminate|discriminate|contradiction]. }
  destruct (first_found (sh_verdata SHT_GNU_VERDEF F) (stab_sections t)) as [defs| |] eqn:E1; cbn [bind]; [| |exfalso; exact (NPV _ E1)].
  2: { split; [exact NT|]. intros (syms' & l & H). apply UQ in H as (_ & st' & defs & needs & _ & H & _). apply verdata_iff in H. congruence. }
  destruct (first_found (sh_verdata SHT_GNU_VERNEED F) (stab_sections t)) as [needs| |] eqn:E2; cbn [bind]; [| |exfalso; exact (NPV _ E2)].
  2: { split; [exact NT|]. intros (syms' & l & H). apply UQ in H as (_ & st' & defs' & needs & _ & _ & H & _). apply verdata_iff in H. congruence. }
  apply verdata_iff in E1, E2. pose proof (vt_parse_spec e syms defs needs (stb_get (smt_strings st)) (verdata_ok _ _ _ _ K E1) (verdata_ok _ _ _ _ K E2)) as V.
  assert (SP : forall o, stb_get (smt_strings st) o <> Panic) by (intro o; apply strtab_get_no_panic). specialize (V SP).
  destruct (vt_parse e syms defs needs (stb_get (smt_strings st))) as [v| |]; cbn [bind]; [| |exact V].
  - destruct V as (V1 & l & V2 & V3). exists l. split; [|exact V3]. exists h, st, defs, needs. split; [exact FT|]. split; [rewrite V1, Es, <- Ed; exact D|]. split; [rewrite V1, Es; exact Ew|]. split; [rewrite <- El; exact ST|]. split; [exact E1|split; [exact E2|exact V2]].
  - split; [exact NT|]. intros (syms' & l & H). apply UQ in H as (_ & st' & defs' & needs' & Q & D1 & D2 & T). injection Q as <-. apply V. exists l. rewrite (data_fun _ _ _ _ _ E1 D1), (data_fun _ _ _ _ _ E2 D2). exact T.
Qed.

(** * The header *)
Lemma holds_sub0 F b n : holds F 0 b -> 0 <= n <= zlen b -> holds F 0 (ztake n b).
Proof. intros (a & c & -> & L) H. assert (a = []) as -> by (apply zlen_0_nil; exact L). exists [], (zdrop n b ++ c). split; [cbn [app]; rewrite app_assoc, ztake_zdrop; reflexivity|reflexivity]. Qed.
Lemma header_iff is64 F f : bytes_ok F -> facts is64 F f ->
   holds F 0 (elf_magic ++ [if is64 then 2 else 1; match ef_endian f with Little => 1 | Big => 2 end; 1]) /\
   (ef_little f = true <-> ef_endian f = Little) /\
   exists abi ver ty machine entry flags, holds F 7 [abi; ver] /\ number_at F (ef_endian f) 16 2 ty /\ number_at F (ef_endian f) 18 2 machine /\
     number_at F (ef_endian f) 24 (if is64 then 8 else 4) entry /\ number_at F (ef_endian f) (if is64 then 48 else 36) 4 flags /\
     file_kind ty (ef_kind f) /\ ef_entry is64 f = entry /\ ef_flags is64 f = (abi, ver, flags) /\ ef_architecture is64 f = elf_architecture machine is64 flags.
Proof.
  intros K A. destruct (raw_ok is64 F (ef_raw f) K (fa_raw _ _ _ A)) as (Kr & Er & L & S). pose proof (fa_endian _ _ _ A) as E. unfold eh_endian in E.
  assert (Lr : zlen (ef_raw f) = ehdr_size is64) by (rewrite Er; apply zlen_zslice; destruct is64; cbn in *; lia). assert (L52 : 52 <= ehdr_size is64) by (destruct is64; cbn; lia).
  assert (FF : forall e o n, 0 <= o -> 0 <= n -> o + n <= ehdr_size is64 -> fld e o n (ef_raw f) = fld e o n F). { intros e o n H1 H2 H3. rewrite Er. rewrite fld_zslice by lia. reflexivity. }
  assert (NA : forall e o n, 0 <= o -> 0 <= n -> o + n <= ehdr_size is64 -> number_at F e o n (fld e o n F)). { intros e o n H1 H2 H3. apply number_fld; [exact K|lia|lia|lia|reflexivity]. }
  unfold eh_supported in S. rewrite !Bool.andb_true_iff in S. destruct S as ((((S1 & S2) & S3) & S4) & S5). apply bytes_eqb_eq in S1. apply Z.eqb_eq in S5.
  unfold ei_class, ei_data, ei_version in *. rewrite !FF in * by lia.
  assert (B : forall o, 0 <= o < ehdr_size is64 -> zget F o = Some (fld Little o 1 F)). { intros o Ho. destruct (zget_lt_Some F o ltac:(lia)) as (b & Eb). rewrite fld_byte by lia. rewrite Eb. reflexivity. }
  assert (C4 : fld Little 4 1 F = if is64 then 2 else 1) by (destruct is64; cbn [orb negb] in *; lia).
  assert (C5 : fld Little 5 1 F = match ef_endian f with Little => 1 | Big => 2 end). { destruct (Z.eqb_spec (fld Little 5 1 F) 2); injection E as <-; [assumption|]. rewrite Bool.orb_false_r in S4. lia. }
  assert (LF : 52 <= zlen F) by lia.
  assert (ONE : forall o b, zget F o = Some b -> holds F o [b]). { intros o b Hb. apply zget_split in Hb as (x & y & -> & <-). exists x, y. split; reflexivity. }
  split; [|split].
  - apply holds_app. split.
    + assert (M : zslice 0 4 F = elf_magic). { rewrite Er in S1. rewrite zslice_zslice in S1 by lia. exact S1. } rewrite <- M. apply holds_iff. rewrite zlen_zslice by lia. repeat split; lia || reflexivity.
    + change (0 + zlen elf_magic) with 4. assert (B4 : zget F 4 = Some (if is64 then 2 else 1)) by (rewrite (B 4) by lia; f_equal; exact C4).
      assert (B5 : zget F 5 = Some (match ef_endian f with Little => 1 | Big => 2 end)) by (rewrite (B 5) by lia; f_equal; exact C5). assert (B6 : zget F 6 = Some 1) by (rewrite (B 6) by lia; f_equal; exact S5).
      apply (holds_app F 4 [if is64 then 2 else 1]). split; [apply ONE; exact B4|]. apply (holds_app F 5 [match ef_endian f with Little => 1 | Big => 2 end]). split; [apply ONE; exact B5|]. apply ONE. exact B6.
  - unfold ef_little, ei_data. rewrite FF by lia. rewrite C5. destruct (ef_endian f); cbn; split; congruence.
  - exists (fld Little 7 1 F), (fld Little 8 1 F), (fld (ef_endian f) 16 2 F), (fld (ef_endian f) 18 2 F), (fld (ef_endian f) 24 (if is64 then 8 else 4) F), (fld (ef_endian f) (if is64 then 48 else 36) 4 F).
    split. { change [?a; ?b] with ([a] ++ [b]). apply holds_app. change (7 + zlen [?x]) with 8. split; apply ONE, B; lia. }
    split; [apply NA; lia|]. split; [apply NA; lia|]. split; [apply NA; destruct is64; cbn; lia|]. split; [apply NA; destruct is64; cbn; lia|].
    split. { unfold ef_kind, e_type. rewrite FF by lia. generalize (fld (ef_endian f) 16 2 F). intro t. cbv zeta. repeat zcase; subst; try constructor; assumption. }
    split; [unfold ef_entry, e_entry; destruct is64; apply FF; cbn; lia|]. 
    assert (FL : e_flags is64 (ef_endian f) (ef_raw f) = fld (ef_endian f) (if is64 then 48 else 36) 4 F) by (unfold e_flags; destruct is64; apply FF; cbn; lia).
    split; [unfold ef_flags, ei_osabi, ei_abiversion; rewrite FL, !FF by lia; reflexivity|]. unfold ef_architecture, e_machine. rewrite FL, FF by lia. reflexivity.
Qed.
(** * No panics *)
Lemma efile_np is64 F : bytes_ok F -> zlen F < 2 ^ 64 -> efile_parse is64 F <> Panic.
Proof.
  intros K HF. unfold efile_parse. destruct (eh_parse is64 F) as [raw| |] eqn:E1; cbn [bind]; [|discriminate|].
  2: { destruct (tables_total is64 Little [] F K ltac:(constructor) HF) as (T & _). contradiction. }
  destruct (raw_ok is64 F raw K E1) as (Kr & _). destruct (eh_endian raw) as [e| |] eqn:E2; cbn [bind]; [|discriminate|discriminate].
  destruct (tables_total is64 e raw F K Kr HF) as (_ & _ & _ & _ & TS & TP & _).
  destruct (program_headers is64 e raw F) as [ps| |]; cbn [bind]; [|discriminate|contradiction]. destruct (eh_sections is64 e raw F) as [t| |]; cbn [bind]; [|discriminate|contradiction].
  set (s0 := {| st_name := 0; st_info := 0; st_other := 0; st_shndx := 0; st_value := 0; st_size := 0 |}).
  destruct (symtab_total is64 e F t SHT_SYMTAB 0 0 s0 symtab_default (or_introl eq_refl)) as (T1 & _). destruct (symtab_total is64 e F t SHT_DYNSYM 0 0 s0 symtab_default (or_intror eq_refl)) as (T2 & _).
  destruct (stab_symbols is64 e F t SHT_SYMTAB) as [sy| |]; cbn [bind]; [|discriminate|contradiction]. destruct (stab_symbols is64 e F t SHT_DYNSYM) as [dy| |]; cbn [bind]; [|discriminate|contradiction].
  destruct (relsec_parse_iff t (smt_section sy)) as (T3 & _). destruct (relsec_parse t (smt_section sy)); cbn [bind]; [discriminate|discriminate|contradiction].
Qed.
Lemma section_name_np f name : ef_section_by_name f name <> Panic.
Proof.
  unfold ef_section_by_name, zdebug_by_name. destruct (section_by_name _ _); [discriminate|]. destruct (starts_with name (str ".debug_")) eqn:E; cbn [negb]; [|discriminate].
  apply starts_with_iff in E as (r & ->). change 7 with (zlen (str ".debug_")). rewrite get_from_app by reflexivity. discriminate.
Qed.
Lemma parsed is64 F f : bytes_ok F -> zlen F < 2 ^ 63 -> efile_parse is64 F = Ok f ->
  Forall (shdr_ok is64) (stab_sections (ef_sections f)) /\ Forall (phdr_ok is64) (ef_segments f) /\ strtab_in F (stab_strings (ef_sections f)) /\
  Forall (fun s => sym_ok s /\ u32_ok (st_name s)) (smt_symbols (ef_symbols f)) /\ Forall (fun s => sym_ok s /\ u32_ok (st_name s)) (smt_symbols (ef_dynsyms f)).
Proof.
  intros K HF P. apply parse_iff in P. destruct (raw_ok is64 F (ef_raw f) K (fa_raw _ _ _ P)) as (Kr & _). destruct (sections_ok is64 _ _ F _ K Kr ltac:(lia) (fa_secs _ _ _ P)) as (A & B).
  split; [exact A|]. split; [exact (program_headers_ok is64 _ _ F _ K Kr ltac:(lia) (fa_segs _ _ _ P))|]. split; [exact B|].
  split; [exact (proj1 (symbols_ok _ _ _ _ _ _ K (fa_syms _ _ _ P)))|exact (proj1 (symbols_ok _ _ _ _ _ _ K (fa_dyns _ _ _ P)))].
Qed.
