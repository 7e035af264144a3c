(** Theorems about PE images: C32, C33, C36, C48 to C52. *)
From Coq Require Import Sorted.
From Verif Require Import Core_proofs Util_proofs File_proofs Str_proofs Map_proofs Pod_proofs Iter_proofs Ar_proofs ArSym_proofs Rel_proofs ElfR_proofs Kind_proofs CoffW_proofs CoffR_proofs CoffI_proofs.
From Verif Require Import Pe_spec Pe_proofs PeX_proofs PeI_proofs PeF_proofs PeT_proofs PeD_proofs PeW_spec PeW_proofs PeWI_proofs PeWF_proofs PeWG_proofs PeWC_proofs.

(** * C32: base relocations *)
Theorem C32_blocks : decodes block_enc block_next.
Proof. exact blocks_decode. Qed.
Theorem C32_entries va l : u32_ok va -> Forall u16_ok l -> runs (breloc_next va) l (map (entry_reloc va) (filter (fun r => negb (r =? 0)) l)) false [].
Proof. exact (breloc_runs va l). Qed.
(** Relocations given to the writer are read back from the written image, in order (except those that are all zeros, see [kept]). *)
Theorem C32_round_trip img len F k :
  img_ok img -> pe_write img = Ok (len, F) -> len < 2 ^ 32 ->
  zget (pi_items img) k = Some PReloc -> (forall j, zget (pi_items img) j = Some PReloc -> j = k) -> (forall d, ~ In (5, d) (pi_sets img)) -> 5 < pi_ndirs img ->
  filter kept (pi_relocs img) <> [] ->
  exists f R blocks, pe_parse (pc_is64 (pi_cfg img)) F = Ok f /\ pe_relocation_blocks f = Ok (Some R) /\ runs block_next R blocks false [] /\
    (forall b, In b blocks -> runs (breloc_next (rb_va b)) (rb_relocs b) (block_relocs b) false []) /\
    concat (map block_relocs blocks) = filter kept (pi_relocs img).
Proof.
  intros HI HW HL Hk Hu Hs Hn Hr. destruct (pe_write_inv img len F HI HW HL) as (HF & HLF & f & Hf & Wf).
  assert (exists s, zget (pf_sections f) k = Some s) as [s Es].
  { unfold written in Wf. destruct (dos_bytes (pi_dos img)) as [dos stub]. destruct Wf as (R & cert & _ & _ & _ & _ & _ & _ & _ & W & _). destruct (Forall2_zget_l _ _ _ _ _ W Hk) as (s & Es & _). eauto. }
  destruct (relocations_read img len F f HI HF ltac:(lia) Hf Wf k s Hk Es Hs Hu Hn Hr) as (R & blocks & H). exists f, R, blocks. tauto.
Qed.

(** * C33: addresses *)
Theorem C33_file_range t va o n : Forall sec_u32 t -> 0 <= va ->
  t_file_range_at t va = Some (o, n) <-> exists s, is_first (fun s => covers s va /\ offset_of s va < 2 ^ 32) t s /\ o = offset_of s va /\ n = c_vaddr s + mapped s - va.
Proof. exact (t_file_range t va o n). Qed.
Theorem C33_data_at F t va d : Forall sec_u32 t -> 0 <= va ->
  t_data_at F t va = Some d <-> exists s, is_first (fun s => covers s va /\ offset_of s va < 2 ^ 32 /\ c_rawptr s + mapped s <= zlen F) t s /\ d = zslice (offset_of s va) (c_vaddr s + mapped s - va) F.
Proof. exact (t_data_at_iff F t va d). Qed.
Theorem C33_data_containing F t va d a : Forall sec_u32 t -> 0 <= va -> t_data_containing F t va = Some (d, a) <-> loaded F t va d a.
Proof. exact (loaded_iff F t va d a). Qed.
Theorem C33_agree F t va : Forall sec_u32 t -> 0 <= va -> zlen F <= 2 ^ 32 -> t_data_at F t va = option_map (fun '(d, a) => zdrop (va - a) d) (t_data_containing F t va).
Proof. exact (data_agree F t va). Qed.
Theorem C33_directory F t d b : Forall sec_u32 t -> pair_u32 d -> dir_data F d t = Ok b <-> dir_content F t d b.
Proof. exact (content_iff F t d b). Qed.
Theorem C33_no_panic F t d : dir_data F d t <> Panic.
Proof. exact (dir_data_np F t d). Qed.
Theorem C33_section_containing t va s : Forall sec_u32 t -> 0 <= va ->
  t_section_containing t va = Some s <-> is_first (fun s => c_vaddr s <= va < c_vaddr s + c_vsize s) t s.
Proof.
  intros Ht Hva. assert (E : forall s, In s t -> contains_rva s va = true <-> c_vaddr s <= va < c_vaddr s + c_vsize s).
  { intros x Hx. rewrite Forall_forall in Ht. destruct (Ht x Hx) as (? & ? & _). unfold u32_ok, contains_rva, csub in *. destruct (Z.leb_spec (c_vaddr x) va); split; intro H'; try discriminate; try lia. }
  unfold t_section_containing. clear Ht. induction t as [|x t IH]; cbn [find].
  - split; [discriminate|]. intros (a & c & E' & _). destruct a; discriminate.
  - assert (IH' := IH (fun s H => E s (or_intror H))). clear IH. destruct (contains_rva x va) eqn:Ex.
    + apply (E x (or_introl eq_refl)) in Ex. split.
      * intros [= <-]. exists [], t. auto.
      * intros (a & c & E' & Hs & Ha). destruct a as [|y a]; injection E' as -> ->; [reflexivity|]. inversion Ha; subst. contradiction.
    + assert (Nx : ~ (c_vaddr x <= va < c_vaddr x + c_vsize x)) by (intro H; apply (E x (or_introl eq_refl)) in H; congruence). rewrite IH'. split.
      * intros (a & c & -> & Hs & Ha). exists (x :: a), c. split; [reflexivity|]. split; [exact Hs|]. constructor; assumption.
      * intros (a & c & E' & Hs & Ha). destruct a as [|y a]; injection E' as -> ->; [contradiction|]. exists a, c. inversion Ha; subst. auto.
Qed.

(** * C36: rich header *)
Theorem C36_exact F nt o n k l : file_ok F -> 0 <= nt ->
  (exists r, rich_parse F nt = Ok (Some r) /\ ri_offset r = o /\ ri_length r = n /\ ri_key r = k /\ rich_entries r = l) <-> rich_header F nt o n k l.
Proof. exact (rich_exact F nt o n k l). Qed.
Theorem C36_no_panic F nt : zlen F < 2 ^ 63 -> 0 <= nt -> rich_parse F nt <> Panic.
Proof. exact (rich_no_panic F nt). Qed.
Theorem C36_round_trip pre key l tl nt :
  let F := pre ++ rich_bytes key l ++ tl in let e := zlen pre + 16 + 8 * zlen l in
  file_ok F -> u32_ok key -> Forall pair_u32 l -> zlen pre mod 4 = 0 -> e + 8 <= nt <= zlen F ->
  (forall o', 0 <= o' < e -> o' mod 4 = 0 -> ~ holds F o' rich_mark) -> (forall o', 0 <= o' -> o' mod 4 = 0 -> ~ holds pre o' (rich_start key)) ->
  exists r, rich_parse F nt = Ok (Some r) /\ ri_offset r = zlen pre /\ ri_length r = 24 + 8 * zlen l /\ ri_key r = key /\ rich_entries r = l.
Proof.
  intros F e HF Hk Hl Hm He H1 H2. apply rich_exact; [exact HF|unfold e in He; pose proof (zlen_nonneg pre); pose proof (zlen_nonneg l); lia|]. exact (rich_round pre key l tl nt HF Hk Hl Hm He H1 H2).
Qed.

(** * C48: export tables *)
Theorem C48_table S va t : bytes_ok S -> zlen S < 2 ^ 63 ->
  export_parse S va = Ok t <-> export_section S va (ex_base t) (ex_addresses t) (ex_names t) (ex_ordinals t) /\ ex_data t = S /\ ex_va t = va /\ ex_dir t = zslice 0 40 S.
Proof. exact (export_exact S va t). Qed.
Theorem C48_exports S va t l : bytes_ok S -> zlen S < 2 ^ 63 -> export_parse S va = Ok t ->
  pe_exports t = Ok l <-> export_list S va (ex_base t) (ex_addresses t) (ex_names t) (ex_ordinals t) l.
Proof. intros HS HL E. destruct (export_tab_ok S va t HS HL E) as (Ht & <- & <-). exact (exports_exact t l Ht). Qed.
(** The iterator: one result for each name, then one for each address without a name *)
Theorem C48_iterator image S va t : bytes_ok S -> zlen S < 2 ^ 63 -> export_parse S va = Ok t ->
  exists L1 L2,
    Forall2 (fun '(p, i) => outcome (export_named S va image (ex_base t) (ex_addresses t) p i)) (combine (ex_names t) (ex_ordinals t)) L1 /\
    Forall2 (fun '(i, a) => outcome (export_unnamed S va image (ex_base t) i a)) (unnamed (ex_ordinals t) 0 (ex_addresses t)) L2 /\
    results (expit_next image t) (expit_new t) (L1 ++ L2).
Proof. intros HS HL E. destruct (export_tab_ok S va t HS HL E) as (Ht & <- & <-). exact (iterator_results image t Ht). Qed.
Theorem C48_target t a x : target_from_address t a = Ok x <-> target_of (ex_data t) (ex_va t) a x.
Proof. exact (target_exact t a x). Qed.
Theorem C48_ordinals S va t i o : bytes_ok S -> zlen S < 2 ^ 63 -> export_parse S va = Ok t ->
  (0 <= i -> ordinal_from_index t i = Ok o <-> i < zlen (ex_addresses t) /\ o = ex_base t + i) /\
  (u16_ok o -> index_from_ordinal t o = Ok i <-> 0 <= i < zlen (ex_addresses t) /\ o = ex_base t + i).
Proof. intros HS HL E. destruct (export_tab_ok S va t HS HL E) as (Ht & _). split; intro H; [apply ordinal_from_index_iff|apply index_from_ordinal_iff]; assumption. Qed.
Theorem C48_no_panic S va : bytes_ok S -> zlen S < 2 ^ 63 ->
  export_parse S va <> Panic /\ forall t, export_parse S va = Ok t -> pe_exports t <> Panic /\ (forall a, target_from_address t a <> Panic) /\ (forall i, 0 <= i -> ordinal_from_index t i <> Panic).
Proof.
  intros HS HL. split; [exact (export_no_panic S va HS HL)|]. intros t E. destruct (export_tab_ok S va t HS HL E) as (Ht & _).
  split; [exact (exports_np t Ht)|]. split; [exact (target_no_panic t)|]. intros i Hi. exact (ordinal_from_index_np t i Ht Hi).
Qed.
Theorem C48_file is64 F f r : file_ok F -> pe_parse is64 F = Ok f ->
  pe_export_table f = Ok r <->
  match r with
  | Some t => exists d b, has_dir (pf_dirs f) 0 d /\ dir_content F (pf_sections f) d b /\ export_parse b (fst d) = Ok t
  | None => forall d, ~ has_dir (pf_dirs f) 0 d
  end.
Proof. intros HF Hf. exact (export_table_iff is64 F f Hf (fimg is64 F f HF Hf) r). Qed.

(** * C49: import tables *)
Theorem C49_table is64 F f r : file_ok F -> pe_parse is64 F = Ok f ->
  pe_import_table f = Ok r <->
  match r with
  | Some T => exists d, has_dir (pf_dirs f) 1 d /\ it_va T = fst d /\ import_sections F (pf_sections f) (fst d) (it_data T) (it_sva T) (it_ndata T) (it_nva T)
  | None => forall d, ~ has_dir (pf_dirs f) 1 d
  end.
Proof. intros HF Hf. exact (import_table_iff is64 F f HF Hf (fimg is64 F f HF Hf) r). Qed.
Theorem C49_delay_table is64 F f r : file_ok F -> pe_parse is64 F = Ok f ->
  pe_delay_table f = Ok r <->
  match r with
  | Some T => exists d, has_dir (pf_dirs f) 13 d /\ dt_va T = fst d /\ loaded F (pf_sections f) (fst d) (dt_data T) (dt_sva T)
  | None => forall d, ~ has_dir (pf_dirs f) 13 d
  end.
Proof. intros HF Hf. exact (delay_table_iff is64 F [] [] f Hf (fimg is64 F f HF Hf) r). Qed.
(** The iterator over all imports of a file *)
Theorem C49_imports is64 F f t dt st : file_ok F -> pe_parse is64 F = Ok f -> pe_import_table f = Ok t -> pe_delay_table f = Ok dt -> impit_new t dt = Ok st ->
  exists L M, table_results is64 t L /\ delay_results is64 dt M /\ results (imp_next is64) st (L ++ M).
Proof. intros HF Hf Et Ed. exact (imports_results is64 t dt st (tables_ok is64 F [] [] f HF Hf (fimg is64 F f HF Hf) t dt Et Ed)). Qed.
Theorem C49_libraries is64 F f t dt st : file_ok F -> pe_parse is64 F = Ok f -> pe_import_table f = Ok t -> pe_delay_table f = Ok dt -> impit_new t dt = Ok st ->
  exists L M, table_libraries t L /\ delay_libraries dt M /\ results lib_next st (L ++ M).
Proof. intros HF Hf Et Ed. exact (libraries_results t dt st (tables_ok is64 F [] [] f HF Hf (fimg is64 F f HF Hf) t dt Et Ed)). Qed.
Theorem C49_thunk is64 N nva x i : bytes_ok N -> 0 <= x < 2 ^ (8 * Z.of_nat (thunk_width is64)) -> thunk_import is64 N nva x = Ok i <-> import_of is64 N nva x i.
Proof. exact (thunk_import_iff is64 N nva x i). Qed.
Theorem C49_new t dt : impit_new t dt <> Panic /\
  ((exists st, impit_new t dt = Ok st) <->
   match t with Some t => (it_va t - it_sva t) mod 2 ^ 32 <= zlen (it_data t) | None => True end /\
   match dt with Some t => (dt_va t - dt_sva t) mod 2 ^ 32 <= zlen (dt_data t) | None => True end).
Proof. split; [exact (impit_new_np t dt)|exact (impit_new_ok t dt)]. Qed.
Theorem C49_no_panic F t va : import_from_sections F t va <> Panic.
Proof. exact (import_sections_np F t va). Qed.

(** * C50: resources *)
Theorem C50_table S o t : file_ok S -> 0 <= o -> rtable_parse S o = Ok t <-> resource_table S o t.
Proof. exact (rtable_exact S o t). Qed.
Theorem C50_entry S e x : file_ok S -> pair_u32 e -> re_data S e = Ok x <-> resource_entry S e x.
Proof. exact (entry_exact S e x). Qed.
Theorem C50_name S o l : file_ok S -> 0 <= o -> rname_data S o = Ok l <-> resource_name S o l.
Proof. exact (rname_exact S o l). Qed.
Theorem C50_directory is64 F f r : file_ok F -> pe_parse is64 F = Ok f ->
  pe_resource_directory f = Ok r <-> match r with Some b => exists d, has_dir (pf_dirs f) 2 d /\ dir_content F (pf_sections f) d b | None => forall d, ~ has_dir (pf_dirs f) 2 d end.
Proof. intros HF Hf. exact (resource_directory_iff is64 F f Hf (fimg is64 F f HF Hf) r). Qed.
Theorem C50_no_panic S : file_ok S -> (forall o, 0 <= o -> rtable_parse S o <> Panic /\ rname_data S o <> Panic) /\ (forall e, pair_u32 e -> re_data S e <> Panic).
Proof. intro HS. split; [intros o Ho; split; [exact (rtable_np S o HS Ho)|exact (rname_np S o (proj2 HS) Ho)]|]. intros e He. exact (entry_np S e HS He). Qed.

(** * C51: images *)
Theorem C51_parse is64 F dos nt dirs secs : file_ok F ->
  (exists f, pe_parse is64 F = Ok f /\ pf_dos f = dos /\ pf_nt f = nt /\ pf_dirs f = dirs /\ pf_sections f = secs) <-> pe_image is64 F dos nt dirs secs.
Proof. exact (pe_exact is64 F dos nt dirs secs). Qed.
Theorem C51_no_panic is64 F : file_ok F -> pe_parse is64 F <> Panic.
Proof. exact (pe_np is64 F). Qed.
Theorem C51_pdb_info is64 F f path guid age : file_ok F -> pe_parse is64 F = Ok f ->
  pe_pdb_info f = Ok (Some (path, guid, age)) <->
  exists d b l, has_dir (pf_dirs f) 6 d /\ dir_content F (pf_sections f) d b /\ debug_entries b l /\ pdb_found F l path guid age.
Proof. intros HF Hf. exact (pdb_info_exact is64 F f HF Hf path guid age). Qed.
Theorem C51_pdb_no_panic is64 F f : file_ok F -> pe_parse is64 F = Ok f -> pe_pdb_info f <> Panic.
Proof. intros HF Hf. exact (pdb_info_np is64 F f HF Hf). Qed.

(** * C52: the writer *)
Theorem C52_round_trip img len F : img_ok img -> pe_write img = Ok (len, F) -> len < 2 ^ 32 ->
  file_ok F /\ zlen F <= len /\ exists f, pe_parse (pc_is64 (pi_cfg img)) F = Ok f /\ written img len F f.
Proof. exact (pe_write_inv img len F). Qed.
Theorem C52_two_phases img l r : img_ok img -> p_reserve_all img = Ok (l, r) -> p_len r < 2 ^ 32 -> exists F, pe_write img = Ok (p_len r, F).
Proof. exact (pe_write_total img l r). Qed.
Lemma section_exists img len F f k i : written img len F f -> zget (pi_items img) k = Some i -> exists s, zget (pf_sections f) k = Some s.
Proof.
  intros Wf Hk. unfold written in Wf. destruct (dos_bytes (pi_dos img)) as [dos stub]. destruct Wf as (R & cert & _ & _ & _ & _ & _ & _ & _ & W & _). destruct (Forall2_zget_l _ _ _ _ _ W Hk) as (s & Es & _). eauto.
Qed.
(** What is read at an address of a section is its data from there (the part that is loaded, with padding) *)
Theorem C52_section_data img len F k i : img_ok img -> pe_write img = Ok (len, F) -> len < 2 ^ 32 ->
  zget (pi_items img) k = Some i -> i <> PReloc -> item_content [] i <> [] ->
  exists f s, pe_parse (pc_is64 (pi_cfg img)) F = Ok f /\ zget (pf_sections f) k = Some s /\ c_name s = item_name i /\
    forall va, covers s va -> t_data_at F (pf_sections f) va = Some (zdrop (va - c_vaddr s) (ztake (mapped s) (item_content [] i ++ zeros (c_rawsize s - zlen (item_content [] i))))).
Proof.
  intros HI HW HL Hk Hi Hc. destruct (pe_write_inv img len F HI HW HL) as (HF & HLF & f & Hf & Wf). destruct (section_exists _ _ _ _ _ _ Wf Hk) as (s & Es).
  exists f, s. split; [exact Hf|]. split; [exact Es|]. split.
  - pose proof Wf as Wf'. unfold written in Wf'. destruct (dos_bytes (pi_dos img)) as [dos stub]. destruct Wf' as (R & cert & _ & _ & _ & _ & _ & _ & _ & W & _). destruct (Forall2_zget_l _ _ _ _ _ W Hk) as (s' & Es' & G).
    assert (s' = s) as -> by congruence. exact (proj1 G).
  - exact (section_data img len F f HI HF ltac:(lia) Hf Wf k i s Hk Es Hi Hc).
Qed.
(** Sections with a data directory (.edata, .idata, .rsrc, .pdata): the contents of the directory are those of the section *)
Theorem C52_directory img len F k i n : img_ok img -> pe_write img = Ok (len, F) -> len < 2 ^ 32 ->
  zget (pi_items img) k = Some i -> item_dir i = Some n -> i <> PReloc -> item_content [] i <> [] ->
  (forall d, ~ In (n, d) (pi_sets img)) -> (forall j i', zget (pi_items img) j = Some i' -> item_dir i' = Some n -> j = k) -> 0 <= n < pi_ndirs img ->
  exists f d, pe_parse (pc_is64 (pi_cfg img)) F = Ok f /\ has_dir (pf_dirs f) n d /\ dir_data F d (pf_sections f) = Ok (item_content [] i).
Proof.
  intros HI HW HL Hk Hd Hi Hc Hs Hu Hn. destruct (pe_write_inv img len F HI HW HL) as (HF & HLF & f & Hf & Wf). destruct (section_exists _ _ _ _ _ _ Wf Hk) as (s & Es).
  destruct (directory_content img len F f HI HF ltac:(lia) Hf Wf k i s n Hk Es Hd Hs Hu Hn) as (R & _ & G).
  assert (E : item_content R i = item_content [] i) by (destruct i; try reflexivity; contradiction). rewrite E in G. destruct (G Hc) as [G1 G2].
  exists f, (c_vaddr s, c_vsize s). split; [exact Hf|]. split; [exact G1|]. pose proof (fimg _ F f HF Hf) as HP.
  apply content_iff; [exact (f_secs _ _ _ HP)|exact (f_dirs _ _ _ HP _ _ G1)|exact G2].
Qed.

(** * Examples *)
Definition ex_nt : pnt := {| pn_machine := 0x8664; pn_time := 7; pn_flags := 0x22; pn_majlink := 14; pn_minlink := 2; pn_entry := 0x1000; pn_base := 0x140000000; pn_majos := 6; pn_minos := 0;
  pn_majimg := 1; pn_minimg := 2; pn_majsub := 6; pn_minsub := 0; pn_subsystem := 3; pn_dll := 0x8160; pn_stackr := 0x100000; pn_stackc := 0x1000; pn_heapr := 0x100000; pn_heapc := 0x1000 |}.
Definition ex_edata : bytes :=
  u32s [0; 0; 0; 0; 5; 2; 1; 0x2000 + 40; 0x2000 + 48; 0x2000 + 52] ++ u32s [0x1000; 0x2000 + 60] ++ u32s [0x2000 + 54] ++ u16s [0] ++ str "func" ++ [0; 0] ++ str "dll.#7" ++ [0].
Definition ex_idata : bytes :=
  u32s [0x3000 + 40; 0; 0; 0x3000 + 80; 0x3000 + 40] ++ zeros 20 ++ write_u Little 8 (0x3000 + 64) ++ write_u Little 8 (2 ^ 63 + 9) ++ zeros 8 ++ half 3 ++ str "imp" ++ [0] ++ zeros 10 ++ str "k.dll" ++ [0].
Definition ex_rsrc : bytes := zeros 12 ++ half 0 ++ half 1 ++ u32s [3; 24] ++ u32s [0x5000; 4; 0; 0].
Definition ex_debug : bytes := u32s [0; 0; 0; 2; 30; 0x5000 + 28; 3072 + 28] ++ str "RSDS" ++ zeros 15 ++ [1] ++ word 2 ++ str "a.pdb" ++ [0].
Definition ex_relocs : list (Z * Z) := [(0x1002, 10); (0x1ff8, 10); (0x5004, 3); (0x5008, 0); (0x5010, 10)].
Definition ex_img : pimg := {| pi_cfg := {| pc_is64 := true; pc_salign := 4096; pc_falign := 512 |}; pi_dos := DosFixed; pi_rich := rich_bytes 0x12345678 [(1, 2); (3, 4)]; pi_nt := ex_nt; pi_ndirs := 16;
  pi_relocs := ex_relocs; pi_items := [PText [1; 2; 3]; PEdata ex_edata; PIdata ex_idata; PRsrc ex_rsrc; PData 100 ex_debug; PBss 100; PReloc]; pi_sets := [(6, (0x5000, 28))]; pi_cert := Some [9; 8; 7] |}.
Definition ex_out : Z * bytes := match pe_write ex_img with Ok x => x | _ => (0, []) end.
Definition ex_pe {A} (k : pefile -> A) (d : A) : A := match pe_parse true (snd ex_out) with Ok f => k f | _ => d end.
Definition steps_r {S A} (next : S -> out (option A) * S) := fix go (n : nat) (s : S) : list (option A) :=
  match n with O => [] | S n => match next s with (Ok (Some x), s) => Some x :: go n s | (Err, s) => None :: go n s | _ => [] end end.
Example C52_ex_hyps : img_ok ex_img /\ pe_write ex_img = Ok (4104, snd ex_out) /\ zlen (snd ex_out) = 4104.
Proof.
  split; [|vm_compute; split; reflexivity]. unfold img_ok. cbn [ex_img pi_cfg pi_dos pi_rich pi_nt pi_ndirs pi_relocs pi_items pi_sets pi_cert pc_salign pc_falign pc_is64].
  split; [exists 12; split; [lia|reflexivity]|]. split; [exists 9; split; [lia|reflexivity]|]. split; [exact I|].
  split; [apply bytes_ok_forallb; vm_compute; reflexivity|]. split; [vm_compute; split; congruence|]. split; [unfold pnt_ok, u16_ok, u32_ok, u8_ok, base_ok, ex_nt; cbn [pn_machine pn_time pn_flags pn_majlink pn_minlink pn_entry pn_base pn_majos pn_minos pn_majimg pn_minimg pn_majsub pn_minsub pn_subsystem pn_dll pn_stackr pn_stackc pn_heapr pn_heapc]; lia|].
  split; [lia|]. split; [lia|]. split; [repeat constructor; cbn [fst snd]; unfold u32_ok; lia|]. split; [vm_compute; split; congruence|].
  split; [|split; [repeat constructor; cbn [fst snd]; unfold u32_ok; lia|split; [apply bytes_ok_forallb; vm_compute; reflexivity|vm_compute; split; congruence]]].
  repeat (apply Forall_cons; [unfold item_ok; split; [reflexivity|]; split; [apply bytes_ok_forallb; vm_compute; reflexivity|]; split; [vm_compute; split; congruence|]; split; [apply bytes_ok_forallb; vm_compute; reflexivity|]; split; vm_compute; split; congruence|]). constructor.
Qed.
Example C52_ex : exists f, pe_parse true (snd ex_out) = Ok f /\ written ex_img 4104 (snd ex_out) f.
Proof. destruct C52_ex_hyps as (H1 & H2 & _). exact (proj2 (proj2 (C52_round_trip ex_img 4104 (snd ex_out) H1 H2 ltac:(lia)))). Qed.
Example C52_ex_data : ex_pe (fun f => (t_data_at (snd ex_out) (pf_sections f) 0x1001, dir_data (snd ex_out) (0x2000, 67) (pf_sections f))) (None, Err) = (Some [2; 3], Ok ex_edata).
Proof. vm_compute. reflexivity. Qed.
Example C32_ex_hyps : zget (pi_items ex_img) 6 = Some PReloc /\ (forall j, zget (pi_items ex_img) j = Some PReloc -> j = 6) /\ (forall d, ~ In (5, d) (pi_sets ex_img)) /\ filter kept (pi_relocs ex_img) <> [].
Proof.
  split; [reflexivity|]. split; [|split; [intros d [H|[]]; congruence|vm_compute; congruence]].
  intros j H. pose proof (zget_Some_lt _ _ _ H) as B. change (zlen (pi_items ex_img)) with 7 in B. assert (j = 0 \/ j = 1 \/ j = 2 \/ j = 3 \/ j = 4 \/ j = 5 \/ j = 6) as [->|[->|[->|[->|[->|[->| ->]]]]]] by lia; (reflexivity || discriminate H).
Qed.
Example C32_ex : ex_pe (fun f => match pe_relocation_blocks f with Ok (Some R) => map (fun b => (rb_va b, steps_r (breloc_next (rb_va b)) 9 (rb_relocs b))) (match steps_r block_next 9 R with [Some a; Some b] => [a; b] | _ => [] end) | _ => [] end) [] =
  [(0x1000, [Some (0x1002, 10); Some (0x1ff8, 10)]); (0x5000, [Some (0x5004, 3); Some (0x5008, 0); Some (0x5010, 10)])].
Proof. vm_compute. reflexivity. Qed.
Example C33_ex : ex_pe (fun f => (t_file_range_at (pf_sections f) 0x2005, option_map snd (t_data_containing (snd ex_out) (pf_sections f) 0x2005), t_file_range_at (pf_sections f) 0x6000, option_map c_vaddr (t_section_containing (pf_sections f) 0x6001))) (None, None, None, None)
  = (Some (1541, 62), Some 0x2000, None, Some 0x6000).
Proof. vm_compute. reflexivity. Qed.
Example C49_ex_hyps : file_ok (snd ex_out).
Proof. split; [apply bytes_ok_forallb; vm_compute; reflexivity|vm_compute; reflexivity]. Qed.
Example C33_ex_hyps : exists f, pe_parse true (snd ex_out) = Ok f /\ Forall sec_u32 (pf_sections f).
Proof. destruct C52_ex as (f & Hf & _). exists f. split; [exact Hf|]. exact (f_secs _ _ _ (fimg _ _ f C49_ex_hyps Hf)). Qed.
Example C36_ex : match rich_parse (snd ex_out) 168 with Ok (Some r) => (ri_offset r, ri_length r, ri_key r, rich_entries r) = (128, 40, 0x12345678, [(1, 2); (3, 4)]) | _ => False end.
Proof. vm_compute. reflexivity. Qed.
(** the hypotheses of the round trip: no "Rich" and no start marker before the header *)
Example C36_ex_hyps : let F := rich_bytes 5 [(1, 2)] in file_ok F /\ forall o', 0 <= o' < 24 -> o' mod 4 = 0 -> ~ holds F o' rich_mark.
Proof.
  split; [split; [apply bytes_ok_forallb; vm_compute; reflexivity|vm_compute; reflexivity]|]. intros o' Ho Hm H. apply holds_slice in H. change (zlen rich_mark) with 4 in H.
  assert (o' = 0 \/ o' = 4 \/ o' = 8 \/ o' = 12 \/ o' = 16 \/ o' = 20) as [->|[->|[->|[->|[->| ->]]]]] by lia; discriminate H.
Qed.
Example C48_ex : ex_pe (fun f => match pe_export_table f with Ok (Some t) => Some (pe_exports t, steps_r (expit_next 0x140000000 t) 5 (expit_new t)) | _ => None end) None =
  Some (Ok [{| pe_ordinal := 5; pe_name := Some (str "func"); pe_target := TAddress 0x1000 |}; {| pe_ordinal := 6; pe_name := None; pe_target := TOrdinal (str "dll") 7 |}],
    [Some {| rx_name := NName (str "func"); rx_target := TAddress 0x140001000; rx_ordinal := 5 |}; Some {| rx_name := NOrdinal 6; rx_target := TOrdinal (str "dll") 7; rx_ordinal := 6 |}]).
Proof. vm_compute. reflexivity. Qed.
Example C48_ex_hyps : bytes_ok ex_edata /\ match export_parse ex_edata 0x2000 with Ok _ => True | _ => False end.
Proof. split; [apply bytes_ok_forallb; vm_compute; reflexivity|vm_compute; exact I]. Qed.
Example C49_ex : ex_pe (fun f => match pe_import_table f, pe_delay_table f with Ok t, Ok dt => match impit_new t dt with Ok st => (steps_r (imp_next true) 9 st, steps_r lib_next 9 st) | _ => ([], []) end | _, _ => ([], []) end) ([], []) =
  ([Some (str "k.dll", NName (str "imp"), false); Some (str "k.dll", NOrdinal 9, false)], [Some (str "k.dll", false)]).
Proof. vm_compute. reflexivity. Qed.
Example C50_ex : ex_pe (fun f => match pe_resource_directory f with Ok (Some b) => match rtable_parse b 0 with Ok t => map (re_data b) (rt_entries t) | _ => [] end | _ => [] end) [] = [Ok (EData {| rd_va := 0x5000; rd_size := 4; rd_page := 0; rd_reserved := 0 |})].
Proof. vm_compute. reflexivity. Qed.
Example C51_ex : ex_pe (fun f => pe_pdb_info f) Err = Ok (Some (str "a.pdb", zeros 15 ++ [1], 2)).
Proof. vm_compute. reflexivity. Qed.

Print Assumptions C32_blocks.
Print Assumptions C32_entries.
Print Assumptions C32_round_trip.
Print Assumptions C33_file_range.
Print Assumptions C33_data_at.
Print Assumptions C33_data_containing.
Print Assumptions C33_agree.
Print Assumptions C33_directory.
Print Assumptions C33_no_panic.
Print Assumptions C33_section_containing.
Print Assumptions C36_exact.
Print Assumptions C36_no_panic.
Print Assumptions C36_round_trip.
Print Assumptions C48_table.
Print Assumptions C48_exports.
Print Assumptions C48_iterator.
Print Assumptions C48_target.
Print Assumptions C48_ordinals.
Print Assumptions C48_no_panic.
Print Assumptions C48_file.
Print Assumptions C49_table.
Print Assumptions C49_delay_table.
Print Assumptions C49_imports.
Print Assumptions C49_libraries.
Print Assumptions C49_thunk.
Print Assumptions C49_new.
Print Assumptions C49_no_panic.
Print Assumptions C50_table.
Print Assumptions C50_entry.
Print Assumptions C50_name.
Print Assumptions C50_directory.
Print Assumptions C50_no_panic.
Print Assumptions C51_parse.
Print Assumptions C51_no_panic.
Print Assumptions C51_pdb_info.
Print Assumptions C51_pdb_no_panic.
Print Assumptions C52_round_trip.
Print Assumptions C52_two_phases.
Print Assumptions C52_section_data.
Print Assumptions C52_directory.
