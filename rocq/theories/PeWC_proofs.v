(** Proofs about written PE images: what the readers find in them. *)
From Coq Require Import Sorted.
From Verif Require Import Core_proofs Util_proofs File_proofs Str_proofs Map_proofs Pod_proofs Iter_proofs Ar_proofs ArSym_proofs Rel_proofs ElfR_proofs Kind_proofs CoffW_proofs CoffR_proofs CoffI_proofs.
From Verif Require Import Pe_spec Pe_proofs PeX_proofs PeI_proofs PeF_proofs PeT_proofs PeW_spec PeW_proofs PeWI_proofs PeWF_proofs PeWG_proofs.

Lemma pe_write_inv img len F : img_ok img -> pe_write img = Ok (len, F) -> len < 2 ^ 32 -> file_ok F /\ zlen F <= len /\ exists f, pe_parse (pc_is64 (pi_cfg img)) F = Ok f /\ written img len F f.
Proof.
  intros HI E HB. unfold pe_write in E. destruct (p_reserve_all img) as [[l r]| |] eqn:E1; cbn [bind] in E; try discriminate. destruct (p_write_all img l r) as [b| |] eqn:E2; cbn [bind] in E; try discriminate. injection E as <- <-.
  destruct (write_image img l r HI E1 HB) as (F & f & W & A & B & C & D). assert (F = b) by congruence. subst F. eauto 6.
Qed.
Lemma pe_write_total img l r : img_ok img -> p_reserve_all img = Ok (l, r) -> p_len r < 2 ^ 32 -> exists F, pe_write img = Ok (p_len r, F).
Proof. intros HI E HB. destruct (write_image img l r HI E HB) as (F & _ & W & _). exists F. unfold pe_write. rewrite E. cbn [bind]. rewrite W. reflexivity. Qed.
Lemma memory_order sa : 0 < sa -> forall l va0, Forall (fun s => 0 <= c_vsize s) l -> in_memory sa va0 l -> forall a s b, l = a ++ s :: b -> va0 <= c_vaddr s /\ Forall (fun y => c_vaddr y + c_vsize y <= c_vaddr s) a.
Proof.
  intro Hs. induction l as [|x l IH]; intros va0 Hv H a s b E; [destruct a; discriminate|]. cbn [in_memory] in H. destruct H as [H1 H2]. pose proof (Forall_inv Hv) as V. cbn beta in V. destruct (round_spec (va0 + c_vsize x) sa Hs) as [_ R]. destruct a as [|y a]; cbn [app] in E.
  - assert (x = s) by congruence. subst s. split; [lia|constructor].
  - assert (x = y) by congruence. subst y. assert (E' : l = a ++ s :: b) by congruence. destruct (IH _ (Forall_inv_tail Hv) H2 a s b E') as [A B]. split; [lia|]. constructor; [lia|exact B].
Qed.
Lemma zget_combine_inv {A B} (a : list A) : forall (b : list B) i x y, zget (combine a b) i = Some (x, y) -> zget a i = Some x /\ zget b i = Some y.
Proof.
  induction a as [|x0 a IH]; intros b i x y H; [apply zget_Some_lt in H; change (zlen (combine [] b)) with 0 in H; lia|]. destruct b as [|y0 b]; [apply zget_Some_lt in H; change (zlen (combine (x0 :: a) [])) with 0 in H; lia|].
  pose proof (zget_Some_lt _ _ _ H) as HL. cbn [combine] in H. destruct (Z.eq_dec i 0) as [->|N]; [rewrite zget_0 in *; rewrite zget_0; injection H as <- <-; auto|]. rewrite zget_S in H by lia. rewrite !zget_S by lia. apply IH. exact H.
Qed.
Section image.
Context (img : pimg) (len : Z) (F : bytes) (f : pefile) (HI : img_ok img) (HF : file_ok F) (HL : zlen F < 2 ^ 32) (Hf : pe_parse (pc_is64 (pi_cfg img)) F = Ok f) (HW : written img len F f).
Lemma img_fields : Forall sec_fields (pf_sections f).
Proof. assert (P : pe_image (pc_is64 (pi_cfg img)) F (pf_dos f) (pf_nt f) (pf_dirs f) (pf_sections f)) by (apply pe_exact; [exact HF|]; eauto 8). destruct P as (? & ? & ? & ? & P). tauto. Qed.
Lemma falign_pos : 0 < pc_falign (pi_cfg img) /\ 0 < pc_salign (pi_cfg img).
Proof. destruct HI as (H1 & H2 & _). pose proof (pow2_pos _ H1). pose proof (pow2_pos _ H2). lia. Qed.
(** the section with the contents of an item is the one that is found by its addresses *)
Lemma section_first R H k i s : in_memory (pc_salign (pi_cfg img)) (round_up H (pc_salign (pi_cfg img))) (pf_sections f) -> section_of (pc_falign (pi_cfg img)) F R i s -> zget (pf_sections f) k = Some s -> item_content R i <> [] ->
  forall va, covers s va -> is_first (fun s => covers s va /\ offset_of s va < 2 ^ 32 /\ c_rawptr s + mapped s <= zlen F) (pf_sections f) s /\
    holds F (c_rawptr s) (ztake (mapped s) (item_content R i ++ zeros (c_rawsize s - zlen (item_content R i)))).
Proof.
  intros HM (A1 & A2 & A3 & A4 & _ & _ & _ & _ & A5) Hk Hd va Hc. specialize (A5 Hd). destruct falign_pos as [Hfa Hsa]. pose proof img_fields as HFs. assert (Hin : In s (pf_sections f)) by exact (zget_In _ _ _ Hk). pose proof HFs as HFs'. rewrite Forall_forall in HFs'. destruct (HFs' s Hin) as (_ & U1 & U2 & U3 & U4 & _). unfold u32_ok in *.
  set (d := item_content R i) in *. pose proof (zlen_nonneg d). destruct (round_spec (zlen d) (pc_falign (pi_cfg img)) Hfa) as [_ Rd]. pose proof (holds_bounds _ _ _ A5) as HBd. rewrite zlen_app, zlen_zeros in HBd by lia.
  assert (Hm : mapped s <= c_rawsize s) by (unfold mapped; lia). split.
  - apply zget_split in Hk. destruct Hk as (a & b & E & _). exists a, b. split; [exact E|]. unfold covers, offset_of in *. split; [split; [exact Hc|lia]|].
    destruct (memory_order (pc_salign (pi_cfg img)) Hsa (pf_sections f) (round_up H (pc_salign (pi_cfg img)))) with (a := a) (s := s) (b := b) as [_ Ha]; [|exact HM|exact E|].
    + eapply Forall_impl; [|exact HFs]. intros y (_ & V & _). unfold u32_ok in V. lia.
    + eapply Forall_impl; [|exact Ha]. cbn beta. intros y Hy [Hc' _]. unfold mapped in *. lia.
  - rewrite <- (ztake_zdrop (mapped s) (d ++ zeros (c_rawsize s - zlen d))) in A5. apply holds_app in A5 as [A5 _]. exact A5.
Qed.
Lemma section_data k i s : zget (pi_items img) k = Some i -> zget (pf_sections f) k = Some s -> i <> PReloc -> item_content [] i <> [] -> forall va, covers s va ->
  t_data_at F (pf_sections f) va = Some (zdrop (va - c_vaddr s) (ztake (mapped s) (item_content [] i ++ zeros (c_rawsize s - zlen (item_content [] i))))).
Proof.
  intros Hi Hs Hn Hd va Hc. pose proof HW as W. unfold written in W. rewrite (surjective_pairing (dos_bytes (pi_dos img))) in W. cbv zeta in W. destruct W as (R & cert & _ & _ & _ & _ & _ & _ & _ & WS & WM & _).
  destruct (Forall2_zget_l _ _ _ _ _ WS Hi) as (s' & Hs' & So). assert (s' = s) by congruence. subst s'. assert (Ec : item_content R i = item_content [] i) by (destruct i; try reflexivity; congruence).
  destruct (section_first R _ k i s WM So Hs ltac:(congruence) va Hc) as [P1 P2]. rewrite Ec in P2. apply t_data_at_iff; [apply sec_fields_u32, img_fields| |].
  - pose proof img_fields as HFs. rewrite Forall_forall in HFs. destruct (HFs s (zget_In _ _ _ Hs)) as (_ & _ & U & _). unfold u32_ok, covers in *. lia.
  - exists s. split; [exact P1|]. destruct (proj1 (holds_iff _ _ _) P2) as (K1 & K2 & K3). unfold covers in Hc. assert (Hm : 0 <= mapped s) by lia.
    assert (Hz : zlen (ztake (mapped s) (item_content [] i ++ zeros (c_rawsize s - zlen (item_content [] i)))) = mapped s).
    { destruct So as (_ & _ & _ & A4 & _). rewrite Ec in A4. destruct falign_pos as [Hfa _]. destruct (round_spec (zlen (item_content [] i)) (pc_falign (pi_cfg img)) Hfa) as [_ Rd]. apply zlen_ztake. rewrite zlen_app, zlen_zeros by lia. unfold mapped in *. lia. }
    rewrite Hz in K2, K3. rewrite <- K3 at 1. unfold offset_of. unfold zslice. rewrite zdrop_ztake by lia. rewrite zdrop_zdrop by lia. f_equal; [lia|]. f_equal. lia.
Qed.
(** a data directory that is set for a section, and not by the caller, has the contents of the section *)
Lemma directory_content k i s n : zget (pi_items img) k = Some i -> zget (pf_sections f) k = Some s -> item_dir i = Some n -> (forall d, ~ In (n, d) (pi_sets img)) ->
  (forall j i', zget (pi_items img) j = Some i' -> item_dir i' = Some n -> j = k) -> 0 <= n < pi_ndirs img ->
  exists R, (i = PReloc -> reloc_section (pi_relocs img) R) /\ (item_content R i <> [] -> has_dir (pf_dirs f) n (c_vaddr s, c_vsize s) /\ dir_content F (pf_sections f) (c_vaddr s, c_vsize s) (item_content R i)).
Proof.
  intros Hi Hs Hdir Hset Huniq Hn. pose proof HW as W. unfold written in W. rewrite (surjective_pairing (dos_bytes (pi_dos img))) in W. cbv zeta in W. destruct W as (R & cert & _ & _ & _ & _ & WD & WE & WR & WS & WM & _).
  exists R. split; [intros ->; apply WR; exact (zget_In _ _ _ Hi)|]. intro Hd. destruct (Forall2_zget_l _ _ _ _ _ WS Hi) as (s' & Hs' & So). assert (s' = s) by congruence. subst s'. pose proof So as (_ & _ & A3 & A4 & _).
  assert (Ev : item_vsize R i = zlen (item_content R i)) by (destruct i; try discriminate Hdir; reflexivity). destruct falign_pos as [Hfa Hsa]. destruct (round_spec (zlen (item_content R i)) (pc_falign (pi_cfg img)) Hfa) as [_ Rd].
  assert (Hz : 0 < zlen (item_content R i)) by (destruct (item_content R i) as [|x q]; [congruence|]; rewrite zlen_cons; pose proof (zlen_nonneg q); lia).
  assert (Hm : mapped s = zlen (item_content R i)) by (unfold mapped; lia). pose proof img_fields as HFs. rewrite Forall_forall in HFs. destruct (HFs s (zget_In _ _ _ Hs)) as (_ & U1 & U2 & _). unfold u32_ok in *.
  assert (Hc : covers s (c_vaddr s)) by (unfold covers; lia). destruct (section_first R _ k i s WM So Hs Hd _ Hc) as [P1 P2]. split.
  - split.
    + destruct (zget (pf_dirs f) n) as [d|] eqn:Ed; [|apply zget_None in Ed; lia]. f_equal. rewrite (WE _ _ Ed). unfold dir_expected.
      assert (Fs : find (fun x => fst x =? n) (rev (pi_sets img)) = None). { destruct (find _ _) as [[j d']|] eqn:Ef; [|reflexivity]. apply find_some in Ef as [Ef1 Ef2]. cbn [fst] in Ef2. apply Z.eqb_eq in Ef2. subst j. apply in_rev in Ef1. exfalso. exact (Hset _ Ef1). }
      assert (Es : dir_of_section img (pf_sections f) n = (c_vaddr s, c_vsize s)).
      { unfold dir_of_section. destruct (find _ (combine _ _)) as [[j s2]|] eqn:Ef.
        - apply find_some in Ef as [Ef1 Ef2]. apply In_zget in Ef1 as [m Em]. apply zget_combine_inv in Em as [Em1 Em2]. destruct (item_dir j) as [n'|] eqn:Ej; [|discriminate]. apply Z.eqb_eq in Ef2. subst n'. assert (m = k) by (eapply Huniq; eassumption). subst m. congruence.
        - exfalso. assert (Hcmb : In (i, s) (combine (pi_items img) (pf_sections f))) by (eapply zget_In; apply zget_combine; eauto). pose proof (find_none _ _ Ef _ Hcmb) as Q. cbn beta iota in Q. rewrite Hdir, Z.eqb_refl in Q. discriminate. }
      destruct (pi_cert img); [|rewrite Fs; exact Es]. destruct (Z.eqb_spec n 4) as [->|]; [|rewrite Fs; exact Es]. destruct i; discriminate Hdir.
    + cbn [fst]. intro E0. assert (round_up 0 (pc_salign (pi_cfg img)) = 0) by (apply round_0; lia).
      pose proof (zget_split _ _ _ Hs) as (a & b & E & _). match type of WM with in_memory _ ?v _ => destruct (memory_order _ Hsa (pf_sections f) v) with (a := a) (s := s) (b := b) as [Q _]; [|exact WM|exact E|] end.
      * apply Forall_forall. intros y Hy. destruct (HFs y Hy) as (_ & V & _). unfold u32_ok in V. lia.
      * pose proof (head_bounds img HI) as (B1 & B2 & _ & B4 & B5 & _). change (round_up (o_head img) (pc_salign (pi_cfg img)) <= c_vaddr s) in Q. destruct (round_spec (o_head img) (pc_salign (pi_cfg img)) Hsa) as [_ Q2]. lia.
  - exists s. split; [exact P1|]. cbn [fst snd]. split; [lia|]. destruct (proj1 (holds_iff _ _ _) P2) as (K1 & K2 & K3). unfold offset_of. replace (c_rawptr s + (c_vaddr s - c_vaddr s)) with (c_rawptr s) by lia.
    rewrite Hm in K3. rewrite ztake_app_eq in K3 by reflexivity. rewrite A3, Ev. symmetry. exact K3.
Qed.
Lemma img_image : pe_image (pc_is64 (pi_cfg img)) F (pf_dos f) (pf_nt f) (pf_dirs f) (pf_sections f).
Proof. apply pe_exact; [exact HF|]. eauto 8. Qed.
Lemma blocks_bytes blocks R : seq_of block_enc [] blocks R -> bytes_ok R.
Proof.
  induction 1 as [|x b l data (-> & _) H IH]; [constructor|]. unfold word, u16s. rewrite !bytes_ok_app. split; [|exact IH]. split; [apply bytes_ok_write_u|]. split; [apply bytes_ok_write_u|]. induction (rb_relocs x) as [|y q IHq]; [constructor|]. cbn [map concat]. apply bytes_ok_app. split; [apply bytes_ok_write_u|exact IHq].
Qed.
Lemma relocations_read k s : zget (pi_items img) k = Some PReloc -> zget (pf_sections f) k = Some s -> (forall d, ~ In (5, d) (pi_sets img)) -> (forall j, zget (pi_items img) j = Some PReloc -> j = k) -> 5 < pi_ndirs img -> filter kept (pi_relocs img) <> [] ->
  exists R blocks, pe_relocation_blocks f = Ok (Some R) /\ runs block_next R blocks false [] /\ (forall b, In b blocks -> runs (breloc_next (rb_va b)) (rb_relocs b) (block_relocs b) false []) /\ concat (map block_relocs blocks) = filter kept (pi_relocs img).
Proof.
  intros Hi Hs Hset Hu Hn Hr. destruct (directory_content k PReloc s 5 Hi Hs eq_refl Hset) as (R & HR & HC); [|lia|].
  { intros j i' Hj Ed. apply Hu. destruct i'; try discriminate Ed. exact Hj. }
  destruct (HR eq_refl) as (blocks & B1 & B2 & B3). exists R, blocks. cbn [item_content] in HC. assert (HRn : R <> []).
  { intros ->. apply Hr. rewrite <- B2. inversion B1 as [|x b l data Hx Hl E1 E2]; subst; [reflexivity|]. destruct Hx as (-> & _). apply (f_equal (@zlen Z)) in E2. rewrite !zlen_app, !zlen_word in E2. change (zlen (@nil Z)) with 0 in E2. pose proof (zlen_nonneg (u16s (rb_relocs x))). pose proof (zlen_nonneg data). lia. }
  destruct (HC HRn) as [C1 C2]. split; [apply (relocation_blocks_iff _ _ _ Hf img_image); eauto|]. pose proof (blocks_bytes _ _ B1) as Hb. split; [apply (proj1 blocks_decode); assumption|]. split; [|exact B2].
  intros b Hb'. assert (K : u32_ok (rb_va b) /\ Forall u16_ok (rb_relocs b)).
  { clear - B1 Hb'. induction B1 as [|x y l data (_ & H1 & _ & H2 & _) H IH]; [contradiction|]. destruct Hb' as [->|Hb']; auto. }
  apply breloc_runs; tauto.
Qed.
End image.
