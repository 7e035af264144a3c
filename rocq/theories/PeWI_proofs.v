(** Proofs about written PE images: the sections, reserved and written. *)
From Coq Require Import Sorted.
From Verif Require Import Core_proofs Util_proofs File_proofs Str_proofs Map_proofs Pod_proofs Iter_proofs Ar_proofs ArSym_proofs Rel_proofs ElfR_proofs Kind_proofs CoffW_proofs CoffR_proofs CoffI_proofs.
From Verif Require Import Pe_spec Pe_proofs PeX_proofs PeI_proofs PeF_proofs PeT_proofs PeW_spec PeW_proofs.

Definition hdr (s : psec) : csec :=
  {| c_name := ps_name s; c_vsize := ps_vs s; c_vaddr := ps_va s; c_rawsize := ps_fs s; c_rawptr := ps_fo s; c_relptr := 0; c_lnptr := 0; c_nrel := 0; c_nln := 0; c_flags := ps_flags s |}.
Lemma hdr_enc s : sechdr_enc s = sec_bytes (hdr s).
Proof. reflexivity. Qed.
Inductive isteps (c : pcfg) (G : list group) : list pitem -> list psec -> pr -> pr -> Prop :=
| is_nil r : isteps c G [] [] r r
| is_cons i l s t r r1 r' : item_step c G i s r r1 -> isteps c G l t r1 r' -> isteps c G (i :: l) (s :: t) r r'.
Section steps.
Context (c : pcfg) (G : list group) (Hc : c_ok c).
Local Notation R := (g_bytes (g_pad G)).
Local Notation fa := (pc_falign c).
Local Notation sa := (pc_salign c).
Definition st_ok (r : pr) : Prop := 0 <= p_len r /\ (fa | p_len r) /\ 0 < p_vlen r.
Lemma vsize_nonneg i : item_ok i -> 0 <= item_vsize R i.
Proof. intros (_ & _ & _ & _ & Hv & _). unfold u32_ok in Hv. destruct i; cbn [item_vsize item_content] in *; try apply zlen_nonneg; lia. Qed.
Lemma item_st_ok i s r r' : item_ok i -> st_ok r -> item_step c G i s r r' -> st_ok r'.
Proof.
  intros Hi (S1 & S2 & S3) [[] _ _]. destruct Hc as [H1 H2]. pose proof (pow2_pos _ H1). pose proof (pow2_pos _ H2). pose proof (vsize_nonneg i Hi).
  destruct (round_spec (zlen (item_content R i)) fa ltac:(lia)) as [D1 D2]. pose proof (zlen_nonneg (item_content R i)). destruct (round_spec (p_vlen r + item_vsize R i) sa ltac:(lia)) as [_ D3].
  split; [lia|]. split; [rewrite ss_len; apply Z.divide_add_r; assumption|lia].
Qed.
Definition st_ok0 (r : pr) : Prop := 0 <= p_len r /\ (fa | p_len r) /\ 0 <= p_vlen r.
Lemma item_st_ok0 i s r r' : item_ok i -> st_ok0 r -> item_step c G i s r r' -> st_ok0 r' /\ p_len r <= p_len r'.
Proof.
  intros Hi (S1 & S2 & S3) [[] _ _]. destruct Hc as [H1 H2]. pose proof (pow2_pos _ H1). pose proof (pow2_pos _ H2). pose proof (vsize_nonneg i Hi).
  destruct (round_spec (zlen (item_content R i)) fa ltac:(lia)) as [D1 D2]. pose proof (zlen_nonneg (item_content R i)). destruct (round_spec (p_vlen r + item_vsize R i) sa ltac:(lia)) as [_ D3].
  split; [|lia]. split; [lia|]. split; [rewrite ss_len; apply Z.divide_add_r; assumption|lia].
Qed.
Lemma items_inv l : forall t r r', Forall item_ok l -> st_ok0 r -> (groups_of G r \/ groups_of (g_pad G) r) -> p_reserve_items c r l = Ok (t, r') -> isteps c G l t r r' /\ p_len r <= p_len r'.
Proof.
  induction l as [|i l IH]; intros t r r' Hl Hs HG E; cbn [p_reserve_items] in E.
  - injection E as <- <-. split; [constructor|lia].
  - destruct (p_reserve_item c r i) as [[s r1]| |] eqn:E1; cbn [bind] in E; try discriminate. destruct (p_reserve_items c r1 l) as [[t1 r2]| |] eqn:E2; cbn [bind] in E; try discriminate. injection E as <- <-.
    pose proof Hs as (S1 & S2 & S3). apply (item_inv c G) in E1; try assumption; [|exact (Forall_inv Hl)]. destruct (item_st_ok0 i s r r1 (Forall_inv Hl) Hs E1) as [K1 K2].
    destruct (IH t1 r1 r2 (Forall_inv_tail Hl) K1) as [M1 M2]; [|exact E2|split; [econstructor; eauto|lia]].
    pose proof (it_reloc _ _ _ _ _ _ E1) as Q. clear - Q HG. unfold groups_of in *. destruct i; try tauto; destruct Q as (Q1 & Q2 & _); rewrite Q1, Q2; tauto.
Qed.
(** what the steps do to the rest of the state *)
Lemma isteps_const l t r r' : isteps c G l t r r' -> p_hlen r' = p_hlen r /\ p_nt r' = p_nt r /\ p_nsec r' = p_nsec r /\ p_secs r' = p_secs r ++ t /\ zlen t = zlen l /\ zlen (p_dirs r') = zlen (p_dirs r).
Proof.
  induction 1 as [r|i l s t r r1 r' H1 H2 IH]; [rewrite app_nil_r; repeat split|]. destruct IH as (A1 & A2 & A3 & A4 & A5 & A6). destruct (it_sec _ _ _ _ _ _ H1).
  rewrite A1, A2, A3, A4, A6, !zlen_cons, A5, ss_secs, <- app_assoc. split; [assumption|]. split; [assumption|]. split; [assumption|]. split; [reflexivity|]. split; [reflexivity|].
  pose proof (it_dir _ _ _ _ _ _ H1) as D. unfold dir_step in D. destruct (item_dir i); [|congruence]. destruct D as (d & D1 & _ & ->). apply zlen_zset. pose proof (zget_Some_lt _ _ _ D1). lia.
Qed.
Lemma isteps_mono l t r r' : Forall item_ok l -> st_ok r -> isteps c G l t r r' -> st_ok r' /\ p_len r <= p_len r' /\ p_vlen r <= p_vlen r'.
Proof.
  intros Hl Hs H. induction H as [r|i l s t r r1 r' H1 H2 IH]; [split; [exact Hs|lia]|]. pose proof (item_st_ok i s r r1 (Forall_inv Hl) Hs H1) as Hs1. destruct (IH (Forall_inv_tail Hl) Hs1) as (A1 & A2 & A3). split; [exact A1|].
  destruct (it_sec _ _ _ _ _ _ H1). destruct Hc as [P1 P2]. pose proof (pow2_pos _ P1). pose proof (pow2_pos _ P2). pose proof (vsize_nonneg i (Forall_inv Hl)). destruct (round_spec (zlen (item_content R i)) fa ltac:(lia)) as [D1 D2]. pose proof (zlen_nonneg (item_content R i)). destruct (round_spec (p_vlen r + item_vsize R i) sa ltac:(lia)) as [_ D3]. lia.
Qed.
Definition sec_of (i : pitem) (s : psec) : Prop :=
  ps_name s = item_name i /\ ps_flags s = item_flags i /\ ps_vs s = item_vsize R i /\ ps_fs s = round_up (zlen (item_content R i)) fa /\ 0 < ps_va s /\ ps_va s + ps_vs s < 2 ^ 32 /\ u32_ok (ps_fo s) /\ (ps_fs s = 0 -> ps_fo s = 0).
Lemma isteps_secs l t r r' : Forall item_ok l -> st_ok r -> isteps c G l t r r' -> Forall2 sec_of l t /\ in_memory sa (p_vlen r) (map hdr t) /\ memory_end sa (p_vlen r) (map hdr t) = p_vlen r'.
Proof.
  intros Hl Hs H. induction H as [r|i l s t r r1 r' H1 H2 IH]; [split; [constructor|split; [exact I|reflexivity]]|]. pose proof (item_st_ok i s r r1 (Forall_inv Hl) Hs H1) as Hs1. destruct (IH (Forall_inv_tail Hl) Hs1) as (A1 & A2 & A3).
  destruct (it_sec _ _ _ _ _ _ H1). destruct Hc as [P1 P2]. pose proof (pow2_pos _ P1). destruct Hs as (S1 & S2 & S3). subst s. cbn [map in_memory hdr c_vaddr c_vsize ps_va ps_vs]. rewrite <- ss_vlen. split; [|split; [split; [reflexivity|exact A2]|]].
  - constructor; [|exact A1]. split; [reflexivity|]. split; [reflexivity|]. split; [reflexivity|]. split; [reflexivity|]. cbn [ps_va ps_vs ps_fo ps_fs]. split; [exact S3|]. split; [lia|]. unfold u32_ok, wrap_u. split; [destruct (_ =? 0); [lia|apply Z.mod_pos_bound; lia]|]. intros ->. reflexivity.
  - rewrite <- A3. unfold memory_end. cbn [fold_left c_vsize ps_vs]. rewrite ss_vlen. reflexivity.
Qed.
Lemma isteps_file l t r r' : Forall item_ok l -> st_ok r -> isteps c G l t r r' -> p_len r' < 2 ^ 32 -> in_file_order (p_len r) (map hdr t) /\ file_end (p_len r) (map hdr t) = p_len r'.
Proof.
  intros Hl Hs H HB. induction H as [r|i l s t r r1 r' H1 H2 IH]; [split; [exact I|reflexivity]|]. pose proof (item_st_ok i s r r1 (Forall_inv Hl) Hs H1) as Hs1. destruct (IH (Forall_inv_tail Hl) Hs1 HB) as (A1 & A2). destruct (isteps_mono _ _ _ _ (Forall_inv_tail Hl) Hs1 H2) as (_ & A3 & _).
  destruct (it_sec _ _ _ _ _ _ H1). destruct Hs as (S1 & S2 & S3). destruct Hc as [P1 P2]. pose proof (pow2_pos _ P2). destruct (round_spec (zlen (item_content R i)) fa ltac:(lia)) as [_ D2]. pose proof (zlen_nonneg (item_content R i)).
  subst s. unfold file_end in *. cbn [map in_file_order hdr c_rawptr c_rawsize ps_fo ps_fs fold_left]. rewrite <- ss_len. split; [|exact A2]. destruct (Z.eqb_spec (round_up (zlen (item_content R i)) fa) 0) as [E0|N0].
  - split; [reflexivity|]. rewrite E0, Z.add_0_r in ss_len. rewrite <- ss_len. exact A1.
  - split; [|exact A1]. unfold wrap_u. apply Z.mod_small. lia.
Qed.
(** sizes and first addresses *)
Lemma flag_code i s : sec_of i s -> flagged 5 [] (hdr s) = is_code (item_flags i) /\ flagged 6 [5] (hdr s) = is_data (item_flags i) /\ flagged 7 [5; 6] (hdr s) = is_bss (item_flags i).
Proof. intros (_ & -> & _) || intros (_ & E & _). unfold flagged, is_code, is_data, is_bss. cbn [hdr c_flags forallb]. rewrite E. rewrite !andb_true_r, ?andb_assoc. auto. Qed.
Lemma total_cons P s l : total_size fa P (s :: l) = add_if (P s) 0 (round_up (c_vsize s) fa) + total_size fa P l.
Proof. unfold total_size. cbn [filter]. destruct (P s); cbn [map fold_right add_if]; lia. Qed.
Lemma first_cons P s l : first_address P (s :: l) = if P s then c_vaddr s else first_address P l.
Proof. unfold first_address. cbn [find]. destruct (P s); reflexivity. Qed.
Lemma isteps_sizes l t r r' : Forall item_ok l -> st_ok r -> isteps c G l t r r' -> u32_ok (p_cl r) -> u32_ok (p_dl r) -> u32_ok (p_bl r) ->
  let h := map hdr t in
  p_cl r' = p_cl r + total_size fa (flagged 5 []) h /\ p_dl r' = p_dl r + total_size fa (flagged 6 [5]) h /\ p_bl r' = p_bl r + total_size fa (flagged 7 [5; 6]) h /\
  u32_ok (p_cl r') /\ u32_ok (p_dl r') /\ u32_ok (p_bl r') /\
  p_ca r' = (if p_ca r =? 0 then first_address (flagged 5 []) h else p_ca r) /\ p_da r' = (if p_da r =? 0 then first_address (fun s => flagged 6 [5] s || flagged 7 [5; 6] s) h else p_da r).
Proof.
  intros Hl Hs H. cbv zeta. induction H as [r|i l s t r r1 r' H1 H2 IH]; intros U1 U2 U3.
  - cbn [map]. change (total_size fa (flagged 5 []) []) with 0. change (total_size fa (flagged 6 [5]) []) with 0. change (total_size fa (flagged 7 [5; 6]) []) with 0. rewrite !Z.add_0_r. repeat (split; [first [reflexivity|assumption]|]). unfold first_address. cbn [find].
    destruct (Z.eqb_spec (p_ca r) 0), (Z.eqb_spec (p_da r) 0); auto.
  - pose proof (item_st_ok i s r r1 (Forall_inv Hl) Hs H1) as Hs1. pose proof (isteps_secs (i :: l) (s :: t) r r' Hl Hs (is_cons _ _ _ _ _ _ _ _ _ H1 H2)) as (Q & _). inversion Q as [|? ? ? ? Q1 Q2]; subst. destruct (flag_code i s Q1) as (F1 & F2 & F3). destruct Q1 as (_ & _ & Q1 & _ & Q4 & _).
    destruct (it_sec _ _ _ _ _ _ H1). destruct (IH (Forall_inv_tail Hl) Hs1 (ss_cl_bound U1) (ss_dl_bound U2) (ss_bl_bound U3)) as (A1 & A2 & A3 & A4 & A5 & A6 & A7 & A8).
    assert (Ev : ps_va s = p_vlen r) by (rewrite ss_sec; reflexivity). cbn [map]. rewrite !total_cons, !first_cons, A1, A2, A3, A7, A8, ss_cl, ss_dl, ss_bl, ss_ca, ss_da, F1, F2, F3. cbn [hdr c_vsize c_vaddr]. rewrite Q1, Ev. rewrite Ev in Q4.
    split; [unfold add_if; destruct (is_code _); lia|]. split; [unfold add_if; destruct (is_data _); lia|]. split; [unfold add_if; destruct (is_bss _); lia|]. split; [congruence|]. split; [congruence|]. split; [congruence|]. unfold or_first. split.
    + destruct (is_code _); [|reflexivity]. destruct (Z.eqb_spec (p_ca r) 0) as [E|]; [|destruct (Z.eqb_spec (p_ca r) 0); [contradiction|reflexivity]]. destruct (Z.eqb_spec (p_vlen r) 0); [lia|reflexivity].
    + destruct (is_data _ || is_bss _); [|reflexivity]. destruct (Z.eqb_spec (p_da r) 0) as [E|]; [|destruct (Z.eqb_spec (p_da r) 0); [contradiction|reflexivity]]. destruct (Z.eqb_spec (p_vlen r) 0); [lia|reflexivity].
Qed.
(** data directories *)
Definition claimed (k : Z) (r : pr) : Prop := exists d, zget (p_dirs r) k = Some d /\ fst d <> 0.
Definition takes (k : Z) (i : pitem) : bool := match item_dir i with Some j => j =? k | None => false end.
Lemma claimed_step k i s r r1 : item_step c G i s r r1 -> claimed k r -> takes k i = false /\ claimed k r1.
Proof.
  intros H (d & D1 & D2). pose proof (it_dir _ _ _ _ _ _ H) as Q. unfold dir_step, takes, claimed in *. destruct (item_dir i) as [j|]; [|rewrite Q; eauto]. destruct Q as (d' & E1 & E2 & ->). destruct (Z.eqb_spec j k) as [->|N].
  - congruence.
  - split; [reflexivity|]. exists d. rewrite zget_zset by (pose proof (zget_Some_lt _ _ _ E1); lia). destruct (Z.eqb_spec k j); [lia|]. auto.
Qed.
Lemma claimed_none k l t r r' : isteps c G l t r r' -> claimed k r -> Forall (fun i => takes k i = false) l.
Proof. induction 1 as [|i l s t r r1 r' H1 H2 IH]; [constructor|]. intro C. destruct (claimed_step k _ _ _ _ H1 C) as [A B]. constructor; auto. Qed.
Lemma step_va i s r r1 : item_step c G i s r r1 -> ps_va s = p_vlen r /\ ps_vs s = item_vsize R i.
Proof. intros [[] _ _]. subst s. auto. Qed.
Lemma step_claims k i s r r1 : st_ok r -> item_step c G i s r r1 -> takes k i = true -> claimed k r1.
Proof.
  intros (_ & _ & S3) H T. destruct (step_va _ _ _ _ H) as [Ev _]. pose proof (it_dir _ _ _ _ _ _ H) as Q. unfold dir_step, takes, claimed in *. destruct (item_dir i) as [j|]; [|discriminate]. apply Z.eqb_eq in T. subst j. destruct Q as (d' & E1 & E2 & ->).
  eexists. rewrite zget_zset by (pose proof (zget_Some_lt _ _ _ E1); lia). rewrite Z.eqb_refl. split; [reflexivity|]. cbn [fst]. lia.
Qed.
Definition dir_from (k : Z) (l : list pitem) (t : list csec) : option (pitem * csec) := find (fun '(it, _) => match item_dir it with Some j => j =? k | None => false end) (combine l t).
Lemma dir_from_none k l : forall t, Forall (fun i => takes k i = false) l -> dir_from k l t = None.
Proof.
  unfold dir_from. induction l as [|i l IH]; intros t H; [reflexivity|]. destruct t as [|s t]; [reflexivity|]. cbn [combine find]. pose proof (Forall_inv H) as E. unfold takes in E. rewrite E. apply IH. exact (Forall_inv_tail H).
Qed.
Lemma isteps_dirs k l t r r' : Forall item_ok l -> st_ok r -> isteps c G l t r r' ->
  zget (p_dirs r') k = match dir_from k l (map hdr t) with Some (_, s) => Some (c_vaddr s, c_vsize s) | None => zget (p_dirs r) k end.
Proof.
  intros Hl Hs H. induction H as [r|i l s t r r1 r' H1 H2 IH]; [reflexivity|]. pose proof (item_st_ok i s r r1 (Forall_inv Hl) Hs H1) as Hs1. rewrite (IH (Forall_inv_tail Hl) Hs1). clear IH.
  unfold dir_from at 2. cbn [map combine find]. fold (dir_from k l (map hdr t)). destruct (takes k i) eqn:T.
  - rewrite (dir_from_none k l) by (eapply claimed_none; [exact H2|exact (step_claims k i s r r1 Hs H1 T)]). pose proof (it_dir _ _ _ _ _ _ H1) as Q. unfold dir_step, takes in *. destruct (item_dir i) as [j|]; [|discriminate]. rewrite T. apply Z.eqb_eq in T. subst j. destruct Q as (d' & E1 & E2 & ->).
    rewrite zget_zset by (pose proof (zget_Some_lt _ _ _ E1); lia). rewrite Z.eqb_refl. reflexivity.
  - pose proof (it_dir _ _ _ _ _ _ H1) as Q. unfold dir_step, takes in *. destruct (item_dir i) as [j|]; [|rewrite Q; reflexivity]. rewrite T. apply Z.eqb_neq in T. destruct Q as (d' & E1 & E2 & ->).
    rewrite zget_zset by (pose proof (zget_Some_lt _ _ _ E1); lia). destruct (Z.eqb_spec k j); [lia|]. reflexivity.
Qed.
Lemma isteps_reloc_same l t r r' : isteps c G l t r r' -> Forall (fun i => takes 5 i = false) l -> p_blocks r' = p_blocks r /\ p_relocs r' = p_relocs r /\ p_roff r' = p_roff r.
Proof.
  induction 1 as [|i l s t r r1 r' H1 H2 IH]; [auto|]. intro F. destruct (IH (Forall_inv_tail F)) as (A1 & A2 & A3). pose proof (Forall_inv F) as E. pose proof (it_reloc _ _ _ _ _ _ H1) as Q. destruct i; try discriminate E; destruct Q as (Q1 & Q2 & Q3); rewrite A1, A2, A3; auto.
Qed.
Lemma isteps_reloc l t r r' : Forall item_ok l -> st_ok r -> isteps c G l t r r' -> Forall2 (fun i s => i = PReloc -> p_roff r' = ps_fo s /\ groups_of (g_pad G) r') l t.
Proof.
  intros Hl Hs H. induction H as [r|i l s t r r1 r' H1 H2 IH]; [constructor|]. pose proof (item_st_ok i s r r1 (Forall_inv Hl) Hs H1) as Hs1. constructor; [|exact (IH (Forall_inv_tail Hl) Hs1)]. intros ->.
  pose proof (claimed_none 5 l t r1 r' H2 (step_claims 5 _ _ _ _ Hs H1 eq_refl)) as N. destruct (isteps_reloc_same _ _ _ _ H2 N) as (A1 & A2 & A3). destruct (it_reloc _ _ _ _ _ _ H1) as [[Q1 Q2] Q3]. unfold groups_of. rewrite A1, A2, A3. auto.
Qed.

(** * Writing the sections *)
Lemma resize_ok b n : zlen b <= n -> p_resize b n = Ok (b ++ zeros (n - zlen b)).
Proof. intro. unfold p_resize. destruct (Z.ltb_spec n (zlen b)); [lia|reflexivity]. Qed.
Lemma pad_until_ok b n : zlen b <= n -> p_pad_until b n = Ok (b ++ zeros (n - zlen b)).
Proof. intro. unfold p_pad_until. destruct (Z.ltb_spec n (zlen b)); [lia|]. apply resize_ok. assumption. Qed.
Lemma write_align_ok b a : power_of_2 a -> zlen b < 2 ^ 63 -> p_write_align b a = Ok (b ++ zeros (round_up (zlen b) a - zlen b)).
Proof.
  intros Ha Hb. pose proof (pow2_pos a Ha). pose proof (zlen_nonneg b). unfold p_write_align. rewrite pow2_align by (try assumption; lia). destruct (Z.leb_spec (zlen b) (2 ^ 64 - a)); [|lia]. cbn [bind]. apply resize_ok. destruct (round_spec (zlen b) a ltac:(lia)). lia.
Qed.
Lemma round_shift x y s : 0 < s -> (s | x) -> round_up (x + y) s = x + round_up y s.
Proof. intros H [k ->]. unfold round_up. replace (k * s + y + (s - 1)) with (y + (s - 1) + k * s) by lia. rewrite Z.div_add by lia. lia. Qed.
Lemma round_pos x s : 0 < s -> 0 < x -> 0 < round_up x s.
Proof. intros H Hx. destruct (round_spec x s H). lia. Qed.
(** writing contents at their offset *)
Lemma write_at b fo d : (fa | fo) -> zlen b <= fo -> fo + round_up (zlen d) fa < 2 ^ 32 -> exists u,
  (b1 <- p_pad_until b fo ;; p_write_align (b1 ++ d) fa) = Ok (b ++ u) /\ zlen (b ++ u) = fo + round_up (zlen d) fa /\ holds (b ++ u) fo (d ++ zeros (round_up (zlen d) fa - zlen d)) /\ (bytes_ok d -> bytes_ok u).
Proof.
  intros Hd Hb HL. destruct Hc as [_ P2]. pose proof (pow2_pos _ P2). pose proof (zlen_nonneg b). pose proof (zlen_nonneg d). destruct (round_spec (zlen d) fa ltac:(lia)) as [_ D]. rewrite pad_until_ok by assumption. cbn [bind].
  assert (El : zlen ((b ++ zeros (fo - zlen b)) ++ d) = fo + zlen d) by (rewrite !zlen_app, zlen_zeros by lia; lia). rewrite write_align_ok by (try assumption; lia). rewrite El. rewrite round_shift by (try assumption; lia).
  replace (fo + round_up (zlen d) fa - (fo + zlen d)) with (round_up (zlen d) fa - zlen d) by lia. exists (zeros (fo - zlen b) ++ d ++ zeros (round_up (zlen d) fa - zlen d)). rewrite <- !app_assoc. split; [reflexivity|]. split; [|split].
  - rewrite !zlen_app, !zlen_zeros by lia. lia.
  - replace (b ++ zeros (fo - zlen b) ++ d ++ zeros (round_up (zlen d) fa - zlen d)) with ((b ++ zeros (fo - zlen b)) ++ (d ++ zeros (round_up (zlen d) fa - zlen d)) ++ []) by (rewrite app_nil_r, <- !app_assoc; reflexivity). eexists _, []. split; [reflexivity|]. rewrite zlen_app, zlen_zeros by lia. lia.
  - intro. rewrite !bytes_ok_app. split; [apply bytes_ok_zeros|]. split; [assumption|apply bytes_ok_zeros].
Qed.
Lemma item_content_ok i : bytes_ok R -> item_ok i -> bytes_ok (item_content R i).
Proof. intros HR (_ & _ & _ & H & _). destruct i; try exact H. exact HR. Qed.
Lemma write_reloc_eq rf b : groups_of (g_pad G) rf -> zlen R < 2 ^ 32 -> p_roff rf <> 0 -> p_write_reloc c rf b = (b1 <- p_pad_until b (p_roff rf) ;; p_write_align (b1 ++ R) fa).
Proof.
  intros [E1 E2] HR H0. unfold p_write_reloc. destruct (Z.eqb_spec (p_roff rf) 0); [contradiction|]. destruct (p_pad_until b (p_roff rf)) as [b1| |]; cbn [bind]; try reflexivity. rewrite E1, E2. pose proof (write_blocks_eq (g_pad G) [] b1 HR) as E. cbn [app] in E. change (zlen (@nil Z)) with 0 in E. rewrite E. reflexivity.
Qed.
Lemma holds_more b u o d : holds b o d -> holds (b ++ u) o d.
Proof. intros (x & y & -> & E). exists x, (y ++ u). rewrite <- !app_assoc. auto. Qed.
Lemma write_item_ok rf i s r r1 b : item_ok i -> bytes_ok R -> st_ok r -> 0 < p_len r -> item_step c G i s r r1 -> p_len r1 < 2 ^ 32 -> (i = PReloc -> p_roff rf = ps_fo s /\ groups_of (g_pad G) rf) -> zlen b <= p_len r ->
  exists u, p_write_item c rf i s b = Ok (b ++ u) /\ zlen (b ++ u) = (if item_content R i then zlen b else p_len r1) /\ zlen b <= p_len r <= p_len r1 /\ bytes_ok u /\
    (item_content R i <> [] -> holds (b ++ u) (ps_fo s) (item_content R i ++ zeros (ps_fs s - zlen (item_content R i)))) /\ (item_content R i = [] -> p_len r1 = p_len r).
Proof.
  intros Hi HRb (S1 & S2 & S3) Hp H HB HR Hb. destruct (it_sec _ _ _ _ _ _ H). destruct Hc as [_ P2]. pose proof (pow2_pos _ P2). pose proof (item_content_ok i HRb Hi) as Hcb. pose proof (zlen_nonneg (item_content R i)). destruct (round_spec (zlen (item_content R i)) fa ltac:(lia)) as [_ D].
  destruct (item_content R i) as [|x d'] eqn:Ed.
  - assert (E0 : round_up (zlen (@nil Z)) fa = 0) by (apply round_0; lia). rewrite E0 in *. exists []. rewrite app_nil_r. split; [|split; [reflexivity|split; [lia|split; [constructor|split; [congruence|intros _; lia]]]]].
    destruct i; cbn [p_write_item item_data] in *; cbn [item_content] in Ed; try (rewrite Ed); try reflexivity. destruct (HR eq_refl) as [E _]. unfold p_write_reloc. rewrite E, ss_sec. cbn [ps_fo]. rewrite Z.eqb_refl. reflexivity.
  - rewrite <- Ed in *. assert (Hz : 0 < zlen (item_content R i)) by (rewrite Ed, zlen_cons; pose proof (zlen_nonneg d'); lia). pose proof (round_pos (zlen (item_content R i)) fa ltac:(lia) Hz).
    assert (Efo : ps_fo s = p_len r) by (rewrite ss_sec; cbn [ps_fo]; destruct (Z.eqb_spec (round_up (zlen (item_content R i)) fa) 0); [lia|]; unfold wrap_u; apply Z.mod_small; lia).
    destruct (write_at b (p_len r) (item_content R i)) as (u & U1 & U2 & U3 & U4); [assumption|lia|lia|]. exists u. split; [|split; [|split; [lia|split; [auto|split; [|intro Q; rewrite Q in Hz; change (zlen (@nil Z)) with 0 in Hz; lia]]]]].
    + rewrite <- U1. destruct (match i with PReloc => true | _ => false end) eqn:Ei.
      * destruct i; try discriminate. destruct (HR eq_refl) as [E1 E2]. cbn [p_write_item item_content] in *. rewrite write_reloc_eq; [|exact E2|lia|lia]. rewrite E1, Efo. reflexivity.
      * assert (E2 : p_write_item c rf i s b = p_write_section c b (ps_fo s) (item_content R i)) by (destruct i; try discriminate Ei; reflexivity). rewrite E2, Efo. unfold p_write_section. rewrite Ed. reflexivity.
    + rewrite U2. rewrite Ed. rewrite <- Ed. lia.
    + intros _. rewrite Efo. replace (ps_fs s) with (round_up (zlen (item_content R i)) fa) by (rewrite ss_sec; reflexivity). exact U3.
Qed.
Lemma write_items_ok rf l t r r' : Forall item_ok l -> bytes_ok R -> st_ok r -> 0 < p_len r -> isteps c G l t r r' -> p_len r' < 2 ^ 32 -> Forall2 (fun i s => i = PReloc -> p_roff rf = ps_fo s /\ groups_of (g_pad G) rf) l t -> forall b, zlen b <= p_len r ->
  exists u, p_write_items c rf (combine l t) b = Ok (b ++ u) /\ zlen (b ++ u) <= p_len r' /\ bytes_ok u /\ (zlen b = p_len r \/ (exists i, In i l /\ item_content R i <> []) -> zlen (b ++ u) = p_len r') /\
    Forall2 (fun i s => item_content R i <> [] -> holds (b ++ u) (ps_fo s) (item_content R i ++ zeros (ps_fs s - zlen (item_content R i)))) l t.
Proof.
  intros Hl HRb Hs Hp H HB HQ. induction H as [r|i l s t r r1 r' H1 H2 IH]; intros b Hb.
  - exists []. rewrite app_nil_r. split; [reflexivity|]. split; [exact Hb|]. split; [constructor|]. split; [|constructor]. intros [E|(i & [] & _)]. exact E.
  - pose proof (item_st_ok i s r r1 (Forall_inv Hl) Hs H1) as Hs1. destruct (isteps_mono _ _ _ _ (Forall_inv_tail Hl) Hs1 H2) as (_ & M & _). inversion HQ as [|? ? ? ? Q1 Q2]; subst.
    destruct (write_item_ok rf i s r r1 b (Forall_inv Hl) HRb Hs Hp H1 ltac:(lia) Q1 Hb) as (u & U1 & U2 & U3 & U4 & U5 & U6).
    destruct (IH (Forall_inv_tail Hl) Hs1 ltac:(lia) HB Q2 (b ++ u)) as (v & V1 & V2 & V3 & V4 & V5).
    { rewrite U2. destruct (item_content R i); lia. }
    exists (u ++ v). rewrite app_assoc. cbn [combine p_write_items]. rewrite U1. cbn [bind]. split; [exact V1|]. split; [exact V2|]. split; [apply bytes_ok_app; auto|]. split.
    + intro Q. apply V4. destruct (item_content R i) as [|x d] eqn:Ed; [|left; exact U2]. destruct Q as [Q|(j & [->|Hj] & Nj)].
      * left. rewrite U2, Q, U6; reflexivity.
      * contradiction.
      * right. eauto.
    + constructor; [|exact V5]. intro N. apply holds_more. auto.
Qed.
End steps.
