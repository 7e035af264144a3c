(** Proofs about written PE images: what is read from a written image. *)
From Coq Require Import Sorted.
From Verif Require Import Core_proofs Util_proofs File_proofs Str_proofs Map_proofs Pod_proofs Iter_proofs Ar_proofs ArSym_proofs Rel_proofs ElfR_proofs Kind_proofs CoffW_proofs CoffR_proofs CoffI_proofs.
From Verif Require Import Pe_spec Pe_proofs PeX_proofs PeI_proofs PeF_proofs PeT_proofs PeW_spec PeW_proofs PeWI_proofs PeWF_proofs.

Lemma zget_repeat {A} (x : A) n k y : zget (repeat x n) k = Some y -> y = x.
Proof. intro H. apply zget_In in H. apply repeat_spec in H. exact H. Qed.
Lemma zlen_repeat {A} (x : A) n : 0 <= n -> zlen (repeat x (Z.to_nat n)) = n.
Proof. intro. unfold zlen. rewrite repeat_length. lia. Qed.
Lemma isteps_fs c G l t r r' : c_ok c -> Forall item_ok l -> st_ok c r -> isteps c G l t r r' -> Forall (fun s => 0 <= ps_fs s <= p_len r') t.
Proof.
  intros Hc Hl Hs H. induction H as [r|i l s t r r1 r' H1 H2 IH]; [constructor|]. pose proof (item_st_ok c G Hc i s r r1 (Forall_inv Hl) Hs H1) as Hs1. constructor; [|exact (IH (Forall_inv_tail Hl) Hs1)].
  destruct (isteps_mono c G Hc _ _ _ _ (Forall_inv_tail Hl) Hs1 H2) as (_ & M & _). destruct (it_sec _ _ _ _ _ _ H1). destruct Hs as (S1 & _ & _). destruct Hc as [_ P2]. pose proof (pow2_pos _ P2). destruct (round_spec (zlen (item_content (g_bytes (g_pad G)) i)) (pc_falign c) ltac:(lia)) as [_ D]. pose proof (zlen_nonneg (item_content (g_bytes (g_pad G)) i)).
  rewrite ss_sec. cbn [ps_fs]. lia.
Qed.
Lemma g_bytes_ok G : bytes_ok (g_bytes G).
Proof. unfold g_bytes. induction G as [|g G IH]; [constructor|]. cbn [map concat]. apply bytes_ok_app. split; [|exact IH]. unfold g_enc, word, u16s. rewrite !bytes_ok_app. split; [apply bytes_ok_write_u|]. split; [apply bytes_ok_write_u|]. induction (snd g) as [|x l IH']; [constructor|]. cbn [map concat]. apply bytes_ok_app. split; [apply bytes_ok_write_u|exact IH']. Qed.
Lemma fields_hdr c G i s : item_ok i -> sec_of c G i s -> 0 <= ps_fs s < 2 ^ 32 -> sec_fields (hdr s).
Proof.
  intros Hi (E1 & E2 & E3 & E4 & E5 & E6 & E7 & _) Hf. pose proof (vsize_nonneg G i Hi) as Hv. destruct Hi as (I1 & _ & I3 & _). unfold sec_fields, hdr. cbn [c_name c_vsize c_vaddr c_rawsize c_rawptr c_relptr c_lnptr c_nrel c_nln c_flags]. unfold u32_ok, u16_ok in *.
  split; [congruence|]. split; [lia|]. split; [lia|]. split; [lia|]. split; [lia|]. split; [lia|]. split; [lia|]. split; [lia|]. split; [lia|]. rewrite E2. exact I3.
Qed.
(** the certificate *)
Definition cert_at (o : Z) (d : bytes) : Z := match d with [] => o | _ => round_up o 8 end.
Lemma reserve_cert_inv r d r' : 0 <= p_len r -> p_reserve_cert r (zlen d) = Ok r' -> p_len r' < 2 ^ 32 -> u32_ok (zlen d) ->
  let o := cert_at (p_len r) d in
  p_len r <= o /\ p_len r' = o + round_up (zlen d) 8 /\ r' = p_set_dirs (p_set_len r (p_len r')) (zset (p_dirs r) 4 (o, round_up (zlen d) 8)) /\ 0 <= 4 < zlen (p_dirs r).
Proof.
  intros H0 E HB Hu. cbv zeta. unfold p_reserve_cert in E. unfold u32_ok in Hu. rewrite pow2_align in E by (try exact pow2_8; lia). destruct (_ <=? _); cbn [bind] in E; [|discriminate]. destruct (round_spec (zlen d) 8 ltac:(lia)) as [_ R]. destruct (round_spec (p_len r) 8 ltac:(lia)) as [_ R'].
  destruct (p_reserve r _ 8) as [[o r1]| |] eqn:E1; cbn [bind] in E; try discriminate. apply reserve_inv in E1; [|exact pow2_8|exact H0|lia]. cbv zeta in E1. assert (Ec : (if round_up (zlen d) 8 =? 0 then p_len r else round_up (p_len r) 8) = cert_at (p_len r) d).
  { unfold cert_at. destruct d as [|x d]; [rewrite round_0 by lia; reflexivity|]. rewrite zlen_cons in *. pose proof (zlen_nonneg d). destruct (Z.eqb_spec (round_up (1 + zlen d) 8) 0); [lia|reflexivity]. }
  rewrite Ec in E1. destruct E1 as [-> ->]. apply claim_dir_inv in E as (d0 & D1 & D2 & ->). cbn [p_len p_set_len p_set_dirs p_set_nt p_dirs] in *. assert (Hc : p_len r <= cert_at (p_len r) d) by (unfold cert_at; destruct d; lia). rewrite wrap_small by lia. pose proof (zget_Some_lt _ _ _ D1). split; [exact Hc|]. split; [reflexivity|]. split; [reflexivity|lia].
Qed.
Lemma write_cert_ok r b d o n : zget (p_dirs r) 4 = Some (o, n) -> zlen b <= o -> o + n < 2 ^ 32 -> zlen d <= n -> exists u, p_write_cert r b d = Ok (b ++ u) /\ zlen (b ++ u) = o + n /\ holds (b ++ u) o (d ++ zeros (n - zlen d)) /\ (bytes_ok d -> bytes_ok u).
Proof.
  intros E Hb Hn Hd. pose proof (zlen_nonneg b). pose proof (zlen_nonneg d). unfold p_write_cert. rewrite E. cbn [unwrap bind fst snd]. rewrite pad_until_ok by assumption. cbn [bind]. unfold padd. destruct (Z.ltb_spec (o + n) (2 ^ 32)); [|lia]. cbn [bind].
  assert (El : zlen ((b ++ zeros (o - zlen b)) ++ d) = o + zlen d) by (rewrite !zlen_app, zlen_zeros by lia; lia). rewrite pad_until_ok by lia. rewrite El. replace (o + n - (o + zlen d)) with (n - zlen d) by lia.
  exists (zeros (o - zlen b) ++ d ++ zeros (n - zlen d)). rewrite <- !app_assoc. split; [reflexivity|]. split; [rewrite !zlen_app, !zlen_zeros by lia; lia|]. split.
  - exists (b ++ zeros (o - zlen b)), []. rewrite app_nil_r, <- !app_assoc. split; [reflexivity|]. rewrite zlen_app, zlen_zeros by lia. lia.
  - intro. rewrite !bytes_ok_app. split; [apply bytes_ok_zeros|]. split; [assumption|apply bytes_ok_zeros].
Qed.
Lemma values_table img r secs : p_nsec r = zlen secs -> p_cl r = total_size (pc_falign (pi_cfg img)) (flagged 5 []) secs -> p_dl r = total_size (pc_falign (pi_cfg img)) (flagged 6 [5]) secs -> p_bl r = total_size (pc_falign (pi_cfg img)) (flagged 7 [5; 6]) secs ->
  p_ca r = first_address (flagged 5 []) secs -> p_da r = first_address (fun s => flagged 6 [5] s || flagged 7 [5; 6] s) secs -> p_hlen r = o_head img -> p_vlen r = memory_end (pc_salign (pi_cfg img)) (round_up (o_head img) (pc_salign (pi_cfg img))) secs ->
  nt_values (pi_cfg img) r (pi_nt img) (opt_of img + 8 * pi_ndirs img) (pi_ndirs img) = nt_table img secs (o_head img).
Proof. intros E1 E2 E3 E4 E5 E6 E7 E8. unfold nt_values, nt_table. cbv zeta. rewrite E1, E2, E3, E4, E5, E6, E7, E8. reflexivity. Qed.
Lemma dirs_final img (t : list psec) d2 d3 d4 cert n : zlen d2 = pi_ndirs img ->
  (forall k, zget d2 k = match dir_from k (pi_items img) (map hdr t) with Some (_, s) => Some (c_vaddr s, c_vsize s) | None => zget (repeat (0, 0) n) k end) ->
  (forall k, zget d3 k = match find (fun x => fst x =? k) (rev (pi_sets img)) with Some (_, d) => Some d | None => zget d2 k end) ->
  (d4 = match pi_cert img with Some d => zset d3 4 (cert, round_up (zlen d) 8) | None => d3 end) -> (pi_cert img <> None -> 0 <= 4 < zlen d3) ->
  forall i d, zget d4 i = Some d -> d = dir_expected img (map hdr t) cert i.
Proof.
  intros _ E2 E3 -> E4 i d H. unfold dir_expected.
  assert (K : forall d, zget d3 i = Some d -> d = match find (fun x => fst x =? i) (rev (pi_sets img)) with Some (_, d) => d | None => dir_of_section img (map hdr t) i end).
  { intros d' H'. rewrite E3 in H'. destruct (find _ (rev _)) as [[j x]|]; [congruence|]. rewrite E2 in H'. unfold dir_of_section. fold (dir_from i (pi_items img) (map hdr t)). destruct (dir_from i (pi_items img) (map hdr t)) as [[j s]|]; [congruence|]. apply zget_repeat in H'. exact H'. }
  destruct (pi_cert img) as [dc|]; [|auto]. rewrite zget_zset in H by (apply E4; discriminate). destruct (i =? 4); [congruence|auto].
Qed.
Lemma Forall2_map_r {A B C} (P : A -> C -> Prop) (f : B -> C) l t : Forall2 (fun a b => P a (f b)) l t -> Forall2 P l (map f t).
Proof. induction 1; cbn [map]; constructor; assumption. Qed.
Lemma Forall2_and' {A B} (P Q : A -> B -> Prop) l t : Forall2 P l t -> Forall2 Q l t -> Forall2 (fun a b => P a b /\ Q a b) l t.
Proof. induction 1; intro K; inversion K; subst; constructor; auto. Qed.
Lemma Forall2_imp' {A B} (P Q : A -> B -> Prop) l t : (forall a b, In a l -> In b t -> P a b -> Q a b) -> Forall2 P l t -> Forall2 Q l t.
Proof. intros HI H. induction H; constructor; [apply HI; cbn; auto|]. apply IHForall2. intros. apply HI; cbn; auto. Qed.
Lemma Forall2_Forall_r {A B} (P : A -> B -> Prop) (Q : B -> Prop) l t : (forall a b, P a b -> Q b) -> Forall2 P l t -> Forall Q t.
Proof. intros HI H. induction H; constructor; eauto. Qed.
Lemma first_address_u32 P l : Forall sec_fields l -> u32_ok (first_address P l).
Proof. intro H. unfold first_address. destruct (find P l) as [s|] eqn:E; [|unfold u32_ok; lia]. apply find_some in E as [E _]. rewrite Forall_forall in H. apply (H s E). Qed.
Lemma isteps_vlen c G l t r r' : c_ok c -> isteps c G l t r r' -> p_vlen r < 2 ^ 32 -> p_vlen r' < 2 ^ 32.
Proof. intros [P1 _] H. pose proof (pow2_pos _ P1). induction H as [|i l s t r r1 r' H1 H2 IH]; [auto|]. intros _. apply IH. destruct (it_sec _ _ _ _ _ _ H1). destruct (round_spec (p_vlen r + item_vsize (g_bytes (g_pad G)) i) (pc_salign c) ltac:(lia)) as [_ D]. lia. Qed.
Theorem write_image img l r : img_ok img -> p_reserve_all img = Ok (l, r) -> p_len r < 2 ^ 32 ->
  exists F f, p_write_all img l r = Ok F /\ file_ok F /\ zlen F <= p_len r /\ pe_parse (pc_is64 (pi_cfg img)) F = Ok f /\ written img (p_len r) F f.
Proof.
  intros HI E HB. rewrite reserve_all_eq in E. destruct (head_reserved img) as [r1| |] eqn:E1; cbn [bind] in E; try discriminate. destruct (p_reserve_items _ _ _) as [[t r2]| |] eqn:E2; cbn [bind] in E; try discriminate. destruct (p_set_all r2 _) as [r3| |] eqn:E3; cbn [bind] in E; try discriminate.
  destruct (match pi_cert img with Some d => p_reserve_cert r3 (zlen d) | None => Ok r3 end) as [r4| |] eqn:E4; cbn [bind] in E; try discriminate. injection E as -> ->.
  pose proof (head_bounds img HI) as (B1 & B2 & B3 & B4 & B5 & B6). pose proof HI as (H1 & H2 & Hdos & Hr1 & Hr2 & Hnt & Hn0 & Hn1 & Hrel & Hit & Hitems & Hsets & Hcert). pose proof (pow2_pos _ H1) as Hsa. pose proof (pow2_pos _ H2) as Hfa. change (112 + 8 * pi_ndirs img < 65536) in Hn1.
  set (c := pi_cfg img) in *. assert (Hc : c_ok c) by (split; assumption).
  destruct (head_inv img r1 HI E1) as (G & G1 & G2 & L1 & V1 & GG & HS). destruct (round_spec (o_end img) (pc_falign c) ltac:(lia)) as [Da _]. fold (o_head img) in Da.
  apply (items_inv c G Hc) in E2 as [ST L2]; [|exact Hitems|split; [lia|split; [rewrite L1; exact Da|lia]]|left; exact GG]. rewrite L1 in L2.
  assert (L3 : p_len r3 = p_len r2) by (clear - E3; revert r2 r3 E3; induction (pi_sets img) as [|[i [va n]] q IH]; intros r2 r3 E3; cbn [p_set_all] in E3; [congruence|]; unfold p_set_dir in E3; destruct (dir_set _ _ _); cbn [bind] in E3; try discriminate; apply IH in E3; exact E3).
  assert (L4 : p_len r3 <= p_len r).
  { destruct (pi_cert img) as [d|]; [|injection E4 as ->; lia]. destruct Hcert as [_ Hu]. apply reserve_cert_inv in E4; [|lia|exact HB|exact Hu]. cbv zeta in E4. destruct E4 as (Q1 & Q2 & _). destruct (round_spec (zlen d) 8 ltac:(lia)) as [_ Q]. pose proof (zlen_nonneg d). lia. }
  rewrite HS in * by lia. pose proof (isteps_vlen c G _ _ _ _ Hc ST (proj2 V1)) as V2. clear HS E1 L1 V1 GG r1. set (r1 := head_state img G) in *. set (H := o_head img) in *. destruct (round_spec H (pc_salign c) ltac:(lia)) as [_ Hsal].
  assert (S1 : st_ok c r1) by (split; [cbn [r1 head_state p_len]; lia|split; [exact Da|cbn [r1 head_state p_vlen]; fold H; fold c; lia]]).
  destruct (isteps_const c G _ _ _ _ ST) as (C1 & C2 & C3 & C4 & C5 & C6). destruct (isteps_mono c G Hc _ _ _ _ Hitems S1 ST) as (S2 & _ & M2). destruct (isteps_secs c G Hc _ _ _ _ Hitems S1 ST) as (Q1 & Q2 & Q3). destruct (isteps_file c G Hc _ _ _ _ Hitems S1 ST ltac:(lia)) as (Q4 & Q5).
  destruct (isteps_sizes c G Hc _ _ _ _ Hitems S1 ST) as (Z1 & Z2 & Z3 & Z4 & Z5 & Z6 & Z7 & Z8); [cbn; unfold u32_ok; lia|cbn; unfold u32_ok; lia|cbn; unfold u32_ok; lia|]. pose proof (isteps_reloc c G Hc _ _ _ _ Hitems S1 ST) as Q6.  pose proof (isteps_fs c G _ _ _ _ Hc Hitems S1 ST) as Q7.
  pose proof (fun k => isteps_dirs c G Hc k _ _ _ _ Hitems S1 ST) as Q8. cbn [r1 head_state p_len p_vlen p_hlen p_nt p_nsec p_secs p_dirs p_cl p_dl p_bl p_ca p_da] in C1, C2, C3, C4, C6, M2, Q2, Q3, Q4, Q5, Z1, Z2, Z3, Z7, Z8, Q8. cbn [app] in C4. rewrite Z.add_0_l in Z1, Z2, Z3. change (0 =? 0) with true in Z7, Z8. cbv iota in Z7, Z8. rewrite zlen_repeat in C6 by lia.
  set (R := g_bytes (g_pad G)) in *. set (secs := map hdr l) in *. fold c in Q2, Q3, Z1, Z2, Z3, M2. fold H in Q2, Q3, Q4, Q5, C1.
  assert (Fsec : Forall sec_fields secs).
  { unfold secs. clear - Q1 Q7 Hitems L3 L4 HB. induction Q1 as [|i s0 li t0 A1 A2 IH]; [constructor|]. cbn [map]. constructor; [|exact (IH (Forall_inv_tail Hitems) (Forall_inv_tail Q7))]. pose proof (Forall_inv Q7) as K. cbn beta in K. apply (fields_hdr c G i s0 (Forall_inv Hitems) A1). lia. }
  assert (Hp2 : Forall pair_u32 (p_dirs r2)).
  { apply Forall_forall. intros d Hd. apply In_zget in Hd as [k Hk]. rewrite Q8 in Hk. destruct (dir_from k (pi_items img) secs) as [[j s0]|] eqn:Ef.
    - unfold dir_from in Ef. apply find_some in Ef as [Ef _]. apply in_combine_r in Ef. rewrite Forall_forall in Fsec. destruct (Fsec _ Ef) as (_ & F1 & F2 & _). injection Hk as <-. split; [exact F2|exact F1].
    - apply zget_repeat in Hk. subst d. split; unfold u32_ok; cbn; lia. }
  destruct (set_all_inv _ _ _ Hsets Hp2 E3) as (d3 & -> & D1 & D2 & D3). rewrite C6 in D1. cbn [p_len p_set_dirs p_set_nt] in L3, L4. clear L3.
  assert (FR : exists d4 cert, r = p_set_dirs (p_set_len r2 (p_len r)) d4 /\ zlen d4 = pi_ndirs img /\ Forall pair_u32 d4 /\ (forall i d, zget d4 i = Some d -> d = dir_expected img secs cert i) /\
    match pi_cert img with None => p_len r = p_len r2 | Some d => cert = cert_at (p_len r2) d /\ zget d4 4 = Some (cert, round_up (zlen d) 8) /\ p_len r = cert + round_up (zlen d) 8 /\ p_len r2 <= cert end).
  { destruct (pi_cert img) as [d|] eqn:Ec.
    - destruct Hcert as [_ Hu]. destruct S2 as (S20 & _). apply reserve_cert_inv in E4; [|cbn [p_len p_set_dirs p_set_nt]; lia|exact HB|exact Hu]. cbv zeta in E4. cbn [p_len p_set_dirs p_set_nt p_dirs] in E4. destruct E4 as (K1 & K2 & K3 & K4). exists (zset d3 4 (cert_at (p_len r2) d, round_up (zlen d) 8)), (cert_at (p_len r2) d).
      split; [exact K3|]. split; [rewrite zlen_zset by lia; exact D1|]. destruct (round_spec (zlen d) 8 ltac:(lia)) as [_ Hr]. pose proof (zlen_nonneg d). split; [apply Hash_proofs.Forall_zset; [exact D2|split; unfold u32_ok; cbn [fst snd]; lia]|]. split.
      + eapply dirs_final with (d2 := p_dirs r2) (d3 := d3); [exact C6|exact Q8|exact D3|rewrite Ec; reflexivity|intros _; exact K4].
      + split; [reflexivity|]. split; [rewrite zget_zset by lia; reflexivity|]. split; [exact K2|exact K1].
    - injection E4 as <-. exists d3, 0. split; [reflexivity|]. split; [exact D1|]. split; [exact D2|]. split; [|reflexivity]. eapply dirs_final with (d2 := p_dirs r2) (d3 := d3); [exact C6|exact Q8|exact D3|rewrite Ec; reflexivity|congruence]. }
  destruct FR as (d4 & cert & Er & R1 & R2 & R3 & R4). clear E4 E3 D1 D2 D3 d3 Hp2.
  assert (X1 : p_nt r = o_nt img) by (rewrite Er; exact C2). assert (X2 : p_nsec r = zlen (pi_items img)) by (rewrite Er; exact C3). assert (X3 : p_secs r = l) by (rewrite Er; exact C4). assert (X4 : p_dirs r = d4) by (rewrite Er; reflexivity). assert (X5 : p_hlen r = H) by (rewrite Er; exact C1). assert (X6 : p_vlen r = p_vlen r2) by (rewrite Er; reflexivity).
  assert (X7 : p_cl r = p_cl r2 /\ p_dl r = p_dl r2 /\ p_bl r = p_bl r2 /\ p_ca r = p_ca r2 /\ p_da r = p_da r2 /\ p_blocks r = p_blocks r2 /\ p_relocs r = p_relocs r2 /\ p_roff r = p_roff r2) by (rewrite Er; repeat split; reflexivity). destruct X7 as (Y1 & Y2 & Y3 & Y4 & Y5 & Y6 & Y7 & Y8).
  clear Er.
  destruct (write_head_ok img r HI X1 ltac:(congruence) ltac:(congruence)) as (x & W1 & W2 & W3 & W4). fold c in W1. rewrite X3, X4 in W1. set (pre := fst (dos_bytes (pi_dos img)) ++ word (o_nt img) ++ snd (dos_bytes (pi_dos img)) ++ x) in *. set (opt := opt_of img + 8 * pi_ndirs img) in *.
  assert (Hopt : opt_of img = 112 \/ opt_of img = 96) by (unfold opt_of; destruct (pc_is64 _); auto). assert (Hzl : zlen secs = zlen (pi_items img)) by (unfold secs; rewrite zlen_map; exact C5).
  destruct (nt_fields c r (pi_nt img) opt (pi_ndirs img)) as (N1 & N2 & N3).
  { exact Hnt. } { rewrite X2; exact Hit. } { unfold u16_ok, opt. change (2 ^ 16) with 65536. lia. } { congruence. } { congruence. } { congruence. } { rewrite Y4, Z7. apply first_address_u32. exact Fsec. } { rewrite Y5, Z8. apply first_address_u32. exact Fsec. } { unfold u32_ok; lia. } { unfold u32_ok; lia. }
  { rewrite X6. unfold u32_ok. destruct S2 as (_ & _ & ?). split; [lia|exact V2]. } { rewrite X5. unfold u32_ok. lia. } { congruence. } { unfold u32_ok. lia. }
  change (if pc_is64 c then 112 else 96) with (opt_of img) in N2.
  set (nt := nt_enc c r (pi_nt img) opt) in *. assert (EV : nt_values c r (pi_nt img) opt (pi_ndirs img) = nt_table img secs H) by (apply values_table; [congruence|fold c; congruence|fold c; congruence|fold c; congruence|congruence|congruence|exact X5|rewrite X6; symmetry; exact Q3]). rewrite EV in N1. clear EV.
  set (sb := concat (map sechdr_enc l)) in *. assert (Esb : sb = concat (map sec_bytes secs)) by (unfold sb, secs; rewrite map_map; reflexivity).
  assert (Hsb : zlen sb = 40 * zlen (pi_items img)). { unfold sb. rewrite zlen_secs, C5; [reflexivity|]. eapply Forall2_Forall_r; [|exact (Forall2_and' _ _ _ _ Q1 (Forall2_imp' _ (fun i _ => item_ok i) _ _ (fun a b Ha _ _ => proj1 (Forall_forall _ _) Hitems a Ha) Q1))]. intros a b0 [(K & _) (K2 & _)]. congruence. }
  assert (Hsbb : bytes_ok sb).
  { unfold sb. clear - Q1 Hitems. induction Q1 as [|i s0 li t0 A1 A2 IH]; [constructor|]. cbn [map concat]. apply bytes_ok_app. split; [|exact (IH (Forall_inv_tail Hitems))]. unfold sechdr_enc. destruct A1 as (-> & _). destruct (Forall_inv Hitems) as (_ & K & _). rewrite !bytes_ok_app. split; [exact K|]. repeat split; apply bytes_ok_write_u. }
  assert (Hpb : bytes_ok (pairs d4)) by (unfold pairs; clear; induction d4 as [|d q IH]; [constructor|]; cbn [map concat]; unfold word; rewrite !bytes_ok_app; split; [split; apply bytes_ok_write_u|exact IH]).
  set (b3 := pre ++ nt ++ pairs d4 ++ sb) in *. assert (Hb3 : zlen b3 = o_end img) by (unfold b3; rewrite !zlen_app, W2, N2, zlen_pairs, R1, Hsb; unfold o_end; lia). assert (Hb3b : bytes_ok b3) by (unfold b3; rewrite !bytes_ok_app; auto).
  assert (HRb : bytes_ok R) by apply g_bytes_ok.
  destruct (write_items_ok c G Hc r (pi_items img) l r1 r2 Hitems HRb S1 ltac:(cbn [r1 head_state p_len]; fold H; lia) ST ltac:(lia)) with (b := b3) as (u & U1 & U2 & U3 & U4 & U5).
  { eapply Forall2_imp'; [|exact Q6]. intros a b0 _ _ K Ka. destruct (K Ka) as [K1 K2]. split; [congruence|]. destruct K2 as [K2 K3]. split; congruence. }
  { cbn [r1 head_state p_len]. fold H. lia. }
  cbn [r1 head_state p_len] in U4. fold H in U4.
  (* the certificate *)
  assert (FC : exists v, match pi_cert img with Some d => p_write_cert r (b3 ++ u) d | None => Ok (b3 ++ u) end = Ok ((b3 ++ u) ++ v) /\ bytes_ok v /\ zlen ((b3 ++ u) ++ v) <= p_len r /\
    (pi_cert img <> None \/ (exists i, In i (pi_items img) /\ item_content R i <> []) -> zlen ((b3 ++ u) ++ v) = p_len r) /\
    match pi_cert img with
    | None => p_len r = file_end H secs
    | Some d => cert = (match d with [] => file_end H secs | _ => round_up (file_end H secs) 8 end) /\ holds ((b3 ++ u) ++ v) cert (d ++ zeros (p_len r - cert - zlen d)) /\ p_len r = cert + round_up (zlen d) 8
    end).
  { destruct (pi_cert img) as [d|].
    - destruct R4 as (K1 & K2 & K3 & K4). destruct (round_spec (zlen d) 8 ltac:(lia)) as [_ Hr]. destruct (write_cert_ok r (b3 ++ u) d cert (round_up (zlen d) 8)) as (v & V3 & V4 & V5 & V6); [rewrite X4; exact K2|lia|lia|lia|]. exists v. split; [exact V3|]. split; [apply V6, Hcert|]. split; [lia|]. split; [intros _; lia|]. rewrite Q5. split; [exact K1|]. split; [|exact K3]. replace (p_len r - cert) with (round_up (zlen d) 8) by lia. exact V5.
    - exists []. rewrite app_nil_r. split; [reflexivity|]. split; [constructor|]. split; [lia|]. split; [|congruence]. intros [K|K]; [congruence|]. rewrite R4. apply U4. right. exact K. }
  destruct FC as (v & V3 & V4 & V5 & V6 & V7). set (F := (b3 ++ u) ++ v) in *.
  assert (HF : file_ok F) by (split; [unfold F; rewrite !bytes_ok_app; auto|lia]).
  assert (EF : F = (fst (dos_bytes (pi_dos img)) ++ word (o_nt img)) ++ (snd (dos_bytes (pi_dos img)) ++ x) ++ nt ++ pairs d4 ++ sb ++ u ++ v) by (unfold F, b3, pre; rewrite <- !app_assoc; reflexivity).
  assert (EF2 : F = pre ++ nt ++ pairs d4 ++ sb ++ u ++ v) by (unfold F, b3; rewrite <- !app_assoc; reflexivity).
  destruct (dos_written img r Hdos) as (DW1 & _ & _ & DW4 & _).
  assert (PI : pe_image (pc_is64 c) F (fst (dos_bytes (pi_dos img)) ++ word (o_nt img)) nt d4 secs).
  { unfold pe_image. change (if pc_is64 c then 112 else 96) with (opt_of img). exists (o_nt img), opt, (pi_ndirs img), (zlen (pi_items img)).
    assert (FN : forall o w v0, In (o, w, v0) (nt_table img secs H) -> fld Little o w nt = v0) by (intros o w v0 K; rewrite Forall_forall in N1; exact (N1 _ K)).
    split; [rewrite zlen_app, DW1, zlen_word; reflexivity|]. split; [exists [], ((snd (dos_bytes (pi_dos img)) ++ x) ++ nt ++ pairs d4 ++ sb ++ u ++ v); split; [exact EF|reflexivity]|]. split; [apply holds_more; exact DW4|].
    split; [exists (fst (dos_bytes (pi_dos img))), []; rewrite app_nil_r; split; [reflexivity|exact DW1]|]. split; [unfold u32_ok; lia|]. split; [exact N2|]. split; [exists pre, (pairs d4 ++ sb ++ u ++ v); split; [exact EF2|exact W2]|].
    split; [eexists [], _; split; [|reflexivity]; unfold nt, nt_enc; reflexivity|].
    split. { apply half_eqb; [exact N3|lia|lia|unfold u16_ok; destruct (pc_is64 c); lia|]. apply Z.eqb_eq. apply FN. unfold nt_table. cbv zeta. fold c. do 8 right. left. reflexivity. }
    split. { apply half_eqb; [exact N3|lia|lia|exact Hit|]. apply Z.eqb_eq. apply FN. rewrite <- Hzl. do 2 right. left. reflexivity. }
    split. { apply half_eqb; [exact N3|lia|lia|unfold u16_ok, opt; change (2 ^ 16) with 65536; lia|]. apply Z.eqb_eq. apply FN. do 6 right. left. reflexivity. }
    split. { apply word_eqb; [exact N3|lia|lia|unfold u32_ok; lia|]. apply Z.eqb_eq. apply FN. unfold nt_table. cbv zeta. fold c. apply in_or_app. left. do 36 right. left. unfold opt_of. fold c. destruct (pc_is64 c); reflexivity. }
    split; [exact Hit|]. split; [unfold u16_ok, opt; change (2 ^ 16) with 65536; lia|]. split; [unfold u32_ok; lia|]. split; [unfold opt; lia|].
    split. { rewrite EF2, !zlen_app, W2, N2, zlen_pairs, R1. pose proof (zlen_nonneg sb). pose proof (zlen_nonneg u). pose proof (zlen_nonneg v). unfold opt. lia. }
    split; [exact R1|]. split; [unfold opt; lia|]. split; [exact R2|].
    split. { exists (pre ++ nt), (sb ++ u ++ v). rewrite EF2, <- !app_assoc. split; [reflexivity|]. rewrite zlen_app, W2, N2. lia. }
    split; [exact Hzl|]. split; [exact Fsec|]. rewrite <- Esb. exists (pre ++ nt ++ pairs d4), (u ++ v). rewrite EF2, <- !app_assoc. split; [reflexivity|]. rewrite !zlen_app, W2, N2, zlen_pairs, R1. unfold opt. lia. }
  apply pe_exact in PI as (f & PF & P1 & P2 & P3 & P4); [|exact HF]. exists F, f. split; [rewrite write_all_eq, W1; cbn [bind]; fold c; rewrite U1; exact V3|]. split; [exact HF|]. split; [exact V5|]. split; [exact PF|].
  unfold written. rewrite (surjective_pairing (dos_bytes (pi_dos img))). cbv zeta. fold c. change (if pc_is64 c then 112 else 96) with (opt_of img). change (64 + zlen (snd (dos_bytes (pi_dos img)))) with (o_stub img). change (round_up (o_stub img) 4) with (o_rich img).
  change (round_up match pi_rich img with [] => o_stub img | z :: l0 => o_rich img + zlen (z :: l0) end 8) with (o_nt img). change (round_up (o_nt img + 24 + opt_of img + 8 * pi_ndirs img + 40 * zlen (pi_items img)) (pc_falign c)) with H.
  exists R, cert. rewrite P1, P2, P3, P4. split; [reflexivity|].
  split. { exists (fst (dos_bytes (pi_dos img)) ++ word (o_nt img)), (x ++ nt ++ pairs d4 ++ sb ++ u ++ v). rewrite EF, <- !app_assoc. split; [reflexivity|]. rewrite zlen_app, DW1, zlen_word. reflexivity. }
  split. { intro K. rewrite EF2. apply holds_more. exact (W4 K). }
  split; [exact N1|]. split; [exact R1|]. split; [exact R3|].
  split. { intro K. assert (Hz : zlen R < 2 ^ 32). { clear - K Q1 Q7. induction Q1 as [|i s0 li t0 A1 A2 IH]; [contradiction|]. destruct K as [->|K]; [|exact (IH (Forall_inv_tail Q7) K)]. destruct A1 as (_ & _ & E & _ & A5 & A6 & _). cbn [item_vsize item_content] in E. fold R in E. lia. } apply reloc_content; [exact G1|exact G2|exact Hz]. }
  split. { apply Forall2_map_r. pose proof (Forall2_and' _ _ _ _ Q1 U5) as K. eapply Forall2_imp'; [|exact K]. intros i s0 _ _ [(A1 & A2 & A3 & A4 & _) A5]. unfold section_of. cbv zeta. cbn [hdr c_name c_flags c_vsize c_rawsize c_relptr c_lnptr c_nrel c_nln c_rawptr]. fold R in A3, A4, A5. repeat (split; [assumption || reflexivity|]). intro N. apply holds_more. exact (A5 N). }
  split; [exact Q2|]. split; [exact Q4|]. split; [exact V7|exact V6].
Qed.
