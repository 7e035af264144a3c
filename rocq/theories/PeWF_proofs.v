(** Proofs about written PE images: headers, and the whole image. *)
From Coq Require Import Sorted.
From Verif Require Import Core_proofs Util_proofs File_proofs Str_proofs Map_proofs Pod_proofs Iter_proofs Ar_proofs ArSym_proofs Rel_proofs ElfR_proofs Kind_proofs CoffW_proofs CoffR_proofs CoffI_proofs.
From Verif Require Import Pe_spec Pe_proofs PeX_proofs PeI_proofs PeF_proofs PeT_proofs PeW_spec PeW_proofs PeWI_proofs.

(** * Offsets *)
Definition o_stub (img : pimg) : Z := 64 + zlen (snd (dos_bytes (pi_dos img))).
Definition o_rich (img : pimg) : Z := round_up (o_stub img) 4.
Definition o_nt (img : pimg) : Z := round_up (match pi_rich img with [] => o_stub img | x => o_rich img + zlen x end) 8.
Definition opt_of (img : pimg) : Z := if pc_is64 (pi_cfg img) then 112 else 96.
Definition o_end (img : pimg) : Z := o_nt img + 24 + opt_of img + 8 * pi_ndirs img + 40 * zlen (pi_items img).
Definition o_head (img : pimg) : Z := round_up (o_end img) (pc_falign (pi_cfg img)).
Definition head_state (img : pimg) (G : list group) : pr :=
  {| p_len := o_head img; p_vlen := round_up (o_head img) (pc_salign (pi_cfg img)); p_hlen := o_head img; p_ca := 0; p_da := 0; p_cl := 0; p_dl := 0; p_bl := 0; p_nt := o_nt img;
     p_dirs := repeat (0, 0) (Z.to_nat (pi_ndirs img)); p_nsec := zlen (pi_items img); p_secs := []; p_blocks := g_blocks G; p_relocs := g_relocs G; p_roff := 0 |}.
Lemma head_bounds img : img_ok img -> 64 <= o_stub img /\ o_stub img <= o_nt img /\ (pi_rich img <> [] -> o_stub img <= o_rich img /\ o_rich img + zlen (pi_rich img) <= o_nt img) /\ o_end img <= o_head img /\ o_nt img < o_end img /\ o_nt img < 2 ^ 35.
Proof.
  intros (H1 & H2 & Hd & H4 & H5 & _ & H6 & H7 & _). pose proof (pow2_pos _ H2). unfold o_head, o_end, o_nt, o_rich. pose proof (zlen_nonneg (pi_items img)). assert (opt_of img = 112 \/ opt_of img = 96) by (unfold opt_of; destruct (pc_is64 _); auto).
  assert (Hs : 64 <= o_stub img < 2 ^ 33) by (unfold o_stub; destruct (pi_dos img) as [| |h s]; [vm_compute; split; congruence|vm_compute; split; congruence|]; destruct Hd as (_ & _ & _ & Hu & _); cbn [dos_bytes snd]; unfold u32_ok in Hu; lia). unfold u32_ok in H5.
  destruct (round_spec (o_stub img) 4 ltac:(lia)) as [_ A]. destruct (round_spec (match pi_rich img with [] => o_stub img | x => round_up (o_stub img) 4 + zlen x end) 8 ltac:(lia)) as [_ B].
  match goal with |- context [round_up ?x (pc_falign _)] => destruct (round_spec x (pc_falign (pi_cfg img)) ltac:(lia)) as [_ C] end.
  destruct (pi_rich img) as [|x l]; [split; [lia|]; split; [lia|]; split; [congruence|]; lia|]. pose proof (zlen_nonneg (x :: l)). split; [lia|]. split; [lia|]. split; [intros _; lia|]. split; [lia|]. split; lia.
Qed.
Definition dos_reserved (img : pimg) : out pr :=
  match pi_dos img with DosEmpty => p_reserve_dos p_new | DosFixed => p_reserve_dos_stub p_new | DosCustom _ s => r <- p_reserve_dos p_new ;; ' (_, r) <- p_reserve r (zlen s) 1 ;; Ok r end.
Lemma reserve_1 r len o r' : 0 <= p_len r -> 0 <= len -> p_reserve r len 1 = Ok (o, r') -> r' = p_set_len r (p_len r + len) /\ o = wrap_u 32 (p_len r).
Proof. intros H0 Hl E. apply reserve_inv in E; [|exact pow2_1|assumption|assumption]. cbv zeta in E. rewrite round_1 in E. destruct (len =? 0); exact E. Qed.
Lemma dos_reserved_inv img r : dos_reserved img = Ok r -> r = p_set_len p_new (o_stub img).
Proof.
  assert (Ed : p_reserve_dos p_new = Ok (p_set_len p_new 64)) by reflexivity. unfold dos_reserved, o_stub. destruct (pi_dos img) as [| |h s]; cbn [dos_bytes snd].
  - rewrite Ed. intros [= <-]. reflexivity.
  - change (p_reserve_dos_stub p_new) with (Ok (p_set_len p_new 128)). intros [= <-]. reflexivity.
  - rewrite Ed. cbn [bind]. destruct (p_reserve _ _ _) as [[o r1]| |] eqn:E; cbn [bind]; try discriminate. intros [= <-]. apply reserve_1 in E as [-> _]; [reflexivity|cbn; lia|apply zlen_nonneg].
Qed.
(** everything before the sections *)
Definition head_reserved (img : pimg) : out pr :=
  let c := pi_cfg img in
  r <- dos_reserved img ;; ' (_, r) <- p_reserve r (zlen (pi_rich img)) 4 ;; r <- p_reserve_nt c r (pi_ndirs img) ;; r <- p_add_relocs r (pi_relocs img) ;; p_reserve_sechdrs c r (wrap_u 16 (zlen (pi_items img))).
Lemma wrap_small x : 0 <= x < 2 ^ 32 -> wrap_u 32 x = x.
Proof. intro. unfold wrap_u. apply Z.mod_small. assumption. Qed.
Lemma head_inv img r : img_ok img -> head_reserved img = Ok r -> exists G, g_inv G /\ g_out G = filter kept (pi_relocs img) /\ p_len r = o_head img /\ 0 <= p_vlen r < 2 ^ 32 /\ groups_of G r /\ (o_head img < 2 ^ 32 -> r = head_state img G).
Proof.
  intros HI. pose proof (head_bounds img HI) as (B1 & B2 & B3 & B4 & B5 & B6). destruct HI as (H1 & H2 & Hd & H4 & H5 & _ & H6 & H7 & H8 & H9 & _). pose proof (pow2_pos _ H1). pose proof (pow2_pos _ H2). unfold head_reserved. cbv zeta.
  destruct (dos_reserved img) as [r0| |] eqn:E0; cbn [bind]; try discriminate. apply dos_reserved_inv in E0. subst r0.
  destruct (p_reserve _ (zlen (pi_rich img)) 4) as [[o1 r1]| |] eqn:E1; cbn [bind]; try discriminate. apply reserve_inv in E1; [|exact pow2_4|cbn [p_len p_set_len]; lia|apply zlen_nonneg]. cbv zeta in E1. destruct E1 as [-> _]. cbn [p_len p_set_len].
  set (L1 := match pi_rich img with [] => o_stub img | x => o_rich img + zlen x end). assert (EL1 : (if zlen (pi_rich img) =? 0 then o_stub img else round_up (o_stub img) 4) + zlen (pi_rich img) = L1).
  { subst L1. destruct (pi_rich img) as [|x l]; [change (zlen (@nil Z)) with 0; cbn; lia|]. rewrite zlen_cons. pose proof (zlen_nonneg l). destruct (Z.eqb_spec (1 + zlen l) 0); [lia|]. reflexivity. }
  rewrite EL1. assert (Ent : o_nt img = round_up L1 8) by reflexivity. assert (HL1 : 0 <= L1).
  { subst L1. destruct (pi_rich img) as [|x l]; [lia|]. destruct (B3 ltac:(discriminate)) as [Q _]. pose proof (zlen_nonneg (x :: l)). lia. }
  assert (HIt : 0 <= zlen (pi_items img)) by apply zlen_nonneg. assert (Hopt : opt_of img = 112 \/ opt_of img = 96) by (unfold opt_of; destruct (pc_is64 _); auto).
  unfold p_reserve_nt. cbn [p_nt p_set_len p_new]. change (0 =? 0) with true. cbn [negb].
  destruct (p_reserve _ (nt_size _) 8) as [[o2 r2]| |] eqn:E2; cbn [bind]; try discriminate. assert (Hns : nt_size (pc_is64 (pi_cfg img)) = 24 + opt_of img) by (unfold opt_of; destruct (pc_is64 _); reflexivity). rewrite Hns in E2. apply reserve_inv in E2; [|exact pow2_8|cbn [p_len p_set_len]; lia|lia]. cbv zeta in E2. destruct (Z.eqb_spec (24 + opt_of img) 0); [lia|]. cbn [p_len p_set_len] in E2. rewrite <- Ent in E2. destruct E2 as [-> ->].
  change (112 + 8 * pi_ndirs img < 65536) in H7. rewrite (wrap_small (pi_ndirs img)) by lia. unfold pmul at 1. destruct (_ <? _); cbn [bind]; [|discriminate].
  destruct (p_reserve _ (pi_ndirs img * 8) 1) as [[o3 r3]| |] eqn:E3; cbn [bind]; try discriminate. apply reserve_1 in E3 as [-> _]; [|cbn [p_len p_set_len p_set_nt]; lia|lia]. cbn [p_len p_set_len p_set_nt].
  destruct (p_add_relocs _ _) as [r4| |] eqn:E4; cbn [bind]; try discriminate.
  apply (add_relocs_inv _ _ _ [] []) in E4; [|exact H8|split; [constructor|split; constructor]|reflexivity|reflexivity|reflexivity]. destruct E4 as (G & G1 & -> & G2). cbn [app] in G2.
  unfold p_reserve_sechdrs. cbn [p_nsec p_set_relocs p_set_len p_set_nt p_new]. change (0 =? 0) with true. cbn [negb]. assert (Ewi : wrap_u 16 (zlen (pi_items img)) = zlen (pi_items img)) by (unfold wrap_u; apply Z.mod_small; exact H9). rewrite Ewi. unfold pmul at 1. destruct (_ <? _); cbn [bind]; [|discriminate].
  destruct (p_reserve _ (zlen (pi_items img) * 40) 1) as [[o5 r5]| |] eqn:E5; cbn [bind]; try discriminate. apply reserve_1 in E5 as [-> _]; [|cbn [p_len p_set_len p_set_nt p_set_relocs p_set_nsec]; lia|lia]. cbn [p_len p_set_len p_set_nt p_set_relocs p_set_nsec].
  assert (Ee : o_nt img + (24 + opt_of img) + pi_ndirs img * 8 + zlen (pi_items img) * 40 = o_end img) by (unfold o_end; lia). rewrite Ee. unfold p_reserve_align. cbn [p_len p_set_len]. rewrite pow2_align by (try assumption; lia). destruct (_ <=? _); cbn [bind]; [|discriminate]. fold (o_head img). cbn [p_len p_set_len p_set_hlen].
  destruct (p_reserve_virtual _ _ _) as [[o6 r6]| |] eqn:E6; cbn [bind]; try discriminate. intros [= <-]. apply reserve_virtual_inv in E6 as (_ & -> & HVB); [|assumption|cbn; lia|unfold wrap_u; apply Z.mod_pos_bound; lia].
  cbn [p_len p_vlen p_set_len p_set_vlen p_set_hlen p_set_nt p_set_relocs p_set_nsec p_new] in *. exists G. split; [exact G1|]. split; [exact G2|]. split; [reflexivity|]. split.
  { match goal with |- context [round_up ?x ?y] => destruct (round_spec x y ltac:(lia)) as [_ Q] end. unfold wrap_u in *. pose proof (Z.mod_pos_bound (o_head img) (2 ^ 32) ltac:(lia)). lia. }
  split; [split; reflexivity|]. intro HL. rewrite (wrap_small (o_head img)) in * by lia. rewrite (wrap_small (o_nt img)) by lia. rewrite Z.add_0_l. reflexivity.
Qed.
(** * Directories *)
Lemma find_app {A} (f : A -> bool) a b : find f (a ++ b) = match find f a with Some x => Some x | None => find f b end.
Proof. induction a as [|x a IH]; [reflexivity|]. cbn [app find]. destruct (f x); [reflexivity|exact IH]. Qed.
Lemma set_all_inv l : forall r r', Forall (fun s => pair_u32 (snd s)) l -> Forall pair_u32 (p_dirs r) -> p_set_all r l = Ok r' -> exists d, r' = p_set_dirs r d /\ zlen d = zlen (p_dirs r) /\ Forall pair_u32 d /\
  forall k, zget d k = match find (fun x => fst x =? k) (rev l) with Some (_, d) => Some d | None => zget (p_dirs r) k end.
Proof.
  induction l as [|[i [va n]] l IH]; intros r r' Hl Hr E; cbn [p_set_all] in E.
  - injection E as <-. exists (p_dirs r). split; [destruct r; reflexivity|]. auto.
  - unfold p_set_dir in E. destruct (dir_set _ _ _) as [d| |] eqn:Ed; cbn [bind] in E; try discriminate. apply dir_set_inv in Ed as [Hi ->].
    assert (Hr1 : Forall pair_u32 (zset (p_dirs r) i (va, n))) by (apply Hash_proofs.Forall_zset; [exact Hr|exact (Forall_inv Hl)]).
    destruct (IH (p_set_dirs r (zset (p_dirs r) i (va, n))) r' (Forall_inv_tail Hl) Hr1 E) as (d & -> & D1 & D2 & D3). exists d. split; [reflexivity|]. cbn [p_dirs p_set_dirs p_set_nt] in *. rewrite zlen_zset in D1 by lia. split; [exact D1|]. split; [exact D2|]. intro k. rewrite D3. cbn [rev]. rewrite find_app. destruct (find _ (rev l)) as [[j x]|]; [reflexivity|]. cbn [find fst]. rewrite zget_zset by lia. rewrite (Z.eqb_sym k i). destruct (i =? k); reflexivity.
Qed.
(** * The NT headers *)
Definition nt_enc (c : pcfg) (r : pr) (n : pnt) (opt : Z) : bytes := write_u Little 4 17744 ++ file_header_enc c r n opt ++ optional_enc c r n.
Definition nt_values (c : pcfg) (r : pr) (n : pnt) (opt nd : Z) : list (Z * Z * Z) :=
  let is64 := pc_is64 c in let w := if is64 then 8 else 4 in
  [(0, 4, 0x4550); (4, 2, pn_machine n); (6, 2, p_nsec r); (8, 4, pn_time n); (12, 4, 0); (16, 4, 0); (20, 2, opt); (22, 2, pn_flags n);
   (24, 2, if is64 then 0x20b else 0x10b); (26, 1, pn_majlink n); (27, 1, pn_minlink n); (28, 4, p_cl r); (32, 4, p_dl r); (36, 4, p_bl r);
   (40, 4, pn_entry n); (44, 4, p_ca r); (if is64 then (48, 8, pn_base n) else (52, 4, pn_base n)); (56, 4, pc_salign c); (60, 4, pc_falign c);
   (64, 2, pn_majos n); (66, 2, pn_minos n); (68, 2, pn_majimg n); (70, 2, pn_minimg n); (72, 2, pn_majsub n); (74, 2, pn_minsub n); (76, 4, 0);
   (80, 4, p_vlen r); (84, 4, p_hlen r); (88, 4, 0); (92, 2, pn_subsystem n); (94, 2, pn_dll n);
   (96, w, pn_stackr n); (96 + w, w, pn_stackc n); (96 + 2 * w, w, pn_heapr n); (96 + 3 * w, w, pn_heapc n); (96 + 4 * w, 4, 0); (100 + 4 * w, 4, nd)] ++
  (if is64 then [] else [(48, 4, p_da r)]).
Lemma nt_fields c r n opt nd : pnt_ok (pc_is64 c) n -> u16_ok (p_nsec r) -> u16_ok opt -> u32_ok (p_cl r) -> u32_ok (p_dl r) -> u32_ok (p_bl r) -> u32_ok (p_ca r) -> u32_ok (p_da r) -> u32_ok (pc_salign c) -> u32_ok (pc_falign c) ->
  u32_ok (p_vlen r) -> u32_ok (p_hlen r) -> zlen (p_dirs r) = nd -> u32_ok nd ->
  Forall (fun '(o, w, v) => fld Little o w (nt_enc c r n opt) = v) (nt_values c r n opt nd) /\ zlen (nt_enc c r n opt) = 24 + (if pc_is64 c then 112 else 96) /\ bytes_ok (nt_enc c r n opt).
Proof.
  intros (N1 & N2 & N3 & N4 & N5 & N6 & N7 & N8 & N9 & N10 & N11 & N12 & N13 & N14 & N15 & N16 & N17 & N18 & N19) R1 R2 R3 R4 R5 R6 R7 R8 R9 R10 R11 E R12.
  assert (Wo : wrap_u 16 opt = opt) by (unfold wrap_u; apply Z.mod_small; exact R2). assert (Wd : wrap_u 32 nd = nd) by (apply wrap_small; exact R12).
  unfold nt_enc, file_header_enc, optional_enc, nt_values. rewrite Wo, E, Wd. unfold u16_ok, u32_ok, u8_ok, base_ok in *. destruct (pc_is64 c); cbn [app]; (split; [|split; [rewrite !zlen_app, !zlen_write_u; reflexivity|rewrite ?bytes_ok_app; repeat split; apply bytes_ok_write_u || constructor]]).
  - repeat (apply Forall_cons; [fld_norm; reflexivity|]). constructor.
  - repeat (apply Forall_cons; [fld_norm; reflexivity|]). constructor.
Qed.
(** * The headers as written *)
Definition head_written (img : pimg) (r : pr) : out bytes :=
  b <- match pi_dos img with
       | DosEmpty => p_write_dos_empty r []
       | DosFixed => p_write_dos_stub r []
       | DosCustom h s => b <- p_write_dos [] (h ++ write_u Little 4 (p_nt r)) ;; Ok (b ++ s)
       end ;;
  b <- match pi_rich img with [] => Ok b | x => b <- p_write_align b 4 ;; Ok (b ++ x) end ;;
  b <- p_write_nt (pi_cfg img) r (pi_nt img) b ;;
  p_write_sechdrs r b.
Lemma dos_written img r : dos_ok (pi_dos img) -> zlen (fst (dos_bytes (pi_dos img))) = 60 /\ bytes_ok (fst (dos_bytes (pi_dos img))) /\ bytes_ok (snd (dos_bytes (pi_dos img))) /\ holds (fst (dos_bytes (pi_dos img))) 0 [77; 90] /\
  match pi_dos img with
  | DosEmpty => p_write_dos_empty r []
  | DosFixed => p_write_dos_stub r []
  | DosCustom h s => b <- p_write_dos [] (h ++ write_u Little 4 (p_nt r)) ;; Ok (b ++ s)
  end = Ok (fst (dos_bytes (pi_dos img)) ++ word (p_nt r) ++ snd (dos_bytes (pi_dos img))).
Proof.
  destruct (pi_dos img) as [| |h s]; intro H.
  - split; [reflexivity|]. split; [apply bytes_ok_forallb; reflexivity|]. split; [constructor|]. split; [eexists [], _; split; reflexivity|]. unfold p_write_dos_empty, p_write_dos. change (negb (zlen (@nil Z) =? 0)) with false. cbn [app]. rewrite app_nil_r. reflexivity.
  - split; [reflexivity|]. split; [apply bytes_ok_forallb; reflexivity|]. split; [apply bytes_ok_forallb; reflexivity|]. split; [eexists [], _; split; reflexivity|]. unfold p_write_dos_stub, p_write_dos. change (negb (zlen (@nil Z) =? 0)) with false. cbn [app bind]. rewrite <- app_assoc. reflexivity.
  - destruct H as (H1 & H2 & H3 & _ & H4). cbn [dos_bytes fst snd]. repeat (split; [assumption|]). unfold p_write_dos. change (negb (zlen (@nil Z) =? 0)) with false. cbn [app bind]. rewrite <- app_assoc. reflexivity.
Qed.
Lemma zlen_pairs l : zlen (pairs l) = 8 * zlen l.
Proof. unfold pairs. induction l as [|p l IH]; [reflexivity|]. cbn [map concat]. rewrite zlen_app, IH, zlen_cons, zlen_app, !zlen_word. lia. Qed.
Lemma zlen_secs l : Forall (fun s => zlen (ps_name s) = 8) l -> zlen (concat (map sechdr_enc l)) = 40 * zlen l.
Proof. induction 1 as [|s l Hs Hl IH]; [reflexivity|]. cbn [map concat]. rewrite zlen_app, IH, zlen_cons, hdr_enc, zlen_sec_bytes by exact Hs. lia. Qed.
Lemma write_head_ok img r : img_ok img -> p_nt r = o_nt img -> p_nsec r = zlen (p_secs r) -> zlen (p_dirs r) = pi_ndirs img ->
  exists x, let pre := fst (dos_bytes (pi_dos img)) ++ word (o_nt img) ++ snd (dos_bytes (pi_dos img)) ++ x in
    head_written img r = Ok (pre ++ nt_enc (pi_cfg img) r (pi_nt img) (opt_of img + 8 * pi_ndirs img) ++ pairs (p_dirs r) ++ concat (map sechdr_enc (p_secs r))) /\
    zlen pre = o_nt img /\ bytes_ok pre /\ (pi_rich img <> [] -> holds pre (o_rich img) (pi_rich img)).
Proof.
  intros HI En Es Ed. pose proof (head_bounds img HI) as (B1 & B2 & B3 & B4 & B5 & B6). pose proof HI as (_ & _ & Hd & H4 & H5 & _ & H6 & H7 & _). unfold head_written. destruct (dos_written img r Hd) as (D1 & D2 & D3 & _ & ->). cbn [bind]. rewrite En.
  set (A := fst (dos_bytes (pi_dos img))) in *. set (S := snd (dos_bytes (pi_dos img))) in *. assert (EL : zlen (A ++ word (o_nt img) ++ S) = o_stub img) by (rewrite !zlen_app, zlen_word; unfold o_stub; fold S; lia).
  assert (HAS : bytes_ok (A ++ word (o_nt img) ++ S)) by (rewrite !bytes_ok_app; split; [exact D2|]; split; [apply bytes_ok_write_u|exact D3]).
  assert (P : exists y, match pi_rich img with [] => Ok (A ++ word (o_nt img) ++ S) | x => b <- p_write_align (A ++ word (o_nt img) ++ S) 4 ;; Ok (b ++ x) end = Ok ((A ++ word (o_nt img) ++ S) ++ y) /\ zlen ((A ++ word (o_nt img) ++ S) ++ y) <= o_nt img /\ bytes_ok y /\ (pi_rich img <> [] -> holds ((A ++ word (o_nt img) ++ S) ++ y) (o_rich img) (pi_rich img))).
  { destruct (pi_rich img) as [|z l] eqn:Er.
    - exists []. rewrite app_nil_r. split; [reflexivity|]. split; [lia|]. split; [constructor|]. congruence.
    - destruct (B3 ltac:(discriminate)) as [B31 B32]. rewrite write_align_ok by (try exact pow2_4; lia). cbn [bind]. rewrite EL. fold (o_rich img). eexists. rewrite <- app_assoc. split; [reflexivity|]. split; [|split].
      + rewrite app_assoc. rewrite !zlen_app in *. rewrite zlen_zeros by lia. lia.
      + apply bytes_ok_app. split; [apply bytes_ok_zeros|exact H4].
      + intros _. exists ((A ++ word (o_nt img) ++ S) ++ zeros (o_rich img - o_stub img)), []. rewrite app_nil_r, <- !app_assoc. split; [reflexivity|]. rewrite zlen_app in EL. rewrite !zlen_app in *. rewrite zlen_zeros by lia. lia. }
  destruct P as (y & -> & P2 & P3 & P4). cbn [bind]. unfold p_write_nt. rewrite En. rewrite pad_until_ok by exact P2. cbn [bind]. unfold p_opt_size. rewrite Ed. change (112 + 8 * pi_ndirs img < 65536) in H7. rewrite (wrap_small (pi_ndirs img)) by lia. unfold pmul, padd.
  destruct (Z.ltb_spec (pi_ndirs img * 8) (2 ^ 32)); [|lia]. cbn [bind]. assert (Eo : opt_size (pc_is64 (pi_cfg img)) = opt_of img) by reflexivity. rewrite Eo. assert (opt_of img = 112 \/ opt_of img = 96) by (unfold opt_of; destruct (pc_is64 _); auto). destruct (Z.ltb_spec (opt_of img + pi_ndirs img * 8) (2 ^ 32)); [|lia]. cbn [bind].
  unfold p_write_sechdrs. rewrite Es, Z.eqb_refl. cbn [negb]. exists (y ++ zeros (o_nt img - zlen ((A ++ word (o_nt img) ++ S) ++ y))). cbv zeta. split; [|split; [|split]].
  - f_equal. unfold nt_enc. replace (opt_of img + 8 * pi_ndirs img) with (opt_of img + pi_ndirs img * 8) by lia. rewrite <- !app_assoc. reflexivity.
  - rewrite !app_assoc. rewrite zlen_app, zlen_zeros; rewrite <- !app_assoc in *; lia.
  - rewrite !app_assoc. rewrite bytes_ok_app. split; [|apply bytes_ok_zeros]. rewrite <- !app_assoc. rewrite (app_assoc A), (app_assoc (A ++ _)), bytes_ok_app. rewrite <- (app_assoc A). split; assumption.
  - intro N. specialize (P4 N). replace (A ++ word (o_nt img) ++ S ++ y ++ zeros (o_nt img - zlen ((A ++ word (o_nt img) ++ S) ++ y))) with (((A ++ word (o_nt img) ++ S) ++ y) ++ zeros (o_nt img - zlen ((A ++ word (o_nt img) ++ S) ++ y))) by (rewrite <- !app_assoc; reflexivity). apply holds_more. exact P4.
Qed.
Lemma reserve_all_eq img : p_reserve_all img = (r <- head_reserved img ;; ' (l, r) <- p_reserve_items (pi_cfg img) r (pi_items img) ;; r <- p_set_all r (pi_sets img) ;; r <- match pi_cert img with Some d => p_reserve_cert r (zlen d) | None => Ok r end ;; Ok (l, r)).
Proof.
  unfold p_reserve_all, head_reserved. cbv zeta. fold (dos_reserved img). destruct (dos_reserved img) as [r0| |]; cbn [bind]; try reflexivity. destruct (p_reserve _ _ _) as [[o r1]| |]; cbn [bind]; try reflexivity.
  destruct (p_reserve_nt _ _ _) as [r2| |]; cbn [bind]; try reflexivity. destruct (p_add_relocs _ _) as [r3| |]; cbn [bind]; reflexivity.
Qed.
Lemma write_all_eq img l r : p_write_all img l r = (b <- head_written img r ;; b <- p_write_items (pi_cfg img) r (combine (pi_items img) l) b ;; match pi_cert img with Some d => p_write_cert r b d | None => Ok b end).
Proof.
  unfold p_write_all, head_written. cbv zeta. match goal with |- bind ?m _ = _ => destruct m as [b0| |] end; cbn [bind]; try reflexivity. match goal with |- bind ?m _ = _ => destruct m as [b1| |] end; cbn [bind]; try reflexivity.
  destruct (p_write_nt _ _ _ _) as [b2| |]; cbn [bind]; reflexivity.
Qed.
