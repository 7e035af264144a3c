(** C89-C93.  Dyld shared caches. *)
From Coq Require Import String.
From Verif Require Import Core_proofs Util_proofs File_proofs Hash_proofs Iter_proofs Rel_proofs Mach_proofs.
From Verif Require Import Fkind_spec.
From Verif Require Import Shc_spec Shc_proofs ShcR_proofs ShcS_proofs ShcA_proofs ShcP_proofs ShcQ_proofs.

(** A cache is parsed if and only if the main file and its subcaches have the layout of a cache, with matching numbers and UUIDs *)
Theorem C89_parse F subs c : file_ok F -> Forall file_ok subs -> shc_parse F subs = Ok c <-> cache_of F subs c.
Proof. apply parse_iff. Qed.
Print Assumptions C89_parse.
Theorem C89_no_panic F subs : shc_parse F subs <> Panic.
Proof. apply parse_np. Qed.
Print Assumptions C89_no_panic.
(** the path of an image is the string at its offset of the main file *)
Theorem C89_path c i p : u32_ok (si_path i) -> image_path c i = Ok p <-> holds (sc_data c) (si_path i) (p ++ [0]) /\ ~ In 0 p.
Proof.
  intro Hi. unfold u32_ok in Hi. unfold image_path. rewrite until_exact by (unfold u64_ok; lia). split.
  - intros (post & H & _ & N). split; [|exact N]. replace (p ++ 0 :: post) with ((p ++ [0]) ++ post) in H by (rewrite <- app_assoc; reflexivity).
    destruct H as (a & c0 & E & L). exists a, (post ++ c0). split; [|exact L]. rewrite E, <- !app_assoc. reflexivity.
  - intros (H & N). pose proof (holds_bounds _ _ _ H) as B. rewrite zlen_app in B. change (zlen [0]) with 1 in B. destruct H as (a & c0 & E & L). exists []. split; [|split; [lia|exact N]]. exists a, c0. split; [exact E|exact L].
Qed.
Print Assumptions C89_path.

(** The suffixes of the files of the subcaches *)
Theorem C90_suffixes F l : file_ok F -> shc_suffixes F = Ok l -> exists a e, 552 <= zlen F /\ magic_at F a e /\ suffixes_at e F l.
Proof. apply suffixes_sound. Qed.
Print Assumptions C90_suffixes.
Theorem C90_total F a e i : file_ok F -> 552 <= zlen F -> magic_at F a e -> subcaches_at e F i -> exists l, shc_suffixes F = Ok l.
Proof. apply suffixes_total. Qed.
Print Assumptions C90_total.
(** a cache that can be parsed has suffixes, one for each of its subcaches, in order *)
Theorem C90_count F subs c : file_ok F -> Forall file_ok subs -> shc_parse F subs = Ok c -> exists l, shc_suffixes F = Ok l /\ zlen l = zlen subs.
Proof.
  intros HF Hs E. apply (parse_iff F subs c HF Hs) in E as (Em & _ & _ & m & fs & infos & sym & _ & (L2 & _) & Ei & Es & F2 & Q). cbn [sf_data] in L2.
  destruct (suffixes_total F _ _ _ HF L2 Em Ei) as (l & El). exists l. split; [exact El|]. apply suffixes_sound in El as (a & e & _ & Em' & infos' & sym' & xs & Ei' & Es' & Q'); [|exact HF].
  destruct (magic_fun _ _ _ _ _ L2 Em Em') as (_ & <-). apply (subcaches_iff _ _ HF L2) in Ei. apply (subcaches_iff _ _ HF L2) in Ei'. assert (infos' = infos) as -> by congruence.
  pose proof Es as Es0. apply (symbols_iff _ _ HF L2) in Es. apply (symbols_iff _ _ HF L2) in Es'. assert (sym' = sym) as -> by congruence. apply (subcaches_iff _ _ HF L2) in Ei.
  assert (Ls : zlen subs = zlen (flat infos) + match sym with Some _ => 1 | None => 0 end).
  { pose proof (F2_zlen _ _ _ F2) as Lf. fold (flat infos) in Lf. destruct sym as [u|]; [destruct Q as (s & _ & _ & ->)|rewrite Q]; rewrite ?zlen_app, zlen_map', Lf; [reflexivity|lia]. }
  destruct infos as [infos|]; cbn [flat] in Ls.
  - destruct Q' as (Lx & _ & ->). rewrite zlen_app, Lx, Ls. destruct sym; reflexivity.
  - rewrite Q', Ls. destruct sym as [u|]; [|reflexivity]. destruct Ei as (h & U & G). destruct Es0 as (h' & U' & G' & _). pose proof (u_at_fun _ _ _ _ _ _ U U'). lia.
Qed.
Print Assumptions C90_count.
Theorem C90_no_panic F : shc_suffixes F <> Panic.
Proof. apply suffixes_np. Qed.
Print Assumptions C90_no_panic.

(** The lookup of an address *)
Theorem C91_address c a d o : shc_offset c a = Some (d, o) <-> cache_offset c a d o.
Proof. apply offset_iff. Qed.
Print Assumptions C91_address.
(** the byte at the offset is the byte of the address in the data of the mapping *)
Theorem C91_byte m d a b : contains m a -> map_data (d, m) = Ok b -> 0 <= sm_offset m -> zlen d < 2 ^ 63 -> zget b (a - sm_address m) = zget d (sm_offset m + (a - sm_address m)).
Proof.
  intros C E Ho L. unfold contains in C. unfold map_data in E. cbn [fst snd] in E. rewrite rr_read_bytes_at_eq in E by lia. destruct (Z.eqb_spec (sm_size m) 0); [lia|]. destruct (Z.leb_spec (sm_offset m + sm_size m) (zlen d)) as [H|H]; [|discriminate E].
  injection E as <-. unfold zslice. rewrite zget_ztake by lia. apply zget_zdrop; lia.
Qed.
Print Assumptions C91_byte.
Theorem C91_image c i d o : image_offset c i = Ok (d, o) <-> cache_offset c (si_address i) d o.
Proof. unfold image_offset. rewrite <- offset_iff. destruct (shc_offset c (si_address i)) as [p|]; cbn [of_opt]; split; intro E; solve [discriminate E|injection E as ->; reflexivity]. Qed.
Print Assumptions C91_image.

(** The slide information of a mapping *)
Theorem C92_slide e F off size s : file_ok F -> 0 <= off -> slide_of e F (off, size) = Ok s <-> slide_at e F off size s.
Proof. apply slide_iff. Qed.
Print Assumptions C92_slide.
(** the relocations that the iteration returns *)
Theorem C92_relocations e F m slid l err : file_ok F -> smap_ok slid m -> masked e F m ->
  (exists it st, map_relocations e (F, m) = Ok it /\ runs (rel_next e F) it l err st) <-> relocs_of e F m l err.
Proof. apply relocs_iff. Qed.
Print Assumptions C92_relocations.
(** The iteration ends: with [None], which it then keeps returning, or with an error, which it then keeps returning as well *)
Theorem C92_total e F m slid it : file_ok F -> smap_ok slid m -> masked e F m -> map_relocations e (F, m) = Ok it ->
  exists l err st, runs (rel_next e F) it l err st /\ rel_next e F st = (if err then Err else Ok None, st).
Proof. intros HF Hm Hk E. destruct (relocs_total e F m slid it HF Hm Hk E) as (l & err & st & _ & R & D). exists l, err, st. auto. Qed.
Print Assumptions C92_total.
Theorem C92_no_panic e x : map_relocations e x <> Panic.
Proof. destruct x as [F m]. unfold map_relocations. destruct (sm_slide m) as [s|]; [|discriminate]. pose proof (slide_np e F s). destruct (slide_of e F s); cbn [bind]; congruence. Qed.
Print Assumptions C92_no_panic.

(** The pointer of a relocation of version 3 or 5 is at its offset in the mapping *)
Theorem C93_places e F m l err o n s : relocs_of e F m l err -> sm_slide m = Some (o, n) -> slide_at e F o n s -> file_ok F -> 0 <= o ->
  match s with
  | SNone => l = []
  | S3 ps add st | S5 ps add st => Forall (fun r => exists v nx, u_at e F (sm_offset m + sr_offset r) 8 v /\
      ptr3 {| g3_v5 := match s with S5 _ _ _ => true | _ => false end; g3_mfo := sm_offset m; g3_page_size := ps; g3_add := add; g3_starts := st |} v nx (sr_value r) (sr_auth r)) l
  | S2 ps mask add st ex => Forall (fun r => exists page v, 0 <= page < zlen st /\ u_at e F (sm_offset m + page * ps + sr_offset r) 8 v /\
      sr_value r = (Z.ldiff v mask + add) mod 2 ^ 64 /\ sr_auth r = None) l
  end.
Proof.
  intros P Es Sl HF Ho. unfold relocs_of in P. rewrite Es in P. destruct P as (s' & Sl' & P). apply (slide_iff e F o n s HF Ho) in Sl. apply (slide_iff e F o n s' HF Ho) in Sl'. assert (s' = s) as -> by congruence.
  destruct s as [|ps mask add st xl|ps add st|ps add st].
  - apply P.
  - apply pages2_places in P; [|lia]. eapply Forall_impl; [|exact P]. intros r (q & Hq & nx & value & (p & k & c & U & _ & _ & _ & _ & Ev) & _ & Er & Ea). cbn [g2_page_size g2_mfo g2_mask g2_add] in *.
    exists q, p. split; [lia|]. split; [exact U|]. split; [rewrite Er, Ev; reflexivity|exact Ea].
  - apply pages3_places in P. eapply Forall_impl; [|exact P]. intros r (nx & v & U & Pt & _). exists v, nx. split; [exact U|exact Pt].
  - apply pages3_places in P. eapply Forall_impl; [|exact P]. intros r (nx & v & U & Pt & _). exists v, nx. split; [exact U|exact Pt].
Qed.
Print Assumptions C93_places.

(** * Examples *)
Definition overlay (F : bytes) (x : Z * bytes) : bytes := ztake (fst x) F ++ snd x ++ zdrop (fst x + zlen (snd x)) F.
Definition ex_hdr (l : list (Z * bytes)) : bytes := fold_left overlay l (zeros 552).
Definition w4 := write_u Little 4.
Definition w8 := write_u Little 8.
Definition ex_magic : bytes := chars "dyld_v1   arm64"%string ++ [0].
Definition ex_u1 : bytes := map (fun _ => 1) (zeros 16).
Definition ex_u2 : bytes := map (fun _ => 2) (zeros 16).
Definition ex_m1 : smap := {| sm_address := 0x1000; sm_size := 8; sm_offset := 0; sm_slide := Some (0, 0); sm_flags := 0; sm_max := 5; sm_init := 5 |}.
Definition ex_m2 : smap := {| sm_address := 0x2000; sm_size := 16; sm_offset := 608; sm_slide := Some (624, 26); sm_flags := 1; sm_max := 3; sm_init := 3 |}.
Definition ex_sub : ssub := {| su_uuid := ex_u2; su_vm := 0x1000; su_suffix := Some (chars ".01"%string ++ zeros 29) |}.
Definition ex_im : simage := {| si_address := 0x2008; si_mod_time := 0; si_inode := 0; si_path := 696; si_pad := 0 |}.
Definition ex_F : bytes := Eval vm_compute in
  ex_hdr [(0, ex_magic); (16, w4 0x1d0); (312, w4 552 ++ w4 1); (392, w4 608 ++ w4 1); (400, ex_u1); (448, w4 664 ++ w4 1)] ++
  smap_enc Little ex_m1 ++ ssub_enc Little ex_sub ++ simage_enc Little ex_im ++ chars "libA"%string ++ [0].
(** a plain pointer to 0x1000, 8 bytes before one that is authenticated *)
Definition ex_S : bytes := Eval vm_compute in
  ex_hdr [(0, ex_magic); (16, w4 0x1d0); (88, ex_u2); (312, w4 552 ++ w4 1)] ++ smap_enc Little ex_m2 ++
  w8 (0x1000 + 2 ^ 51) ++ w8 (0x30 + 7 * 2 ^ 32 + 2 ^ 48 + 2 * 2 ^ 49 + 2 ^ 63) ++ w4 3 ++ w4 16 ++ w4 1 ++ w4 0 ++ w8 0x1000 ++ [0; 0].
Definition ex_Y : bytes := Eval vm_compute in ex_hdr [(0, ex_magic); (16, w4 0x1d0); (88, ex_u1); (312, w4 552)].
Definition ex_cache : shc :=
  {| sc_endian := Little; sc_data := ex_F; sc_files := [{| sf_data := ex_F; sf_maps := [ex_m1] |}; {| sf_data := ex_S; sf_maps := [ex_m2] |}]; sc_images := [ex_im]; sc_arch := AAarch64 |}.
Example C89_ex : shc_parse ex_F [ex_S; ex_Y] = Ok ex_cache /\ shc_parse ex_F [ex_Y; ex_S] = Err /\ shc_parse ex_F [ex_S] = Err /\ image_path ex_cache ex_im = Ok (chars "libA"%string).
Proof. vm_compute. repeat split; reflexivity. Qed.
Lemma ex_files_ok : file_ok ex_F /\ Forall file_ok [ex_S; ex_Y].
Proof. split; [split; [apply bytes_ok_forallb; vm_compute; reflexivity|vm_compute; reflexivity]|]. constructor; [|constructor; [|constructor]]; (split; [apply bytes_ok_forallb; vm_compute; reflexivity|vm_compute; reflexivity]). Qed.
Example C89_ex_hyps : cache_of ex_F [ex_S; ex_Y] ex_cache /\ file_ok ex_F /\ Forall file_ok [ex_S; ex_Y] /\ u32_ok (si_path ex_im).
Proof. split; [apply C89_parse; [apply ex_files_ok|apply ex_files_ok|apply C89_ex]|]. split; [apply ex_files_ok|]. split; [apply ex_files_ok|]. vm_compute. split; [intro H; discriminate H|reflexivity]. Qed.
Example C90_ex : shc_suffixes ex_F = Ok [chars ".01"%string; chars ".symbols"%string] /\ dot_number 120 = chars ".120"%string.
Proof. vm_compute. split; reflexivity. Qed.
Example C90_ex_hyps : file_ok ex_F /\ shc_parse ex_F [ex_S; ex_Y] = Ok ex_cache.
Proof. split; [apply ex_files_ok|apply C89_ex]. Qed.
Example C91_ex : shc_offset ex_cache 0x2008 = Some (ex_S, 616) /\ shc_offset ex_cache 0x1007 = Some (ex_F, 7) /\ shc_offset ex_cache 0x1008 = None /\ image_offset ex_cache ex_im = Ok (ex_S, 616).
Proof. vm_compute. repeat split; reflexivity. Qed.
Example C91_ex_hyps : contains ex_m2 0x2008 /\ exists b, map_data (ex_S, ex_m2) = Ok b /\ zlen b = 16.
Proof. split; [vm_compute; split; [intro H; discriminate H|reflexivity]|]. eexists. split; [vm_compute; reflexivity|reflexivity]. Qed.
Definition ex_pull {S A} (next : S -> out (option A) * S) (m : out S) : list (option A) :=
  match m with
  | Ok st => let fix go (n : nat) st := match n with O => [] | Datatypes.S n => match next st with (Ok (Some x), st) => Some x :: go n st | (Ok None, _) => [] | (_, st) => None :: go n st end end in go 8%nat st
  | _ => []
  end.
Example C92_ex : slide_of Little ex_S (624, 26) = Ok (S3 16 0x1000 [0]) /\ ex_pull (rel_next Little ex_S) (map_relocations Little (ex_S, ex_m2)) =
  [Some {| sr_offset := 0; sr_value := 0x1000; sr_auth := None |}; Some {| sr_offset := 8; sr_value := 0x1030; sr_auth := Some {| fa_key := 2; fa_diversity := 7; fa_addr_div := true |} |}].
Proof. vm_compute. split; reflexivity. Qed.
Example C92_ex_hyps : file_ok ex_S /\ smap_ok true ex_m2 /\ masked Little ex_S ex_m2.
Proof.
  split; [exact (Forall_inv (proj2 ex_files_ok))|]. split; [vm_compute; repeat split; intro H; discriminate H|].
  intros o n ps add st xl E H. injection E as <- <-. apply slide_iff in H; [|exact (Forall_inv (proj2 ex_files_ok))|lia]. rewrite (proj1 C92_ex) in H. discriminate H.
Qed.
(** Version 2: two pages of 8 bytes, each with a pointer at its start *)
Definition ex_v2 (mask : Z) : bytes := w8 0x1111 ++ w8 0x2222 ++ w4 2 ++ w4 8 ++ w4 40 ++ w4 2 ++ w4 44 ++ w4 0 ++ w8 mask ++ w8 0 ++ [0; 0; 0; 0].
Definition ex_mv : smap := {| sm_address := 0x2000; sm_size := 16; sm_offset := 0; sm_slide := Some (16, 44); sm_flags := 1; sm_max := 3; sm_init := 3 |}.
Definition ex_mask : Z := 0x00ffff0000000000.
(** The offset of a relocation of version 2 is not the offset of the pointer within the mapping: it does not count the pages before *)
Theorem C93_page_refuted : ex_pull (rel_next Little (ex_v2 ex_mask)) (map_relocations Little (ex_v2 ex_mask, ex_mv)) =
  [Some {| sr_offset := 0; sr_value := 0x1111; sr_auth := None |}; Some {| sr_offset := 0; sr_value := 0x2222; sr_auth := None |}].
Proof. vm_compute. reflexivity. Qed.
Print Assumptions C93_page_refuted.
(** and the iteration of version 2 panics (in a build that checks for overflow) if the mask is zero *)
Theorem C92_mask_refuted : exists it, map_relocations Little (ex_v2 0, ex_mv) = Ok it /\ fst (rel_next Little (ex_v2 0) it) = Panic.
Proof. eexists. split; [vm_compute; reflexivity|vm_compute; reflexivity]. Qed.
Print Assumptions C92_mask_refuted.
Example C93_ex : slide_of Little (ex_v2 ex_mask) (16, 44) = Ok (S2 8 ex_mask 0 [0; 0] []).
Proof. vm_compute. reflexivity. Qed.
Example C93_ex_hyps : exists l err, relocs_of Little ex_S ex_m2 l err /\ sm_slide ex_m2 = Some (624, 26) /\ slide_at Little ex_S 624 26 (S3 16 0x1000 [0]) /\ l <> [].
Proof.
  destruct C92_ex_hyps as (HF & Hm & Hk). destruct (map_relocations Little (ex_S, ex_m2)) as [it| |] eqn:E; [|exfalso; vm_compute in E; discriminate E|exfalso; exact (C92_no_panic _ _ E)].
  destruct (C92_total _ _ _ _ it HF Hm Hk E) as (l & err & st & R & _). exists l, err. split; [apply (C92_relocations _ _ _ true); [exact HF|exact Hm|exact Hk|]; exists it, st; auto|]. split; [reflexivity|].
  split; [apply slide_iff; [exact HF|lia|apply C92_ex]|]. intros ->. pose proof (proj2 C92_ex) as Q. rewrite E in Q. inversion R as [? ? N|? ? N|]; subst; cbn [ex_pull] in Q; rewrite N in Q; discriminate Q.
Qed.
