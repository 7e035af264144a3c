(** Proofs about the Mach-O reader: load commands, section offsets, names, function starts. *)
From Verif Require Import Base Core_proofs Util_proofs Pod_proofs File_proofs Hash_proofs Rel_proofs Ar_proofs Trie_proofs Coff_spec CoffI_proofs Elf_proofs.
From Verif Require Import Mach_spec.
From Verif Require PeI_proofs ElfR_proofs.

(** a structure is the concatenation of its fields *)
Ltac pod_join :=
  repeat match goal with
  | |- context [write_u ?e ?n (read_u ?e (zslice ?o ?k ?b))] =>
    rewrite (write_read_n e n (zslice o k b)) by (first [apply bytes_ok_zslice; assumption|rewrite zlen_zslice by lia; reflexivity])
  end;
  repeat match goal with
  | |- context [zslice ?o ?n ?b ++ zslice ?p ?m ?b] =>
    let k := eval compute in (n + m) in
    replace (zslice o n b ++ zslice p m b) with (zslice o k b) by (symmetry; apply (PeI_proofs.zslice_join o n m b); lia)
  end.

(** * Load commands *)
Lemma command_ge8 e b cmd : command e b cmd -> 8 <= zlen b.
Proof. intros (body & E & _). apply (f_equal zlen) in E. rewrite !zlen_app, !zlen_write_u in E. pose proof (zlen_nonneg body). lia. Qed.
Definition cmd_here (e : endian) (D : bytes) : bool := (8 <=? zlen D) && (8 <=? fld e 4 4 D) && (fld e 4 4 D <=? zlen D).
Lemma command_iff e D b tl cmd : bytes_ok D -> D = b ++ tl /\ command e b cmd <->
  cmd_here e D = true /\ cmd = fld e 0 4 D /\ b = ztake (fld e 4 4 D) D /\ tl = zdrop (fld e 4 4 D) D.
Proof.
  intros HD. unfold cmd_here. split.
  - intros (-> & C). pose proof (command_ge8 _ _ _ C) as H8. destruct C as (body & E & (? & ?) & (? & ?)).
    assert (F : fld e 4 4 (b ++ tl) = zlen b).
    { rewrite E at 1. rewrite <- !app_assoc. rewrite fld_skip by lia. apply fld_hd; [reflexivity|]. change (2 ^ (8 * 4)) with (2 ^ 32). lia. }
    assert (G : fld e 0 4 (b ++ tl) = cmd).
    { rewrite E at 1. rewrite <- !app_assoc. apply fld_hd; [reflexivity|]. change (2 ^ (8 * 4)) with (2 ^ 32). lia. }
    rewrite F, G, zlen_app. pose proof (zlen_nonneg tl). repeat split; [lia| |]; [rewrite ztake_app_eq by reflexivity|rewrite zdrop_app_eq by reflexivity]; reflexivity.
  - intros (C & -> & -> & ->). split; [symmetry; apply ztake_zdrop|].
    assert (B : 0 <= fld e 4 4 D < 2 ^ 32) by (apply (fld_bound e 4 4); auto; lia).
    assert (B0 : 0 <= fld e 0 4 D < 2 ^ 32) by (apply (fld_bound e 0 4); auto; lia).
    assert (L : zlen (ztake (fld e 4 4 D) D) = fld e 4 4 D) by (apply zlen_ztake; lia).
    exists (zslice 8 (fld e 4 4 D - 8) D). split; [|split; unfold u32_ok; lia].
    rewrite L. unfold fld at 2 3. rewrite !write_read_n by (try apply bytes_ok_zslice; auto; rewrite zlen_zslice; lia).
    pose proof (PeI_proofs.zslice_join 0 4 4 D ltac:(lia) ltac:(lia) ltac:(lia) ltac:(lia)) as J1. cbn [Z.add Pos.add Pos.succ] in J1.
    pose proof (PeI_proofs.zslice_join 0 8 (fld e 4 4 D - 8) D ltac:(lia) ltac:(lia) ltac:(lia) ltac:(lia)) as J2.
    rewrite app_assoc, J1. change (0 + 8) with 8 in J2. rewrite J2.
    replace (8 + (fld e 4 4 D - 8)) with (fld e 4 4 D) by lia. reflexivity.
Qed.

Lemma starts_iff e D : bytes_ok D -> starts_command e D <-> cmd_here e D = true.
Proof.
  intros HD. split; [intros (b & cmd & tl & E & C); apply (proj1 (command_iff e D b tl cmd HD) (conj E C))|].
  intros C. exists (ztake (fld e 4 4 D) D), (fld e 0 4 D), (zdrop (fld e 4 4 D) D). apply command_iff; auto.
Qed.
Lemma lc_parse_eq e s : bytes_ok (li_data s) -> 0 <= li_offset s -> li_offset s + zlen (li_data s) < 2 ^ 64 ->
  (cmd_here e (li_data s) = true ->
    lc_parse e s = (Ok {| lc_cmd := fld e 0 4 (li_data s); lc_offset := li_offset s; lc_data := ztake (fld e 4 4 (li_data s)) (li_data s) |},
      {| li_data := zdrop (fld e 4 4 (li_data s)) (li_data s); li_ncmds := li_ncmds s; li_offset := li_offset s + fld e 4 4 (li_data s) |})) /\
  (cmd_here e (li_data s) = false -> exists s', lc_parse e s = (Err, s')).
Proof.
  intros HD Ho Hl. unfold cmd_here, lc_parse. destruct s as [D n off]. cbn [li_data li_ncmds li_offset] in *.
  rewrite b_read_at_eq by lia. cbn [Z.add].
  assert (B : 0 <= fld e 4 4 D < 2 ^ 32) by (apply (fld_bound e 4 4); auto; lia).
  destruct (8 <=? zlen D) eqn:E8; [|split; [intros C; discriminate C|eauto]].
  assert (F4 : fld e 4 4 (zslice 0 8 D) = fld e 4 4 D) by (rewrite fld_zslice by lia; reflexivity).
  assert (F0 : fld e 0 4 (zslice 0 8 D) = fld e 0 4 D) by (rewrite fld_zslice by lia; reflexivity).
  rewrite F4, F0. replace (fld e 4 4 D <? 8) with (negb (8 <=? fld e 4 4 D)) by lia.
  destruct (8 <=? fld e 4 4 D) eqn:E9; cbn [negb andb]; [|split; [intros C; discriminate C|eauto]].
  unfold b_read_bytes, get_to, get_from. 
  split; intros C.
  - rewrite C. replace (0 <=? fld e 4 4 D) with true by lia. cbn [andb].
    unfold padd. replace (off + fld e 4 4 D <? 2 ^ 64) with true by lia. reflexivity.
  - rewrite C, andb_false_r. eauto.
Qed.
Lemma bytes_ok_split a b : bytes_ok (a ++ b) -> bytes_ok a /\ bytes_ok b.
Proof. apply bytes_ok_app. Qed.
Definition lc_at (D : bytes) (n off : Z) : lcit := {| li_data := D; li_ncmds := n; li_offset := off |}.
Lemma commands_runs e off l D rest : commands e off l D rest -> bytes_ok D -> 0 <= off -> off + zlen D < 2 ^ 64 -> forall n c,
  0 <= n -> (if c : bool then zlen l = n else zlen l < n /\ ~ starts_command e rest) ->
  exists s', runs (lc_next e) (lc_at D n off) l (negb c) s' /\ li_ncmds s' = 0.
Proof.
  induction 1 as [off D|off x l D rest C Eo _ IH]; intros HD Ho Hl n c Hn Hc.
  - change (zlen (@nil lcmd)) with 0 in Hc. destruct c; cbn [negb].
    + exists (lc_at D n off). subst n. split; [|reflexivity]. apply runs_done. reflexivity.
    + destruct Hc as (Hn' & Hs). destruct (lc_parse_eq e (lc_at D n off) HD Ho Hl) as (_ & P). cbn [li_data lc_at] in P.
      rewrite (starts_iff e D HD) in Hs. destruct (P ltac:(destruct (cmd_here e D); congruence)) as (s' & P').
      exists (lc_set_ncmds s' 0). split; [|reflexivity]. apply runs_err. unfold lc_next. cbn [li_ncmds lc_at]. replace (n =? 0) with false by lia.
      rewrite P'. reflexivity.
  - destruct (proj1 (command_iff e (lc_data x ++ D) (lc_data x) D (lc_cmd x) HD) (conj eq_refl C)) as (Ch & E1 & E2 & E3).
    pose proof (command_ge8 _ _ _ C) as H8. apply bytes_ok_app in HD as HD'. destruct HD' as (HX & HD').
    rewrite zlen_app in Hl. rewrite zlen_cons in Hc. pose proof (zlen_nonneg l).
    assert (0 < n) by (destruct c; lia).
    destruct (IH HD' ltac:(lia) ltac:(lia) (n - 1) c ltac:(lia)) as (s' & R & Z0).
    { destruct c; [lia|destruct Hc; split; [lia|assumption]]. }
    exists s'. split; [|exact Z0]. eapply runs_more; [|exact R].
    unfold lc_next. cbn [li_ncmds lc_at]. replace (n =? 0) with false by lia.
    destruct (lc_parse_eq e (lc_at (lc_data x ++ D) n off) HD Ho ltac:(cbn [li_data li_offset lc_at]; rewrite zlen_app; lia)) as (P & _).
    cbn [li_data lc_at] in P. rewrite (P Ch). cbn [li_data li_offset li_ncmds lc_at]. rewrite <- E1, <- E2, <- E3.
    assert (L : fld e 4 4 (lc_data x ++ D) = zlen (lc_data x)).
    { apply (f_equal zlen) in E2. unfold cmd_here in Ch. rewrite zlen_ztake in E2; [lia|lia]. }
    rewrite L. subst off. destruct x. reflexivity.
Qed.
Lemma readable_total e D n off : bytes_ok D -> 0 <= n -> exists l c, readable e n off D l c.
Proof.
  intros HD Hn. rewrite <- (Z2Nat.id n Hn). clear Hn. revert D HD off. induction (Z.to_nat n) as [|k IH]; intros D HD off.
  - exists [], true, D. split; [constructor|reflexivity].
  - destruct (cmd_here e D) eqn:C.
    + destruct (proj2 (starts_iff e D HD) C) as (b & cmd & tl & -> & Cm). apply bytes_ok_app in HD as HD'. destruct HD' as (_ & Ht).
      destruct (IH tl Ht (off + zlen b)) as (l & c & rest & Hc & He).
      exists ({| lc_cmd := cmd; lc_offset := off; lc_data := b |} :: l), c, rest. split.
      * apply (cmds_cons e off {| lc_cmd := cmd; lc_offset := off; lc_data := b |}); [exact Cm|reflexivity|exact Hc].
      * rewrite zlen_cons. destruct c; [lia|destruct He; split; [lia|assumption]].
    + exists [], false, D. split; [constructor|]. change (zlen (@nil lcmd)) with 0. split; [lia|].
      rewrite (starts_iff e D HD). congruence.
Qed.
Lemma lc_iff e D n off l err : bytes_ok D -> 0 <= n -> 0 <= off -> off + zlen D < 2 ^ 64 ->
  (exists s', runs (lc_next e) (lc_at D n off) l err s') <-> readable e n off D l (negb err).
Proof.
  intros HD Hn Ho Hl. split.
  - intros (s' & R). destruct (readable_total e D n off HD Hn) as (l' & c & Rd). destruct Rd as (rest & Cm & Hc).
    destruct (commands_runs e off l' D rest Cm HD Ho Hl n c Hn Hc) as (s2 & R2 & _).
    destruct (runs_det _ _ _ _ _ R _ _ _ R2) as (-> & -> & _). rewrite negb_involutive. exists rest. auto.
  - intros (rest & Cm & Hc). destruct (commands_runs e off l D rest Cm HD Ho Hl n _ Hn Hc) as (s2 & R2 & _). rewrite negb_involutive in R2. eauto.
Qed.
Lemma lc_total e D n off : bytes_ok D -> 0 <= n -> 0 <= off -> off + zlen D < 2 ^ 64 ->
  exists l err s', runs (lc_next e) (lc_at D n off) l err s' /\ lc_next e s' = (Ok None, s') /\ zlen l <= n.
Proof.
  intros HD Hn Ho Hl. destruct (readable_total e D n off HD Hn) as (l & c & rest & Cm & Hc).
  destruct (commands_runs e off l D rest Cm HD Ho Hl n c Hn Hc) as (s' & R & Z0). exists l, (negb c), s'. split; [exact R|]. split.
  - unfold lc_next. rewrite Z0. reflexivity.
  - destruct c; lia.
Qed.

(** * Arrays of structures *)
Lemma slice_iff F o n k cs : zlen F < 2 ^ 64 -> 0 <= o -> 0 < n -> 0 <= k ->
  rr_read_slice_at F o n k = Ok cs <-> zlen cs = k /\ Forall (fun c => zlen c = n) cs /\ (cs <> [] -> holds F o (concat cs)).
Proof.
  intros HF Ho Hn Hk. destruct (Z.eqb_spec k 0) as [->|Hk0].
  - assert (E : rr_read_slice_at F o n 0 = Ok []).
    { unfold rr_read_slice_at, rr_read_slice, cmul, rr_read_bytes, rr_read_bytes_at. cbn [Z.mul]. change (0 <? 2 ^ 64) with true. cbn [Z.eqb].
      unfold slice_from_bytes, cmul. cbn [Z.mul]. change (0 <? 2 ^ 64) with true. reflexivity. }
    rewrite E. split; [intros [= <-]; repeat split; [constructor|congruence]|]. intros (L & _). apply zlen_0_nil in L. subst cs. reflexivity.
  - split.
    + rewrite rr_read_slice_at_eq by lia. destruct (Z.leb_spec (o + k * n) (zlen F)); [|discriminate]. intros [= <-].
      destruct (chunks_concat n (Z.to_nat k) (zdrop o F)) as (C1 & C2 & C3); [lia|rewrite Z2Nat.id, zlen_zdrop by lia; lia|].
      rewrite zlen_chunks, Z2Nat.id by lia. split; [lia|]. split; [exact C2|]. intros _. rewrite C1, Z2Nat.id by lia.
      apply holds_zslice; nia.
    + intros (L & Fc & Hh). apply holds_slice_at; [|exact Fc|lia|lia|lia]. apply Hh. intros ->. cbn in L. lia.
Qed.
Lemma array_iff {A} (dec : bytes -> A) (enc : A -> bytes) (ok : A -> Prop) F o n k xs :
  bytes_ok F -> zlen F < 2 ^ 64 -> 0 <= o -> 0 < n -> 0 <= k ->
  (forall b, zlen b = n -> bytes_ok b -> ok (dec b) /\ enc (dec b) = b) -> (forall x, ok x -> zlen (enc x) = n /\ dec (enc x) = x) ->
  (l <- rr_read_slice_at F o n k ;; Ok (map dec l)) = Ok xs <-> zlen xs = k /\ Forall ok xs /\ (xs <> [] -> holds F o (concat (map enc xs))).
Proof.
  intros HB HF Ho Hn Hk HD HE. split.
  - destruct (rr_read_slice_at F o n k) as [cs| |] eqn:E; cbn [bind]; try discriminate. intros [= <-].
    apply slice_iff in E as (L & Fc & Hh); [|lia..].
    assert (Fb : Forall bytes_ok cs).
    { destruct cs as [|c cs]; [constructor|]. apply bytes_ok_concat. destruct (Hh ltac:(discriminate)) as (a & c' & -> & _).
      apply bytes_ok_app in HB as (_ & HB). apply bytes_ok_app in HB as (HB & _). exact HB. }
    assert (Me : map enc (map dec cs) = cs).
    { rewrite map_map. rewrite <- (map_id cs) at 2. apply map_ext_in. intros c Hc. apply HD; [apply (proj1 (Forall_forall _ _) Fc c Hc)|apply (proj1 (Forall_forall _ _) Fb c Hc)]. }
    split; [rewrite zlen_map; exact L|]. split.
    + apply Forall_map. apply Forall_forall. intros c Hc. apply HD; [apply (proj1 (Forall_forall _ _) Fc c Hc)|apply (proj1 (Forall_forall _ _) Fb c Hc)].
    + rewrite Me. intros Hn'. apply Hh. intros ->. apply Hn'. reflexivity.
  - intros (L & Fo & Hh). assert (E : rr_read_slice_at F o n k = Ok (map enc xs)).
    { apply slice_iff; [lia..|]. rewrite zlen_map. split; [exact L|]. split.
      - apply Forall_map. eapply Forall_impl; [|exact Fo]. intros x Hx. apply HE, Hx.
      - intros Hn'. apply Hh. intros ->. apply Hn'. reflexivity. }
    rewrite E. cbn [bind]. f_equal. rewrite map_map. rewrite <- (map_id xs) at 2. apply map_ext_in. intros x Hx.
    apply HE. apply (proj1 (Forall_forall _ _) Fo x Hx).
Qed.
Lemma array_no_panic {A} (dec : bytes -> A) F o n k : (l <- rr_read_slice_at F o n k ;; Ok (map dec l)) <> Panic.
Proof. pose proof (rr_read_slice_no_panic F o n k). unfold rr_read_slice_at in *. destruct (fst (rr_read_slice F o n k)); cbn [bind]; congruence. Qed.

(** * Structures *)
Lemma zlen_mach_seg is64 e sz g : zlen (g_name g) = 16 -> zlen (mach_seg is64 e sz g) = seg_size is64.
Proof. intros H. unfold mach_seg, word. destruct is64; repeat rewrite zlen_app; repeat rewrite zlen_write_u; rewrite H; reflexivity. Qed.
Ltac fbounds e b :=
  repeat match goal with
  | |- u32_ok (fld e ?o 4 b) => apply (fld_bound e o 4); [assumption|lia|lia]
  | |- u16_ok (fld e ?o 2 b) => apply (fld_bound e o 2); [assumption|lia|lia]
  | |- 0 <= fld e ?o 1 b < 256 => apply (fld_bound e o 1); [assumption|lia|lia]
  | |- mword_ok true (fld e ?o 8 b) => apply (fld_bound e o 8); [assumption|lia|lia]
  | |- mword_ok false (fld e ?o 4 b) => apply (fld_bound e o 4); [assumption|lia|lia]
  | |- bytes_ok (zslice _ _ b) => apply bytes_ok_zslice; assumption
  | |- zlen (zslice _ _ b) = _ => apply zlen_zslice; lia
  | |- _ /\ _ => split
  end.
Lemma mseg_of_dec is64 e b : zlen b = seg_size is64 -> bytes_ok b -> fld e 0 4 b = (if is64 then 0x19 else 1) ->
  seg_ok is64 (mseg_of is64 e b) /\ mach_seg is64 e (fld e 4 4 b) (mseg_of is64 e b) = b.
Proof.
  intros L B C. split.
  - unfold seg_ok, mseg_of. destruct is64; cbn [seg_size] in L; cbn [g_name g_vmaddr g_vmsize g_fileoff g_filesize g_maxprot g_initprot g_nsects g_flags]; fbounds e b.
  - unfold mach_seg, word. rewrite <- C. unfold mseg_of. destruct is64; cbn [seg_size] in L; cbn [g_name g_vmaddr g_vmsize g_fileoff g_filesize g_maxprot g_initprot g_nsects g_flags]; unfold fld; pod_join; apply zslice_all; lia.
Qed.
Lemma mseg_of_enc is64 e sz g tl : u32_ok sz -> seg_ok is64 g -> mseg_of is64 e (mach_seg is64 e sz g ++ tl) = g.
Proof.
  intros Hs (L & _ & H1 & H2 & H3 & H4 & H5 & H6 & H7 & H8). unfold mseg_of, mach_seg, word, mword_ok, u32_ok in *. destruct g as [nm a b c d mp ip ns fl]. cbn [g_name g_vmaddr g_vmsize g_fileoff g_filesize g_maxprot g_initprot g_nsects g_flags] in *.
  destruct is64; rewrite <- !app_assoc.
  - f_equal; [|repeat (first [rewrite fld_skip by lia|rewrite (fld_skip_app _ _ _ 16 nm) by lia|idtac]); apply fld_hd; [reflexivity|]; assumption..].
    rewrite app_assoc. apply zslice_app_eq; [rewrite zlen_app, !zlen_write_u; reflexivity|lia].
  - f_equal; [|repeat (first [rewrite fld_skip by lia|rewrite (fld_skip_app _ _ _ 16 nm) by lia|idtac]); apply fld_hd; [reflexivity|]; assumption..].
    rewrite app_assoc. apply zslice_app_eq; [rewrite zlen_app, !zlen_write_u; reflexivity|lia].
Qed.
Ltac xs_red := cbn [x_sectname x_segname x_addr x_size x_offset x_align x_reloff x_nreloc x_flags x_reserved1 x_reserved2 x_reserved3] in *.
Lemma msec_of_dec is64 e b : zlen b = mach_sec_size is64 -> bytes_ok b -> msec_ok is64 (msec_of is64 e b) /\ mach_sec is64 e (msec_of is64 e b) = b.
Proof.
  intros L B. split.
  - unfold msec_ok, msec_of. destruct is64; cbn [mach_sec_size] in L; xs_red; fbounds e b. reflexivity.
  - unfold mach_sec, word, msec_of. destruct is64; cbn [mach_sec_size] in L; xs_red; unfold fld; rewrite ?app_nil_r; pod_join; apply zslice_all; lia.
Qed.
Lemma zlen_mach_sec is64 e s : msec_ok is64 s -> zlen (mach_sec is64 e s) = mach_sec_size is64.
Proof. intros (L1 & _ & L2 & _). unfold mach_sec, word. destruct is64; repeat rewrite zlen_app; repeat rewrite zlen_write_u; rewrite L1, L2; reflexivity. Qed.
Lemma msec_of_enc is64 e s : msec_ok is64 s -> zlen (mach_sec is64 e s) = mach_sec_size is64 /\ msec_of is64 e (mach_sec is64 e s) = s.
Proof.
  intros H. split; [apply zlen_mach_sec; exact H|]. destruct H as (L1 & _ & L2 & _ & H1 & H2 & H3 & H4 & H5 & H6 & H7 & H8 & H9 & H10).
  unfold msec_of, mach_sec, word, mword_ok, u32_ok in *. destruct s as [nm sg a b c d ro nr fl r1 r2 r3]. xs_red.
  destruct is64.
  - f_equal; [| |repeat (first [rewrite fld_skip by lia|rewrite (fld_skip_app _ _ _ 16 nm) by lia|rewrite (fld_skip_app _ _ _ 16 sg) by lia|idtac]); first [apply fld_hd|apply fld_hd1]; [reflexivity|]; assumption..].
    + apply (zslice_app_eq 0 16 []); [reflexivity|lia].
    + apply zslice_app_eq; lia.
  - rewrite app_nil_r. subst r3. f_equal; [| |repeat (first [rewrite fld_skip by lia|rewrite (fld_skip_app _ _ _ 16 nm) by lia|rewrite (fld_skip_app _ _ _ 16 sg) by lia|idtac]); first [apply fld_hd|apply fld_hd1]; [reflexivity|]; assumption..].
    + apply (zslice_app_eq 0 16 []); [reflexivity|lia].
    + apply zslice_app_eq; lia.
Qed.
Lemma fld1_slice e o b : bytes_ok b -> 0 <= o -> o + 1 <= zlen b -> [fld e o 1 b] = zslice o 1 b.
Proof.
  intros B Ho L. pose proof (pod_field e o 1 b B Ho L) as P. change (Z.of_nat 1) with 1 in P.
  rewrite (zdrop_zslice b o 1) in P by lia. apply app_inv_tail in P. rewrite P.
  pose proof (fld_bound e o 1 b B Ho ltac:(lia)) as Bd. change (2 ^ (8 * 1)) with 256 in Bd. generalize dependent (fld e o 1 b). intros v _ Bd.
  destruct e; cbn; rewrite Z.mod_small by lia; reflexivity.
Qed.
Lemma nlist_of_dec is64 e b : zlen b = nlist_size is64 -> bytes_ok b -> nlist_ok is64 (nlist_of is64 e b) /\ mach_nlist is64 e (nlist_of is64 e b) = b.
Proof.
  intros L B. split.
  - unfold nlist_ok, nlist_of. destruct is64; cbn [nlist_size] in L; cbn [n_strx n_type n_sect n_desc n_value]; fbounds e b.
  - unfold mach_nlist, word, nlist_of. cbn [n_strx n_type n_sect n_desc n_value]. rewrite !fld1_slice by (try assumption; destruct is64; cbn in L; lia). unfold fld.
    destruct is64; cbn [nlist_size] in L; pod_join; apply zslice_all; lia.
Qed.
Lemma nlist_of_enc is64 e s : nlist_ok is64 s -> zlen (mach_nlist is64 e s) = nlist_size is64 /\ nlist_of is64 e (mach_nlist is64 e s) = s.
Proof.
  intros (H1 & H2 & H3 & H4 & H5). unfold nlist_of, mach_nlist, word, mword_ok, u32_ok, u16_ok in *. destruct s as [a b c d v]. cbn [n_strx n_type n_sect n_desc n_value] in *.
  split; [rewrite !zlen_app, !zlen_write_u; destruct is64; reflexivity|].
  assert (W : forall x, 0 <= x < 256 -> [x] = write_u e 1 x) by (intros x Hx; destruct e; cbn; rewrite Z.mod_small by lia; reflexivity).
  rewrite (W b), (W c) by lia. f_equal.
  - apply fld_hd; [reflexivity|assumption].
  - rewrite fld_skip by lia. apply fld_hd; [reflexivity|assumption].
  - rewrite !fld_skip by lia. apply fld_hd; [reflexivity|assumption].
  - rewrite !fld_skip by lia. apply fld_hd; [reflexivity|assumption].
  - rewrite !fld_skip by lia. destruct is64; apply fld_hd1; [reflexivity|assumption|reflexivity|assumption].
Qed.
(** header *)
Definition mhdr_of (e : endian) (b : bytes) : mhdr :=
  {| mh_cpu := mh_cputype e b; mh_sub := mh_cpusubtype e b; mh_file := mh_filetype e b; mh_n := mh_ncmds e b; mh_sz := mh_sizeofcmds e b; mh_fl := mh_flags e b |}.
Lemma hdr_dec is64 e b : zlen b = mach_header_size is64 -> bytes_ok b -> mh_magic b = magic is64 e ->
  mhdr_ok (mhdr_of e b) /\ mach_hdr is64 e (mhdr_of e b) (if is64 then zslice 28 4 b else []) = b.
Proof.
  intros L B M. split.
  - unfold mhdr_ok, mhdr_of, mh_cputype, mh_cpusubtype, mh_filetype, mh_ncmds, mh_sizeofcmds, mh_flags. cbn [mh_cpu mh_sub mh_file mh_n mh_sz mh_fl]. fbounds e b.
  - unfold mach_hdr, mhdr_of, mh_cputype, mh_cpusubtype, mh_filetype, mh_ncmds, mh_sizeofcmds, mh_flags. cbn [mh_cpu mh_sub mh_file mh_n mh_sz mh_fl].
    rewrite <- M. unfold mh_magic, fld. destruct is64; cbn [mach_header_size] in L; rewrite ?app_nil_r; pod_join; apply zslice_all; lia.
Qed.
Lemma hdr_enc is64 e h r : mhdr_ok h -> mhdr_of e (mach_hdr is64 e h r) = h /\ mh_magic (mach_hdr is64 e h r) = magic is64 e.
Proof.
  intros (H1 & H2 & H3 & H4 & H5 & H6). unfold u32_ok in *. destruct h as [a b c d s f]. cbn [mh_cpu mh_sub mh_file mh_n mh_sz mh_fl] in *.
  unfold mhdr_of, mh_magic, mach_hdr, mh_cputype, mh_cpusubtype, mh_filetype, mh_ncmds, mh_sizeofcmds, mh_flags. cbn [mh_cpu mh_sub mh_file mh_n mh_sz mh_fl].
  split.
  - assert (S : forall o rest, 4 <= o -> fld e o 4 (write_u Big 4 (magic is64 e) ++ rest) = fld e (o - 4) 4 rest).
    { intros o rest Ho. apply (fld_skip_app e o 4 4). - apply zlen_write_u. - exact Ho. }
    f_equal; rewrite S by lia; cbn [Z.sub Z.add Z.opp Z.pos_sub Pos.pred_double]; rewrite ?fld_skip by lia; apply fld_hd; [reflexivity|assumption|reflexivity|assumption|reflexivity|assumption|reflexivity|assumption|reflexivity|assumption|reflexivity|assumption].
  - apply fld_hd; [reflexivity|]. destruct is64, e; cbn; lia.
Qed.

(** * Segments *)
Lemma seg_read is64 e c g sd : bytes_ok (lc_data c) -> is_seg is64 c = true -> command e (lc_data c) (lc_cmd c) ->
  seg_from_command is64 e c = Ok (Some (g, sd)) <-> seg_ok is64 g /\ lc_data c = mach_seg is64 e (zlen (lc_data c)) g ++ sd.
Proof.
  intros B I C. unfold seg_from_command. unfold is_seg in I. change (if is64 then LC_SEGMENT_64 else LC_SEGMENT) with (if is64 then 25 else 1). rewrite I.
  assert (Hs : 0 < seg_size is64) by (destruct is64; reflexivity).
  destruct (proj1 (command_iff e (lc_data c) (lc_data c) [] (lc_cmd c) B) (conj (eq_sym (app_nil_r _)) C)) as (Ch & E1 & E2 & _).
  destruct C as (body & Eb & Hu & Hz).
  assert (Z : fld e 4 4 (lc_data c) = zlen (lc_data c)).
  { apply (f_equal zlen) in E2. unfold cmd_here in Ch. rewrite zlen_ztake in E2; lia. }
  destruct (b_read (lc_data c) (seg_size is64)) as [r tl] eqn:E. destruct (b_read_spec _ _ _ _ E) as [(b & -> & _ & Lb & Eq)|(-> & Hn & ->)].
  - assert (Hb : lc_data c = b ++ tl /\ zlen b = seg_size is64) by auto. clear Lb Eq.
    destruct Hb as (Eq & Lb). rewrite Eq in B. apply bytes_ok_app in B as (Bb & Bt).
    assert (Fb : forall o, 0 <= o -> o + 4 <= seg_size is64 -> fld e o 4 b = fld e o 4 (lc_data c)) by (intros o Ho Hl; rewrite Eq, fld_app_l by lia; reflexivity).
    assert (H56 : 56 <= seg_size is64) by (destruct is64; cbn; lia).
    assert (Ff : fld e 0 4 b = (if is64 then 25 else 1)) by (rewrite Fb by lia; rewrite <- E1; lia).
    destruct (mseg_of_dec is64 e b Lb Bb Ff) as (Ho & Enc). rewrite (Fb 4) in Enc by lia. rewrite Z in Enc.
    split.
    + intros Q. assert (Q1 : mseg_of is64 e b = g) by congruence. assert (Q2 : tl = sd) by congruence. subst g sd. split; [exact Ho|]. rewrite Enc. exact Eq.
    + intros (Hg & Eg). rewrite Eg in Eq at 1.
      assert (Lg : zlen (mach_seg is64 e (zlen (lc_data c)) g) = seg_size is64) by (apply zlen_mach_seg, Hg).
      assert (Es : mach_seg is64 e (zlen (lc_data c)) g = b /\ sd = tl).
      { apply (f_equal (ztake (seg_size is64))) in Eq as Q1. rewrite !ztake_app_eq in Q1 by lia. rewrite Q1 in Eq. apply app_inv_head in Eq. auto. }
      destruct Es as (<- & ->). rewrite <- (app_nil_r (mach_seg _ _ _ _)) at 1. rewrite mseg_of_enc by assumption. reflexivity.
  - split; [discriminate|]. intros (Hg & Eg). exfalso.
    assert (Lg : zlen (mach_seg is64 e (zlen (lc_data c)) g) = seg_size is64) by (apply zlen_mach_seg, Hg).
    apply (f_equal zlen) in Eg. rewrite zlen_app, Lg in Eg. pose proof (zlen_nonneg sd). lia.
Qed.
Lemma seg_none is64 e c : is_seg is64 c = false -> seg_from_command is64 e c = Ok None.
Proof. intros I. unfold seg_from_command. change (if is64 then LC_SEGMENT_64 else LC_SEGMENT) with (if is64 then 25 else 1). unfold is_seg in I. rewrite I. reflexivity. Qed.
Lemma seg_some is64 e c : is_seg is64 c = true -> seg_from_command is64 e c <> Ok None /\ seg_from_command is64 e c <> Panic.
Proof.
  intros I. unfold seg_from_command. change (if is64 then LC_SEGMENT_64 else LC_SEGMENT) with (if is64 then 25 else 1). unfold is_seg in I. rewrite I.
  destruct (b_read (lc_data c) (seg_size is64)) as [r tl] eqn:E. destruct (b_read_spec _ _ _ _ E) as [(b & -> & _)|(-> & _)]; split; discriminate.
Qed.
Lemma segment_iff is64 e c g secs : bytes_ok (lc_data c) -> is_seg is64 c = true -> command e (lc_data c) (lc_cmd c) ->
  (exists sd, seg_from_command is64 e c = Ok (Some (g, sd)) /\ seg_sections is64 e g sd = Ok secs) <-> segment_of is64 e c g secs.
Proof.
  intros B I C. assert (Hz : zlen (lc_data c) < 2 ^ 32) by (destruct C as (? & _ & _ & ?); unfold u32_ok in *; lia).
  assert (A : forall sd, seg_ok is64 g -> bytes_ok sd -> zlen sd < 2 ^ 64 -> seg_sections is64 e g sd = Ok secs <->
    zlen secs = g_nsects g /\ Forall (msec_ok is64) secs /\ (secs <> [] -> holds sd 0 (concat (map (mach_sec is64 e) secs)))).
  { intros sd Hg Bs Ls. apply array_iff; try assumption; [lia|destruct is64; reflexivity|destruct Hg as (_ & _ & _ & _ & _ & _ & _ & _ & (? & _) & _); assumption| |].
    - intros b. apply msec_of_dec.
    - intros x. apply msec_of_enc. }
  split.
  - intros (sd & E1 & E2). apply seg_read in E1 as (Hg & Ed); [|assumption..]. rewrite Ed in B, Hz. apply bytes_ok_app in B as (_ & Bs). rewrite zlen_app in Hz.
    pose proof (zlen_nonneg (mach_seg is64 e (zlen (lc_data c)) g)). apply A in E2 as (L & Fo & Hh); [|assumption|assumption|lia].
    split; [exact Hg|]. split; [exact Fo|]. split; [exact L|].
    destruct secs as [|s secs].
    + exists sd. exact Ed.
    + destruct (Hh ltac:(discriminate)) as (a & tl & Es & L0). apply zlen_0_nil in L0. subst a. exists tl. rewrite Ed at 1. f_equal. exact Es.
  - intros (Hg & Fo & L & tl & Ed). exists (concat (map (mach_sec is64 e) secs) ++ tl). split.
    + apply seg_read; auto.
    + rewrite Ed in B, Hz. apply bytes_ok_app in B as (_ & Bs). rewrite zlen_app in Hz. pose proof (zlen_nonneg (mach_seg is64 e (zlen (lc_data c)) g)).
      apply A; [assumption|assumption|lia|]. split; [exact L|]. split; [exact Fo|]. intros _. exists [], tl. split; reflexivity.
Qed.
