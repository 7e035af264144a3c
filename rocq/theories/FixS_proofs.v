(** Chained fixups: segments. *)
From Verif Require Import Core_proofs Util_proofs File_proofs Iter_proofs Rel_proofs Hash_proofs Pod_proofs.
From Verif Require ElfR_proofs PeI_proofs Mach_proofs ArSym_proofs Elf_proofs Ar_spec.
From Verif Require Import Fix_spec Fix_proofs FixC_proofs FixI_proofs.

Lemma words_dec e n cs : bytes_ok (concat cs) -> Forall (fun c => zlen c = Z.of_nat n) cs ->
  Forall (fun x => 0 <= x < 2 ^ (8 * Z.of_nat n)) (map (read_u e) cs) /\ map (write_u e n) (map (read_u e) cs) = cs /\ zlen (map (read_u e) cs) = zlen cs.
Proof.
  intros B F. split; [|split; [|unfold zlen; rewrite map_length; reflexivity]].
  - induction F as [|c cs L F IH]; cbn [map]; [constructor|]. cbn [concat] in B. apply bytes_ok_app in B as (B1 & B2). constructor; [|apply IH; exact B2]. pose proof (read_u_bound e c B1) as K. rewrite L in K. exact K.
  - induction F as [|c cs L F IH]; cbn [map]; [reflexivity|]. cbn [concat] in B. apply bytes_ok_app in B as (B1 & B2). rewrite IH by exact B2. f_equal. apply write_read_n; [exact B1|exact L].
Qed.
Lemma words_enc e n l : Forall (fun x => 0 <= x < 2 ^ (8 * Z.of_nat n)) l -> Forall (fun c => zlen c = Z.of_nat n) (map (write_u e n) l) /\ map (read_u e) (map (write_u e n) l) = l.
Proof. intro F. split; [|apply map_read_write_u; exact F]. rewrite Forall_map. apply Forall_forall. intros. apply zlen_write_u. Qed.
Lemma holds_start (d pre rest : bytes) : d = pre ++ rest -> holds d 0 pre.
Proof. intros ->. exists [], rest. auto. Qed.
Lemma holds_zdrop (F : bytes) o b : 0 <= o -> holds F o b <-> o <= zlen F /\ exists tl, zdrop o F = b ++ tl.
Proof.
  intro Ho. split.
  - intros (p & t & -> & E). rewrite zlen_app. pose proof (zlen_nonneg (b ++ t)). split; [lia|]. exists t. rewrite zdrop_app_eq by auto. reflexivity.
  - intros (L & tl & E). exists (ztake o F), tl. split; [rewrite <- E; symmetry; apply ztake_zdrop|]. apply zlen_ztake. lia.
Qed.
Lemma cfix_segments_iff e data h d offs : bytes_ok data -> zlen data < 2 ^ 63 -> cheader_ok h -> cfix_segments e data (cheader_enc e h) = Ok (d, offs) <->
  d = zdrop (ch_starts h) data /\ Forall u32_ok offs /\ u32_ok (zlen offs) /\ holds data (ch_starts h) (image_starts e offs).
Proof.
  intros B HL H. destruct (cheader_fields e h H) as (_ & E). unfold cfix_segments. change (fld e 4 4 (cheader_enc e h)) with (ch_starts (cheader_of e (cheader_enc e h))). rewrite E.
  assert (H1 : 0 <= ch_starts h < 2 ^ 32) by apply H. unfold image_starts. split.
  - intro Q. destruct (of_opt (get_from data (ch_starts h))) as [t| |] eqn:E1; cbn [bind] in Q; try discriminate. apply get_from_iff in E1 as (B1 & ->).
    destruct (b_read (zdrop (ch_starts h) data) 4) as [r s] eqn:E2. apply b_read_spec in E2 as [(c & -> & _ & Lc & Es)|(-> & _)]; cbn [bs] in Q; [|discriminate].
    pose proof (bytes_ok_zdrop (ch_starts h) data B) as Bd. rewrite Es in Bd. apply bytes_ok_app in Bd as (Bc & Bs). pose proof (read_u_bound e c Bc) as Rc. rewrite Lc in Rc.
    destruct (b_read_slice s 4 (read_u e c)) as [r2 s2] eqn:E3. apply b_read_slice_spec in E3 as [(cs & -> & Lcs & Fc & Es2)|(-> & _)]; [|discriminate|lia|lia].
    assert (d = zdrop (ch_starts h) data) as -> by congruence. assert (offs = map (read_u e) cs) as -> by congruence.
    rewrite Es2 in Bs. apply bytes_ok_app in Bs as (Bcs & _). destruct (words_dec e 4 cs Bcs Fc) as (W1 & W2 & W3).
    split; [reflexivity|]. split; [exact W1|]. rewrite W3, W2, Lcs. split; [exact Rc|]. apply holds_zdrop; [lia|]. split; [lia|]. exists s2. rewrite Es, Es2, <- app_assoc. f_equal. symmetry. apply write_read_n; [exact Bc|exact Lc].
  - intros (-> & Fo & Ho & Hh). apply holds_zdrop in Hh as (L & tl & Et); [|lia]. rewrite (proj2 (get_from_iff data _ _) (conj (conj (proj1 H1) L) eq_refl)). cbn [bind]. rewrite Et at 1. rewrite <- app_assoc.
    rewrite b_read_app by (rewrite zlen_write_u; reflexivity). cbn [bs]. unfold u32_ok in Ho. rewrite read_write_u_small by exact Ho. destruct (words_enc e 4 offs Fo) as (W1 & W2).
    assert (Lm : zlen (map (write_u e 4) offs) = zlen offs) by (unfold zlen; rewrite map_length; reflexivity).
    rewrite b_read_slice_app; [|lia|exact W1|auto|rewrite Lm; lia]. rewrite W2. reflexivity.
Qed.
(** * One segment *)
Definition seg_hdr (e : endian) (g : cseg) : bytes :=
  write_u e 4 (cs_size g) ++ write_u e 2 (cs_page_size g) ++ write_u e 2 (cs_format g) ++ write_u e 8 (cs_offset g) ++ write_u e 4 (cs_max g) ++ write_u e 2 (cs_page_count g).
Lemma seg_hdr_len e g : zlen (seg_hdr e g) = 22.
Proof. unfold seg_hdr. rewrite !zlen_app, !zlen_write_u. reflexivity. Qed.
Definition seg_of (e : endian) (i : Z) (b : bytes) (l : list Z) : cseg :=
  {| cs_index := i; cs_size := fld e 0 4 b; cs_page_size := fld e 4 2 b; cs_format := fld e 6 2 b; cs_offset := fld e 8 8 b; cs_max := fld e 16 4 b; cs_page_count := fld e 20 2 b; cs_starts := l |}.
Lemma seg_dec e i b l : zlen b = 22 -> bytes_ok b -> seg_hdr e (seg_of e i b l) = b /\ (Forall u16_ok l -> cseg_ok (seg_of e i b l)).
Proof.
  intros L B. split.
  - unfold seg_hdr, seg_of. cbn [cs_size cs_page_size cs_format cs_offset cs_max cs_page_count]. unfold fld. Mach_proofs.pod_join. apply zslice_all. lia.
  - intro F. unfold cseg_ok, seg_of. cbn [cs_size cs_page_size cs_format cs_offset cs_max cs_page_count cs_starts].
    assert (Q : forall o n, 0 <= o -> 0 <= n -> o + n <= 22 -> 0 <= fld e o n b < 2 ^ (8 * n)).
    { intros o n H1 H2 H3. unfold fld. pose proof (read_u_bound e (zslice o n b) (bytes_ok_zslice _ _ _ B)) as K. rewrite zlen_zslice in K by lia. exact K. }
    repeat split; try (apply Q; lia); try (apply (Q 0 4); lia); try (apply (Q 4 2); lia); try (apply (Q 6 2); lia); try (apply (Q 8 8); lia); try (apply (Q 16 4); lia); try (apply (Q 20 2); lia). exact F.
Qed.
Lemma seg_fields e g : cseg_ok g -> seg_of e (cs_index g) (seg_hdr e g) (cs_starts g) = g.
Proof.
  intros (H1 & H2 & H3 & H4 & H5 & H6 & _). unfold u16_ok, u32_ok, u64_ok in *. unfold seg_of. set (b := seg_hdr e g).
  assert (P : forall (f : cseg -> Z) pre post o n k, b = pre ++ write_u e n (f g) ++ post -> zlen pre = o -> k = Z.of_nat n -> 0 <= f g < 2 ^ (8 * Z.of_nat n) -> fld e o k b = f g) by (intros f pre post o n k -> <- -> Hf; apply fld_app; auto).
  unfold seg_hdr in b.
  rewrite (P cs_size [] (write_u e 2 (cs_page_size g) ++ write_u e 2 (cs_format g) ++ write_u e 8 (cs_offset g) ++ write_u e 4 (cs_max g) ++ write_u e 2 (cs_page_count g)) 0 4%nat 4); [|reflexivity|reflexivity|reflexivity|assumption].
  rewrite (P cs_page_size (write_u e 4 (cs_size g)) (write_u e 2 (cs_format g) ++ write_u e 8 (cs_offset g) ++ write_u e 4 (cs_max g) ++ write_u e 2 (cs_page_count g)) 4 2%nat 2); [|reflexivity|rewrite zlen_write_u; reflexivity|reflexivity|assumption].
  rewrite (P cs_format (write_u e 4 (cs_size g) ++ write_u e 2 (cs_page_size g)) (write_u e 8 (cs_offset g) ++ write_u e 4 (cs_max g) ++ write_u e 2 (cs_page_count g)) 6 2%nat 2); [|unfold b; rewrite <- ?app_assoc; reflexivity|rewrite !zlen_app, !zlen_write_u; reflexivity|reflexivity|assumption].
  rewrite (P cs_offset (write_u e 4 (cs_size g) ++ write_u e 2 (cs_page_size g) ++ write_u e 2 (cs_format g)) (write_u e 4 (cs_max g) ++ write_u e 2 (cs_page_count g)) 8 8%nat 8); [|unfold b; rewrite <- ?app_assoc; reflexivity|rewrite !zlen_app, !zlen_write_u; reflexivity|reflexivity|assumption].
  rewrite (P cs_max (write_u e 4 (cs_size g) ++ write_u e 2 (cs_page_size g) ++ write_u e 2 (cs_format g) ++ write_u e 8 (cs_offset g)) (write_u e 2 (cs_page_count g)) 16 4%nat 4); [|unfold b; rewrite <- ?app_assoc; reflexivity|rewrite !zlen_app, !zlen_write_u; reflexivity|reflexivity|assumption].
  rewrite (P cs_page_count (write_u e 4 (cs_size g) ++ write_u e 2 (cs_page_size g) ++ write_u e 2 (cs_format g) ++ write_u e 8 (cs_offset g) ++ write_u e 4 (cs_max g)) [] 20 2%nat 2); [|unfold b; rewrite <- ?app_assoc, app_nil_r; reflexivity|rewrite !zlen_app, !zlen_write_u; reflexivity|reflexivity|assumption].
  destruct g; reflexivity.
Qed.
Lemma seg_iff e d i off g : bytes_ok d -> zlen d < 2 ^ 63 -> 0 <= off -> cseg_parse e d i off = Ok g <-> segment_at e d i off g.
Proof.
  intros B HL Ho. unfold cseg_parse, segment_at.
  assert (EH : forall tl, write_u e 4 (cs_size g) ++ write_u e 2 (cs_page_size g) ++ write_u e 2 (cs_format g) ++ write_u e 8 (cs_offset g) ++ write_u e 4 (cs_max g) ++ write_u e 2 (cs_page_count g) ++ tl = seg_hdr e g ++ tl) by (intro; unfold seg_hdr; rewrite <- !app_assoc; reflexivity).
  rewrite EH. split.
  - intro Q. destruct (of_opt (get_from d off)) as [t| |] eqn:E1; cbn [bind] in Q; try discriminate. apply get_from_iff in E1 as (B1 & ->).
    destruct (b_read (zdrop off d) 22) as [r s] eqn:E2. apply b_read_spec in E2 as [(b & -> & _ & Lb & Es)|(-> & _)]; [|discriminate].
    pose proof (bytes_ok_zdrop off d B) as Bd. rewrite Es in Bd. apply bytes_ok_app in Bd as (Bb & Bs).
    unfold csub in Q. destruct (Z.leb_spec 22 (fld e 0 4 b)) as [Hsz|]; cbn [of_opt bind] in Q; [|discriminate].
    assert (Hq : 0 <= (fld e 0 4 b - 22) / 2) by (apply Z.div_pos; lia).
    destruct (b_read_slice s 2 ((fld e 0 4 b - 22) / 2)) as [r2 s2] eqn:E3. apply b_read_slice_spec in E3 as [(cs & -> & Lcs & Fc & Es2)|(-> & _)]; [|discriminate|lia|lia].
    rewrite Es2 in Bs. apply bytes_ok_app in Bs as (Bcs & _). destruct (words_dec e 2 cs Bcs Fc) as (W1 & W2 & W3).
    assert (g = seg_of e i b (map (read_u e) cs)) as -> by (unfold seg_of; congruence). destruct (seg_dec e i b (map (read_u e) cs) Lb Bb) as (D1 & D2). rewrite D1. cbn [seg_of cs_index cs_size cs_starts]. rewrite W2, W3.
    split; [reflexivity|]. split; [apply D2; exact W1|]. split; [exact Hsz|]. split; [exact Lcs|]. apply holds_zdrop; [lia|]. split; [lia|]. exists s2. rewrite Es, Es2, <- app_assoc. reflexivity.
  - intros (Ei & Hg & Hsz & Hl & Hh). apply holds_zdrop in Hh as (L & tl & Et); [|lia]. rewrite (proj2 (get_from_iff d _ _) (conj (conj Ho L) eq_refl)). cbn [bind]. rewrite Et, <- app_assoc. rewrite b_read_app by (rewrite seg_hdr_len; reflexivity).
    pose proof (seg_fields e g Hg) as E. assert (Es : fld e 0 4 (seg_hdr e g) = cs_size g) by (change (fld e 0 4 (seg_hdr e g)) with (cs_size (seg_of e (cs_index g) (seg_hdr e g) (cs_starts g))); rewrite E; reflexivity).
    rewrite !Es. unfold csub. destruct (Z.leb_spec 22 (cs_size g)); [|lia]. cbn [of_opt bind].
    assert (F : Forall u16_ok (cs_starts g)) by apply Hg. destruct (words_enc e 2 (cs_starts g) F) as (W1 & W2). assert (Lm : zlen (map (write_u e 2) (cs_starts g)) = zlen (cs_starts g)) by (unfold zlen; rewrite map_length; reflexivity).
    assert (Hs : u32_ok (cs_size g)) by apply Hg. unfold u32_ok in Hs. 
    rewrite b_read_slice_app; [|lia|exact W1|congruence|rewrite Lm, Hl; Z.to_euclidean_division_equations; lia]. rewrite W2. rewrite <- Es at 1. unfold seg_of in E. rewrite Ei in E. rewrite E. reflexivity.
Qed.
Lemma seg_np e d i off : cseg_parse e d i off <> Panic.
Proof.
  unfold cseg_parse. destruct (get_from d off); cbn [of_opt bind]; [|discriminate]. destruct (b_read l 22) as [r s] eqn:E2. apply b_read_spec in E2 as [(b & -> & _ & Lb & Es)|(-> & _)]; [|discriminate].
  destruct (csub (fld e 0 4 b) 22); cbn [of_opt bind]; [|discriminate]. destruct (b_read_slice _ _ _) as [[] ?]; discriminate.
Qed.
(** * The iterator *)
Section Segs.
Context (e : endian) (d : bytes) (B : bytes_ok d) (HL : zlen d < 2 ^ 63) (offs : list Z) (Fo : Forall u32_ok offs) (Ho : u32_ok (zlen offs)).
Lemma cg_loop_skip f i off : zget offs i = Some off -> cg_loop (S f) e d offs i = if off =? 0 then cg_loop f e d offs (i + 1) else match cseg_parse e d i off with Ok g => (Ok (Some g), i + 1) | Err => (Err, i + 1) | Panic => (Panic, i + 1) end.
Proof. intro E. cbn [cg_loop]. rewrite E. apply zget_Some_lt in E. unfold padd. unfold u32_ok in Ho. destruct (Z.ltb_spec (i + 1) (2 ^ 32)); [reflexivity|lia]. Qed.
Lemma cg_loop_end f i : zget offs i = None -> cg_loop (S f) e d offs i = (Ok None, i).
Proof. intro E. cbn [cg_loop]. rewrite E. reflexivity. Qed.
Lemma cg_fuel n : forall f g i, 0 <= i -> zlen offs - i < Z.of_nat n -> (n <= f)%nat -> (n <= g)%nat -> cg_loop f e d offs i = cg_loop g e d offs i.
Proof.
  induction n as [|n IH]; intros f g i Hi Hn Hf Hg.
  - assert (E : zget offs i = None) by (apply zget_None; lia). destruct f as [|f].
Abort.
Lemma cg_fuel n : forall f g i, 0 <= i -> (n = Z.to_nat (zlen offs + 1 - i)) -> (1 <= n)%nat -> (n <= f)%nat -> (n <= g)%nat -> cg_loop f e d offs i = cg_loop g e d offs i.
Proof.
  induction n as [|n IH]; intros f g i Hi Hn Hn1 Hf Hg; [lia|]. destruct f as [|f]; [lia|]. destruct g as [|g]; [lia|].
  destruct (zget offs i) as [off|] eqn:E; [|rewrite !cg_loop_end by exact E; reflexivity]. rewrite !(cg_loop_skip _ _ _ E). destruct (off =? 0); [|reflexivity]. apply zget_Some_lt in E. apply IH; lia.
Qed.
Lemma cg_next_skip i off : 0 <= i -> zget offs i = Some off -> cg_next e d offs i = if off =? 0 then cg_next e d offs (i + 1) else match cseg_parse e d i off with Ok g => (Ok (Some g), i + 1) | Err => (Err, i + 1) | Panic => (Panic, i + 1) end.
Proof.
  intros Hi E. unfold cg_next. rewrite (cg_loop_skip _ _ _ E). destruct (off =? 0); [|reflexivity]. apply zget_Some_lt in E. apply (cg_fuel (Z.to_nat (zlen offs + 1 - (i + 1)))); unfold zlen in *; lia.
Qed.
Lemma segs_results l : forall pre, offs = pre ++ l -> exists L, Ar_spec.results (cg_next e d offs) (zlen pre) L /\ Forall2 (segment_result e d) (present (zlen pre) l) L.
Proof.
  induction l as [|off l IH]; intros pre E.
  - exists []. split; [|constructor]. eapply Ar_spec.res_end. unfold cg_next. apply cg_loop_end. apply zget_None. rewrite E, app_nil_r. lia.
  - assert (G : zget offs (zlen pre) = Some off) by (rewrite E, zget_app2 by lia; rewrite Z.sub_diag; apply zget_0). pose proof (zlen_nonneg pre). pose proof (cg_next_skip _ _ H G) as N.
    destruct (IH (pre ++ [off])) as (L & R & F); [rewrite <- app_assoc; exact E|]. rewrite zlen_app in R, F. change (zlen [off]) with 1 in R, F. cbn [present].
    destruct (Z.eqb_spec off 0) as [E0|N0]; cbn beta iota in N.
    + exists L. split; [|exact F]. inversion R as [st st' Q|st x st' L' Q Q2|st st' L' Q Q2]; subst; [eapply Ar_spec.res_end|eapply Ar_spec.res_ok|eapply Ar_spec.res_err]; try (rewrite N; eassumption); eassumption.
    + assert (Hoff : u32_ok off) by (rewrite Forall_forall in Fo; apply Fo; rewrite E; apply in_elt). unfold u32_ok in Hoff. pose proof (fun g => seg_iff e d (zlen pre) off g B HL (proj1 Hoff)) as SI. pose proof (seg_np e d (zlen pre) off) as NP.
      destruct (cseg_parse e d (zlen pre) off) as [g| |] eqn:Eg; [| |congruence].
      * exists (Some g :: L). split; [eapply Ar_spec.res_ok; [exact N|exact R]|]. constructor; [|exact F]. apply SI. reflexivity.
      * exists (None :: L). split; [eapply Ar_spec.res_err; [exact N|exact R]|]. constructor; [|exact F]. intros g Hg. apply SI in Hg. discriminate.
Qed.
End Segs.
Lemma chained_iff e cmd F d hb : bytes_ok F -> zlen F < 2 ^ 63 -> 0 <= fld e 8 4 cmd -> 0 <= fld e 12 4 cmd ->
  chained_fixups e cmd F = Ok (d, hb) <-> holds F (fld e 8 4 cmd) d /\ zlen d = fld e 12 4 cmd /\ exists h, cheader_ok h /\ hb = cheader_enc e h /\ holds d 0 hb.
Proof.
  intros B HL H1 H2. unfold chained_fixups. split.
  - intro Q. destruct (rr_read_bytes_at F (fld e 8 4 cmd) (fld e 12 4 cmd)) as [x| |] eqn:E; cbn [bind] in Q; try discriminate. destruct (cfix_parse e x) as [y| |] eqn:E2; cbn [bind] in Q; try discriminate.
    assert (x = d) as -> by congruence. assert (y = hb) as -> by congruence.
    destruct (Z.eq_dec (fld e 12 4 cmd) 0) as [Z0|Nz].
    { exfalso. rewrite Z0 in E. unfold rr_read_bytes_at in E. cbn [Z.eqb] in E. assert (d = []) as -> by congruence. unfold cfix_parse in E2. cbn in E2. discriminate. }
    assert (Hh : holds F (fld e 8 4 cmd) d /\ zlen d = fld e 12 4 cmd). { apply rr_read_bytes_at_Ok in E as [(E & _)|(E0 & E1 & ->)]; [lia| |lia|lia]. assert (Lz : zlen (zslice (fld e 8 4 cmd) (fld e 12 4 cmd) F) = fld e 12 4 cmd) by (apply zlen_zslice; lia). split; [|exact Lz]. apply holds_iff. rewrite Lz. auto. }
    destruct Hh as (Hh & L). split; [exact Hh|]. split; [exact L|]. apply header_iff; [|exact E2]. rewrite <- (holds_slice _ _ _ Hh). apply bytes_ok_zslice. exact B.
  - intros (Hh & L & h & Hok & -> & Hd). assert (Nz : fld e 12 4 cmd <> 0). { apply holds_bounds in Hd. rewrite cheader_len in Hd. lia. }
    rewrite (holds_read_bytes_at F _ d _ Hh) by auto. cbn [bind]. rewrite (proj2 (header_iff e d (cheader_enc e h) ltac:(rewrite <- (holds_slice _ _ _ Hh); apply bytes_ok_zslice; exact B))) by (exists h; auto). reflexivity.
Qed.
