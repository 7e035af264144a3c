(** Dyld shared caches: slide information and relocations. *)
From Verif Require Import Core_proofs Util_proofs File_proofs Hash_proofs Pod_proofs Iter_proofs Rel_proofs Mach_proofs.
From Verif Require Import Fix_proofs.
From Verif Require Fkind_proofs Ar_proofs.
From Verif Require Import Shc_spec Shc_proofs ShcR_proofs ShcS_proofs ShcA_proofs ShcP_proofs.

(** * Slide information *)
Lemma block_fld e F off N b o k n : file_ok F -> 0 <= off -> 0 < N -> rr_read_at F off N = Ok b -> 0 <= o -> k = Z.of_nat n -> o + k <= N -> (0 < n)%nat -> u_at e F (off + o) n (fld e o k b).
Proof.
  intros (B & L) Ho HN E Hk -> Hb Hn. apply Fkind_proofs.read_at_ok in E as (H & Lb); [|lia..]. pose proof (holds_bounds _ _ _ H) as Bd. apply holds_slice in H. rewrite Lb in *.
  apply (u_at_iff e F (off + o) n _ _ B eq_refl). split; [lia|]. split; [lia|]. unfold fld. rewrite <- H. f_equal. symmetry. apply zslice_zslice; lia.
Qed.
Lemma block_ok F off N : file_ok F -> 0 <= off -> 0 < N -> off + N <= zlen F -> exists b, rr_read_at F off N = Ok b.
Proof. intros (B & L) Ho HN Hb. exists (zslice off N F). apply Fkind_proofs.read_at_ok; [lia..|]. split; [apply Ar_proofs.holds_zslice; lia|apply zlen_zslice; lia]. Qed.
Lemma block_len F off N b : file_ok F -> 0 <= off -> 0 < N -> rr_read_at F off N = Ok b -> off + N <= zlen F.
Proof. intros (B & L) Ho HN E. apply Fkind_proofs.read_at_ok in E as (H & Lb); [|lia..]. apply holds_bounds in H. lia. Qed.
Lemma words_iff e F o n l : file_ok F -> 0 <= o -> 0 <= n -> words16 e F o n = Ok l <-> words_at e F o n l.
Proof.
  intros HF Ho Hn. unfold words16, words_at. apply table_iff; [exact HF|exact Ho|lia|exact Hn| |].
  - intros b Lb Bb. split; [|apply write_read_n; assumption]. pose proof (read_u_bound e b Bb) as R. rewrite Lb in R. exact R.
  - intros x Hx. split; [apply zlen_write_u|]. apply read_write_u_small. exact Hx.
Qed.
Lemma u_at_len e F o n v : u_at e F o n v -> 0 <= o /\ o + Z.of_nat n <= zlen F.
Proof. intros (_ & H). apply holds_bounds in H. rewrite zlen_write_u in H. exact H. Qed.
Lemma slide_iff e F off size s : file_ok F -> 0 <= off -> slide_of e F (off, size) = Ok s <-> slide_at e F off size s.
Proof.
  intros HF Ho. pose proof HF as (B & L). unfold slide_of. destruct (Z.eqb_spec size 0) as [->|Ns].
  { split; [intros [= <-]; reflexivity|]. destruct s; cbn [slide_at]; [reflexivity|tauto..]. }
  destruct (rr_read_at F off 4) as [vb| |] eqn:Ev; cbn [bind].
  2,3: split; [discriminate|]; destruct s; cbn [slide_at]; [tauto|..]; intros (_ & U & _); apply u_at_len in U; destruct (block_ok F off 4 HF Ho ltac:(lia) ltac:(lia)) as (b & E); congruence.
  assert (Uv : u_at e F off 4 (read_u e vb)) by (apply (read_at_u e F off 4); [exact B|exact L|exact Ho|lia|exists vb; auto]).
  set (v := read_u e vb) in *. clearbody v.
  assert (V : forall w, u_at e F off 4 w -> v = w) by (intros w U; exact (u_at_fun _ _ _ _ _ _ Uv U)).
  destruct (Z.eqb_spec v 2) as [->|N2]; [|destruct (Z.eqb_spec v 3) as [->|N3]; [|destruct (Z.eqb_spec v 5) as [->|N5]]].
  - destruct (rr_read_at F off 40) as [b| |] eqn:E; cbn [bind].
    2,3: split; [discriminate|]; destruct s; cbn [slide_at]; [tauto|intros (_ & _ & _ & _ & U & _); apply u_at_len in U; destruct (block_ok F off 40 HF Ho ltac:(lia) ltac:(lia)) as (b & E'); congruence|..]; intros (_ & U & _); apply V in U; discriminate U.
    pose proof (block_len F off 40 b HF Ho ltac:(lia) E) as Lb.
    pose proof (block_fld e F off 40 b 4 4 4 HF Ho ltac:(lia) E ltac:(lia) eq_refl ltac:(lia) ltac:(lia)) as U4.
    pose proof (block_fld e F off 40 b 8 4 4 HF Ho ltac:(lia) E ltac:(lia) eq_refl ltac:(lia) ltac:(lia)) as U8.
    pose proof (block_fld e F off 40 b 12 4 4 HF Ho ltac:(lia) E ltac:(lia) eq_refl ltac:(lia) ltac:(lia)) as U12.
    pose proof (block_fld e F off 40 b 16 4 4 HF Ho ltac:(lia) E ltac:(lia) eq_refl ltac:(lia) ltac:(lia)) as U16.
    pose proof (block_fld e F off 40 b 20 4 4 HF Ho ltac:(lia) E ltac:(lia) eq_refl ltac:(lia) ltac:(lia)) as U20.
    pose proof (block_fld e F off 40 b 24 8 8 HF Ho ltac:(lia) E ltac:(lia) eq_refl ltac:(lia) ltac:(lia)) as U24.
    pose proof (block_fld e F off 40 b 32 8 8 HF Ho ltac:(lia) E ltac:(lia) eq_refl ltac:(lia) ltac:(lia)) as U32.
    pose proof (u32_nonneg _ _ _ _ U8). pose proof (u32_nonneg _ _ _ _ U12). pose proof (u32_nonneg _ _ _ _ U16). pose proof (u32_nonneg _ _ _ _ U20).
    unfold cadd. destruct (Z.ltb_spec (off + fld e 8 4 b) (2 ^ 64)); [|lia]. destruct (Z.ltb_spec (off + fld e 16 4 b) (2 ^ 64)); [|lia]. cbn [of_opt bind]. split.
    + intro HX. inv_bind HX st Est. inv_bind HX xl Eex. injection HX as <-. apply words_iff in Est; [|exact HF|lia..]. apply words_iff in Eex; [|exact HF|lia..]. cbn [slide_at].
      split; [exact Ns|]. split; [exact Uv|]. split; [exact U4|]. split; [exact U24|]. split; [exact U32|]. split; eexists; eexists; eauto.
    + destruct s as [|ps mask add st ex| |]; cbn [slide_at]; [tauto| |intros (_ & U & _); apply V in U; discriminate U..].
      intros (_ & _ & W4 & W24 & W32 & (o & n & W8 & W12 & Wst) & (o' & n' & W16 & W20 & Wex)).
      rewrite <- (u_at_fun _ _ _ _ _ _ U4 W4), <- (u_at_fun _ _ _ _ _ _ U24 W24), <- (u_at_fun _ _ _ _ _ _ U32 W32). rewrite <- (u_at_fun _ _ _ _ _ _ U8 W8), <- (u_at_fun _ _ _ _ _ _ U12 W12) in Wst. rewrite <- (u_at_fun _ _ _ _ _ _ U16 W16), <- (u_at_fun _ _ _ _ _ _ U20 W20) in Wex.
      apply words_iff in Wst; [|exact HF|lia..]. apply words_iff in Wex; [|exact HF|lia..]. rewrite Wst. cbn [bind]. rewrite Wex. reflexivity.
  - destruct (rr_read_at F off 24) as [b| |] eqn:E; cbn [bind].
    2,3: split; [discriminate|]; destruct s; cbn [slide_at]; [tauto| |intros (_ & _ & Ln & _); destruct (block_ok F off 24 HF Ho ltac:(lia) ltac:(lia)) as (b & E'); congruence|]; intros (_ & U & _); apply V in U; discriminate U.
    pose proof (block_len F off 24 b HF Ho ltac:(lia) E) as Lb.
    pose proof (block_fld e F off 24 b 4 4 4 HF Ho ltac:(lia) E ltac:(lia) eq_refl ltac:(lia) ltac:(lia)) as U4.
    pose proof (block_fld e F off 24 b 8 4 4 HF Ho ltac:(lia) E ltac:(lia) eq_refl ltac:(lia) ltac:(lia)) as U8.
    pose proof (block_fld e F off 24 b 16 8 8 HF Ho ltac:(lia) E ltac:(lia) eq_refl ltac:(lia) ltac:(lia)) as U16.
    pose proof (u32_nonneg _ _ _ _ U8). unfold cadd. destruct (Z.ltb_spec (off + 24) (2 ^ 64)); [|lia]. cbn [of_opt bind]. split.
    + intro HX. inv_bind HX st Est. injection HX as <-. apply words_iff in Est; [|exact HF|lia..]. cbn [slide_at].
      split; [exact Ns|]. split; [exact Uv|]. split; [exact Lb|]. split; [exact U4|]. split; [exact U16|]. eexists; eauto.
    + destruct s as [| |ps add st|]; cbn [slide_at]; [tauto|intros (_ & U & _); apply V in U; discriminate U| |intros (_ & U & _); apply V in U; discriminate U].
      intros (_ & _ & _ & W4 & W16 & (n & W8 & Wst)).
      rewrite <- (u_at_fun _ _ _ _ _ _ U4 W4), <- (u_at_fun _ _ _ _ _ _ U16 W16). rewrite <- (u_at_fun _ _ _ _ _ _ U8 W8) in Wst. apply words_iff in Wst; [|exact HF|lia..]. rewrite Wst. reflexivity.
  - destruct (rr_read_at F off 24) as [b| |] eqn:E; cbn [bind].
    2,3: split; [discriminate|]; destruct s; cbn [slide_at]; [tauto| | |intros (_ & _ & Ln & _); destruct (block_ok F off 24 HF Ho ltac:(lia) ltac:(lia)) as (b & E'); congruence]; intros (_ & U & _); apply V in U; discriminate U.
    pose proof (block_len F off 24 b HF Ho ltac:(lia) E) as Lb.
    pose proof (block_fld e F off 24 b 4 4 4 HF Ho ltac:(lia) E ltac:(lia) eq_refl ltac:(lia) ltac:(lia)) as U4.
    pose proof (block_fld e F off 24 b 8 4 4 HF Ho ltac:(lia) E ltac:(lia) eq_refl ltac:(lia) ltac:(lia)) as U8.
    pose proof (block_fld e F off 24 b 16 8 8 HF Ho ltac:(lia) E ltac:(lia) eq_refl ltac:(lia) ltac:(lia)) as U16.
    pose proof (u32_nonneg _ _ _ _ U8). unfold cadd. destruct (Z.ltb_spec (off + 24) (2 ^ 64)); [|lia]. cbn [of_opt bind]. split.
    + intro HX. inv_bind HX st Est. injection HX as <-. apply words_iff in Est; [|exact HF|lia..]. cbn [slide_at].
      split; [exact Ns|]. split; [exact Uv|]. split; [exact Lb|]. split; [exact U4|]. split; [exact U16|]. eexists; eauto.
    + destruct s as [| | |ps add st]; cbn [slide_at]; [tauto|intros (_ & U & _); apply V in U; discriminate U..|].
      intros (_ & _ & _ & W4 & W16 & (n & W8 & Wst)).
      rewrite <- (u_at_fun _ _ _ _ _ _ U4 W4), <- (u_at_fun _ _ _ _ _ _ U16 W16). rewrite <- (u_at_fun _ _ _ _ _ _ U8 W8) in Wst. apply words_iff in Wst; [|exact HF|lia..]. rewrite Wst. reflexivity.
  - split; [discriminate|]. destruct s; cbn [slide_at]; [tauto|..]; intros (_ & U & _); apply V in U; congruence.
Qed.
Lemma words_np e F o n : words16 e F o n <> Panic.
Proof. apply array_no_panic. Qed.
Lemma slide_np e F s : slide_of e F s <> Panic.
Proof.
  destruct s as [off size]. unfold slide_of. destruct (size =? 0); [discriminate|]. pose proof (rr_read_at_no_panic F off 4). destruct (rr_read_at F off 4); cbn [bind]; [|discriminate|congruence].
  destruct (_ =? 2); [|destruct (_ =? 3); [|destruct (_ =? 5); [|discriminate]]].
  - pose proof (rr_read_at_no_panic F off 40). destruct (rr_read_at F off 40) as [b| |]; cbn [bind]; [|discriminate|congruence]. destruct (cadd 64 off (fld e 8 4 b)) as [so|]; cbn [of_opt bind]; [|discriminate].
    pose proof (words_np e F so (fld e 12 4 b)). destruct (words16 e F so _); cbn [bind]; [|discriminate|congruence]. destruct (cadd 64 off (fld e 16 4 b)) as [xo|]; cbn [of_opt bind]; [|discriminate].
    pose proof (words_np e F xo (fld e 20 4 b)). destruct (words16 e F xo _); cbn [bind]; congruence.
  - pose proof (rr_read_at_no_panic F off 24). destruct (rr_read_at F off 24) as [b| |]; cbn [bind]; [|discriminate|congruence]. destruct (cadd 64 off 24) as [so|]; cbn [of_opt bind]; [|discriminate].
    pose proof (words_np e F so (fld e 8 4 b)). destruct (words16 e F so _); cbn [bind]; congruence.
  - pose proof (rr_read_at_no_panic F off 24). destruct (rr_read_at F off 24) as [b| |]; cbn [bind]; [|discriminate|congruence]. destruct (cadd 64 off 24) as [so|]; cbn [of_opt bind]; [|discriminate].
    pose proof (words_np e F so (fld e 8 4 b)). destruct (words16 e F so _); cbn [bind]; congruence.
Qed.

(** * Relocations *)
Lemma run2 e F g s l err s' : runs (r2_next e F g) s l err s' -> runs (rel_next e F) (RV2 g s) l err (RV2 g s').
Proof.
  induction 1 as [s s' E|s s' E|s s1 s' x l err E R IH].
  - apply runs_done. cbn [rel_next]. rewrite E. reflexivity.
  - apply runs_err. cbn [rel_next]. rewrite E. reflexivity.
  - eapply runs_more; [|exact IH]. cbn [rel_next]. rewrite E. reflexivity.
Qed.
Lemma run3 e F g s l err s' : runs (r3_next e F g) s l err s' -> runs (rel_next e F) (RV3 g s) l err (RV3 g s').
Proof.
  induction 1 as [s s' E|s s' E|s s1 s' x l err E R IH].
  - apply runs_done. cbn [rel_next]. rewrite E. reflexivity.
  - apply runs_err. cbn [rel_next]. rewrite E. reflexivity.
  - eapply runs_more; [|exact IH]. cbn [rel_next]. rewrite E. reflexivity.
Qed.
(** the mask of the slide information of a mapping is not zero *)
Definition masked (e : endian) (F : bytes) (m : smap) : Prop := forall o n ps add st ex, sm_slide m = Some (o, n) -> ~ slide_at e F o n (S2 ps 0 add st ex).
Definition done (e : endian) (F : bytes) (err : bool) (it : rel_it) : Prop := rel_next e F it = (if err then Err else Ok None, it).
Lemma words_ok e F o n l : words_at e F o n l -> 0 <= n < 2 ^ 32 -> zlen l < 2 ^ 32 /\ Forall u16_ok l.
Proof. intros (Ln & H & _) Hn. split; [lia|exact H]. Qed.
Lemma relocs_total e F m slid it : file_ok F -> smap_ok slid m -> masked e F m -> map_relocations e (F, m) = Ok it ->
  exists l err st, relocs_of e F m l err /\ runs (rel_next e F) it l err st /\ done e F err st.
Proof.
  intros HF Hm Hk E. pose proof HF as (B & L). destruct Hm as (_ & _ & Ho & _ & _ & Hs). unfold map_relocations in E. unfold relocs_of. destruct (sm_slide m) as [(o & n)|] eqn:Es.
  2:{ injection E as <-. exists [], false, RNone. split; [auto|]. split; [apply runs_done; reflexivity|reflexivity]. }
  destruct Hs as (_ & (Ho1 & _) & _). inv_bind E s Esl. apply slide_iff in Esl; [|exact HF|exact Ho1]. injection E as <-. destruct s as [|ps mask add st ex|ps add st|ps add st].
  - exists [], false, RNone. split; [exists SNone; auto|]. split; [apply runs_done; reflexivity|reflexivity].
  - set (g := {| g2_mfo := sm_offset m; g2_page_size := ps; g2_mask := mask; g2_add := add; g2_starts := st; g2_extras := ex |}).
    assert (Hg : slide2_ok g).
    { pose proof Esl as (_ & _ & U4 & U24 & _ & (o1 & n1 & _ & U12 & W1) & (o2 & n2 & _ & U20 & W2)). destruct (words_ok _ _ _ _ _ W1 (u32_nonneg _ _ _ _ U12)). destruct (words_ok _ _ _ _ _ W2 (u32_nonneg _ _ _ _ U20)).
      destruct U24 as (Hmask & _). assert (mask <> 0) by (intros ->; exact (Hk o n ps add st ex Es Esl)). unfold slide2_ok, g. cbn [g2_mfo g2_page_size g2_mask g2_add g2_starts g2_extras].
      split; [exact Ho|]. split; [exact (u32_nonneg _ _ _ _ U4)|]. split; [change (2 ^ (8 * Z.of_nat 8)) with (2 ^ 64) in Hmask; lia|]. auto. }
    destruct (relocs2_total e F g B L Hg) as (l & err & s & P & R & En). exists l, err, (RV2 g s). split; [exists (S2 ps mask add st ex); auto|]. split; [apply run2; exact R|].
    unfold done, rel_next. unfold ended2, stuck2 in En. destruct err; rewrite En; reflexivity.
  - set (g := {| g3_v5 := false; g3_mfo := sm_offset m; g3_page_size := ps; g3_add := add; g3_starts := st |}).
    assert (Hg : slide3_ok g).
    { pose proof Esl as (_ & _ & _ & U4 & _ & (n1 & U8 & W)). destruct (words_ok _ _ _ _ _ W (u32_nonneg _ _ _ _ U8)). unfold slide3_ok, g. cbn [g3_mfo g3_page_size g3_starts]. split; [exact Ho|]. split; [exact (u32_nonneg _ _ _ _ U4)|]. auto. }
    destruct (relocs3_total e F g B L Hg) as (l & err & s & P & R & En). exists l, err, (RV3 g s). split; [exists (S3 ps add st); auto|]. split; [apply run3; exact R|].
    unfold done, rel_next. unfold ended3, stuck3 in En. destruct err; rewrite En; reflexivity.
  - set (g := {| g3_v5 := true; g3_mfo := sm_offset m; g3_page_size := ps; g3_add := add; g3_starts := st |}).
    assert (Hg : slide3_ok g).
    { pose proof Esl as (_ & _ & _ & U4 & _ & (n1 & U8 & W)). destruct (words_ok _ _ _ _ _ W (u32_nonneg _ _ _ _ U8)). unfold slide3_ok, g. cbn [g3_mfo g3_page_size g3_starts]. split; [exact Ho|]. split; [exact (u32_nonneg _ _ _ _ U4)|]. auto. }
    destruct (relocs3_total e F g B L Hg) as (l & err & s & P & R & En). exists l, err, (RV3 g s). split; [exists (S5 ps add st); auto|]. split; [apply run3; exact R|].
    unfold done, rel_next. unfold ended3, stuck3 in En. destruct err; rewrite En; reflexivity.
Qed.
Lemma relocs_iff e F m slid l err : file_ok F -> smap_ok slid m -> masked e F m ->
  (exists it st, map_relocations e (F, m) = Ok it /\ runs (rel_next e F) it l err st) <-> relocs_of e F m l err.
Proof.
  intros HF Hm Hk. split.
  - intros (it & st & E & R). destruct (relocs_total e F m slid it HF Hm Hk E) as (l' & err' & st' & P & R' & _). destruct (runs_det _ _ _ _ _ R _ _ _ R') as (-> & -> & _). exact P.
  - intro P. pose proof HF as (B & L). pose proof Hm as (_ & _ & Ho & _ & _ & Hs). unfold relocs_of in P. unfold map_relocations. destruct (sm_slide m) as [(o & n)|] eqn:Es.
    2:{ destruct P as (-> & ->). exists RNone, RNone. split; [reflexivity|apply runs_done; reflexivity]. }
    destruct P as (s & Esl & P). destruct Hs as (_ & (Ho1 & _) & _). rewrite (proj2 (slide_iff e F o n s HF Ho1) Esl). cbn [bind]. destruct s as [|ps mask add st ex|ps add st|ps add st].
    + destruct P as (-> & ->). exists RNone, RNone. split; [reflexivity|apply runs_done; reflexivity].
    + set (g := {| g2_mfo := sm_offset m; g2_page_size := ps; g2_mask := mask; g2_add := add; g2_starts := st; g2_extras := ex |}) in *.
      assert (Hg : slide2_ok g).
      { pose proof Esl as (_ & _ & U4 & U24 & _ & (o1 & n1 & _ & U12 & W1) & (o2 & n2 & _ & U20 & W2)). destruct (words_ok _ _ _ _ _ W1 (u32_nonneg _ _ _ _ U12)). destruct (words_ok _ _ _ _ _ W2 (u32_nonneg _ _ _ _ U20)).
        destruct U24 as (Hmask & _). assert (mask <> 0) by (intros ->; exact (Hk o n ps add st ex Es Esl)). unfold slide2_ok, g. cbn [g2_mfo g2_page_size g2_mask g2_add g2_starts g2_extras].
        split; [exact Ho|]. split; [exact (u32_nonneg _ _ _ _ U4)|]. split; [change (2 ^ (8 * Z.of_nat 8)) with (2 ^ 64) in Hmask; lia|]. auto. }
      apply (relocs2_iff e F g B L Hg) in P as (s & R). exists (RV2 g it2_new), (RV2 g s). split; [reflexivity|apply run2; exact R].
    + set (g := {| g3_v5 := false; g3_mfo := sm_offset m; g3_page_size := ps; g3_add := add; g3_starts := st |}) in *.
      assert (Hg : slide3_ok g).
      { pose proof Esl as (_ & _ & _ & U4 & _ & (n1 & U8 & W)). destruct (words_ok _ _ _ _ _ W (u32_nonneg _ _ _ _ U8)). unfold slide3_ok, g. cbn [g3_mfo g3_page_size g3_starts]. split; [exact Ho|]. split; [exact (u32_nonneg _ _ _ _ U4)|]. auto. }
      apply (relocs3_iff e F g B L Hg) in P as (s & R). exists (RV3 g it3_new), (RV3 g s). split; [reflexivity|apply run3; exact R].
    + set (g := {| g3_v5 := true; g3_mfo := sm_offset m; g3_page_size := ps; g3_add := add; g3_starts := st |}) in *.
      assert (Hg : slide3_ok g).
      { pose proof Esl as (_ & _ & _ & U4 & _ & (n1 & U8 & W)). destruct (words_ok _ _ _ _ _ W (u32_nonneg _ _ _ _ U8)). unfold slide3_ok, g. cbn [g3_mfo g3_page_size g3_starts]. split; [exact Ho|]. split; [exact (u32_nonneg _ _ _ _ U4)|]. auto. }
      apply (relocs3_iff e F g B L Hg) in P as (s & R). exists (RV3 g it3_new), (RV3 g s). split; [reflexivity|apply run3; exact R].
Qed.

(** * The places of the relocations *)
Lemma chain3_places e F g off l err : chain3 e F g off l err -> Forall (fun r => exists nx, ptr3_at e F g (sr_offset r) nx r) l.
Proof.
  assert (Q : forall off nx r, ptr3_at e F g off nx r -> exists nx, ptr3_at e F g (sr_offset r) nx r) by (intros o nx r P; pose proof P as (_ & _ & _ & <-); exists nx; exact P).
  induction 1 as [off r P|off nx r l err P _ _ IH|off N]; [constructor; [exact (Q _ _ _ P)|constructor]|constructor; [exact (Q _ _ _ P)|exact IH]|constructor].
Qed.
Lemma pages3_places e F g p xs l err : pages3 e F g p xs l err -> Forall (fun r => exists nx, ptr3_at e F g (sr_offset r) nx r) l.
Proof.
  induction 1 as [p|p xs l err P IH|p x xs l1 l2 err Nx C P IH|p x xs l Nx C]; [constructor|exact IH|apply Forall_app; split; [exact (chain3_places _ _ _ _ _ _ C)|exact IH]|exact (chain3_places _ _ _ _ _ _ C)].
Qed.
(** version 2: relative to the page *)
Definition place2 (e : endian) (F : bytes) (g : slide2) (page : Z) (r : sreloc) : Prop :=
  exists nx value, ptr2_at e F g page (sr_offset r) nx value /\ value <> 0 /\ sr_value r = (value + g2_add g) mod 2 ^ 64 /\ sr_auth r = None.
Lemma item2_place e F g page off nx value : ptr2_at e F g page off nx value -> Forall (place2 e F g page) (item2 g off value).
Proof. intro P. unfold item2. destruct (Z.eqb_spec value 0) as [|N]; [constructor|]. constructor; [|constructor]. exists nx, value. auto. Qed.
Lemma chain2_places e F g page off l err : chain2 e F g page off l err -> Forall (place2 e F g page) l.
Proof.
  induction 1 as [off value P|off nx value l err P Nz Hb C IH|off nx value P Hb|off N]; [eapply item2_place; exact P|apply Forall_app; split; [eapply item2_place; exact P|exact IH]|constructor|constructor].
Qed.
Lemma extras2_places e F g page i l r : extras2 e F g page i l r -> Forall (place2 e F g page) l.
Proof.
  induction 1 as [i x l err Ex Hx C|i x l1 l2 r Ex Hx C X IH|i x l Ex Hx C|i Ex]; [eapply chain2_places; exact C|apply Forall_app; split; [eapply chain2_places; exact C|exact IH]|eapply chain2_places; exact C|constructor].
Qed.
Lemma page2_places e F g page x l r : page2 e F g page x l r -> Forall (place2 e F g page) l.
Proof. intros [H|l' r' _ _ X|l' err _ _ C]; [constructor|eapply extras2_places; exact X|eapply chain2_places; exact C]. Qed.
Lemma pages2_places e F g p xs l err : pages2 e F g p xs l err -> 0 <= p -> Forall (fun r => exists q, p <= q < p + zlen xs /\ place2 e F g (q * g2_page_size g) r) l.
Proof.
  induction 1 as [p|p x xs l1 l2 err P1 P IH|p x xs l err P1]; intro Hp; [constructor| |].
  - rewrite zlen_cons. pose proof (zlen_nonneg xs). apply Forall_app. split.
    + eapply Forall_impl; [|exact (page2_places _ _ _ _ _ _ _ P1)]. intros r Hr. exists p. split; [lia|exact Hr].
    + eapply Forall_impl; [|exact (IH ltac:(lia))]. intros r (q & Hq & Hr). exists q. split; [lia|exact Hr].
  - rewrite zlen_cons. pose proof (zlen_nonneg xs). eapply Forall_impl; [|exact (page2_places _ _ _ _ _ _ _ P1)]. intros r Hr. exists p. split; [lia|exact Hr].
Qed.
