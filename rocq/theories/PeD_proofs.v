(** Debug directory of PE images: proofs *)
From Verif Require Import Core_proofs Util_proofs File_proofs Str_proofs Map_proofs Pod_proofs Iter_proofs Ar_proofs ArSym_proofs Rel_proofs ElfR_proofs Kind_proofs CoffW_proofs CoffR_proofs CoffI_proofs.
From Verif Require Import Pe_spec Pe_proofs PeX_proofs PeI_proofs PeF_proofs PeT_proofs.


Lemma debug_data_eq F d : bytes_ok d -> 0 < fld Little 16 4 d ->
  forall x, rr_read_bytes_at F (fld Little 24 4 d) (fld Little 16 4 d) = Ok x <-> debug_data F d x.
Proof.
  intros Hd Hn x. pose proof (fld_bound Little 24 4 d Hd ltac:(lia) ltac:(lia)). rewrite rr_read_bytes_at_eq by lia.
  destruct (Z.eqb_spec (fld Little 16 4 d) 0); [lia|]. unfold debug_data. rewrite holds_iff. destruct (Z.leb_spec (fld Little 24 4 d + fld Little 16 4 d) (zlen F)).
  - split; [intros [= <-]; rewrite zlen_zslice by lia; repeat split; lia|]. intros ((_ & _ & E) & L). rewrite L in E. congruence.
  - split; [discriminate|]. intros ((_ & G & _) & L). rewrite L in G. lia.
Qed.
Lemma pdb_read x guid age path : bytes_ok x ->
  fst (do guid, info <- b_read_bytes (zdrop 4 x) 16 ;; do age, info <- b_read info 4 ;; do path, info <- b_read_string info ;; (Ok (Some (path, guid, read_u Little age)), info)) = Ok (Some (path, guid, age)) /\ 4 <= zlen x /\ ztake 4 x = [82; 83; 68; 83] <->
  holds x 0 ([82; 83; 68; 83] ++ guid ++ word age) /\ zlen guid = 16 /\ u32_ok age /\ string_at x 24 path.
Proof.
  intro Hx. split.
  - intros (E & L4 & E4). pose proof (ztake_zdrop 4 x) as Ex. rewrite E4 in Ex. set (y := zdrop 4 x) in *. clearbody y.
    destruct (b_read_bytes y 16) as [r y1] eqn:E1. apply b_read_bytes_spec in E1 as [(g & -> & H1 & Lg & E1)|(-> & _)]; [|discriminate]. cbn [bs] in E.
    destruct (b_read y1 4) as [r y2] eqn:E2. apply b_read_spec in E2 as [(ag & -> & H2 & Lag & E2)|(-> & _)]; [|discriminate]. cbn [bs] in E.
    destruct (b_read_string y2) as [r y3] eqn:E3. apply b_read_string_spec in E3 as [(p & -> & E3 & Hp)|(-> & _)]; [|discriminate]. cbn [bs fst] in E.
    injection E as -> -> <-. subst y y1 y2. subst x.
    assert (Hag : bytes_ok ag) by (apply bytes_ok_app in Hx as [_ Hx]; apply bytes_ok_app in Hx as [_ Hx]; apply bytes_ok_app in Hx as [Hx _]; exact Hx).
    assert (Ew : word (read_u Little ag) = ag) by (unfold word; change 4%nat with (length [0;0;0;0]); rewrite <- (write_read_u Little ag Hag) at 2; f_equal; unfold zlen in Lag; cbn; lia).
    split; [|split; [exact Lg|split]].
    + exists [], (path ++ 0 :: y3). split; [|reflexivity]. rewrite Ew. cbn [app]. rewrite <- !app_assoc. reflexivity.
    + unfold u32_ok. pose proof (read_u_bound Little ag Hag) as B. rewrite Lag in B. change (2 ^ 32) with (256 ^ 4). lia.
    + split; [|exact Hp]. exists ([82; 83; 68; 83] ++ guid ++ ag), y3. split; [|rewrite !zlen_app, Lg, Lag; reflexivity]. rewrite <- !app_assoc. reflexivity.
  - intros ((a & c & E & La) & Lg & Ha & ((a' & c' & E' & La') & Hp)). apply zlen_0_nil in La as ->. rewrite app_nil_l in E.
    assert (a' = [82; 83; 68; 83] ++ guid ++ word age) as ->.
    { assert (L24 : zlen ([82; 83; 68; 83] ++ guid ++ word age) = 24) by (rewrite !zlen_app, Lg, zlen_word; reflexivity).
      assert (A : ztake 24 x = ([82; 83; 68; 83] ++ guid ++ word age)) by (rewrite E, <- L24; apply ztake_app_eq; reflexivity).
      rewrite <- A, E'. symmetry. apply ztake_app_eq. lia. }
    assert (Lx : zdrop 4 x = guid ++ word age ++ path ++ 0 :: c') by (rewrite E'; rewrite <- !app_assoc; apply zdrop_app_eq; reflexivity).
    rewrite Lx. rewrite b_read_bytes_app by lia. cbn [bs]. rewrite b_read_app by (rewrite zlen_word; reflexivity). cbn [bs]. rewrite b_read_string_app by exact Hp. cbn [bs fst].
    unfold word. rewrite read_write_u_small by exact Ha. split; [reflexivity|]. rewrite E'. split; [rewrite !zlen_app, Lg, zlen_word; pose proof (zlen_nonneg path); pose proof (zlen_nonneg c'); change (zlen [82;83;68;83]) with 4; change (zlen [0]) with 1; lia|]. rewrite <- !app_assoc. apply ztake_app_eq. reflexivity.
Qed.
Lemma pdb_exact F l path guid age : file_ok F -> Forall bytes_ok l ->
  pdb_search F l = Ok (Some (path, guid, age)) <-> pdb_found F l path guid age.
Proof.
  intros [HF _]. induction l as [|d l IH]; intro Hl.
  { split; [discriminate|]. intros (a & d & c & E & _). destruct a; discriminate. }
  inversion Hl as [|? ? Hd Hl']; subst. specialize (IH Hl'). cbn [pdb_search].
  assert (skip : not_pdb F d -> pdb_found F l path guid age <-> pdb_found F (d :: l) path guid age).
  { intro N. split.
    - intros (a & x & c & -> & Ha & Hx). exists (d :: a), x, c. split; [reflexivity|]. split; [constructor; assumption|exact Hx].
    - intros (a & x & c & E & Ha & Hx). destruct a as [|y a]; injection E as <- ->.
      + destruct Hx as (T & x & Hx & Hh & _). destruct N as [N|(x' & Hx' & L & N)]; [contradiction|]. exfalso. apply N.
        assert (x' = x) as -> by (destruct Hx as [Hx Lx], Hx' as [Hx' Lx']; apply holds_slice in Hx, Hx'; congruence).
        destruct Hh as (p & q & -> & Lp). apply zlen_0_nil in Lp as ->. rewrite app_nil_l, <- app_assoc. apply ztake_app_eq. reflexivity.
      + exists a, x, c. inversion Ha; subst. auto. }
  destruct (Z.eqb_spec (fld Little 12 4 d) 2) as [T|T]; cbn [negb]; [|rewrite IH; apply skip; left; exact T].
  assert (first : forall x, debug_data F d x -> 4 <= zlen x -> ztake 4 x = [82; 83; 68; 83] -> pdb_found F (d :: l) path guid age <-> pdb_record F d path guid age).
  { intros x Hx L E4. split; [|intro H; exists [], d, l; split; [reflexivity|split; [constructor|exact H]]].
    intros (a & y & c & E & Ha & Hy). destruct a as [|z a]; injection E as <- ->; [exact Hy|]. exfalso. inversion Ha as [|? ? N _]; subst.
    destruct N as [N|(x' & Hx' & L' & N)]; [contradiction|]. apply N. assert (x' = x) as -> by (destruct Hx as [Hx Lx], Hx' as [Hx' Lx']; apply holds_slice in Hx, Hx'; congruence). exact E4. }
  pose proof (fld_bound Little 16 4 d Hd ltac:(lia) ltac:(lia)) as B.
  assert (none : (forall x, debug_data F d x -> 4 <= zlen x -> False) -> ~ pdb_found F (d :: l) path guid age).
  { intros N (a & y & c & E & Ha & Hy). assert (D : d = y \/ not_pdb F d) by (destruct a as [|z a]; injection E as <- ->; [left; reflexivity|right; inversion Ha; assumption]).
    destruct D as [<-|[D|(x & Hx & L & _)]]; [|contradiction|exact (N x Hx L)].
    destruct Hy as (_ & x & Hx & Hh & _). apply (N x Hx). apply holds_bounds in Hh as [_ Hh]. rewrite zlen_app in Hh. change (zlen [82;83;68;83]) with 4 in Hh. match type of Hh with 0 + (4 + zlen ?t) <= _ => pose proof (zlen_nonneg t) end. lia. }
  destruct (Z.eq_dec (fld Little 16 4 d) 0) as [Z0|Z0].
  { rewrite rr_read_bytes_at_eq, Z0 by (try lia; apply (fld_bound Little 24 4 d Hd); lia). cbn [Z.eqb bind]. change (b_read_bytes [] 4) with (@Err bytes, @nil Z). cbn iota. split; [discriminate|]. intro H. exfalso. refine (none _ H). intros x [_ Lx] L. lia. }
  pose proof (debug_data_eq F d Hd ltac:(lia)) as DD. destruct (rr_read_bytes_at F (fld Little 24 4 d) (fld Little 16 4 d)) as [x| |] eqn:Er; cbn [bind].
  2, 3: split; [discriminate|]; intro H; exfalso; refine (none _ H); intros x Hx _; apply DD in Hx; discriminate.
  assert (Dx : debug_data F d x) by (apply DD; reflexivity).
  assert (Hxb : bytes_ok x) by (destruct Dx as [(a & c & E & _) _]; rewrite E in HF; apply bytes_ok_app in HF as [_ HF]; apply bytes_ok_app in HF as [HF _]; exact HF).
  destruct (b_read_bytes x 4) as [r y] eqn:E4. apply b_read_bytes_spec in E4 as [(sg & -> & L4 & Ls & Ex)|(-> & L4 & _)].
  2: { split; [discriminate|]. intro H. exfalso. refine (none _ H). intros x' Hx' L. apply DD in Hx'. injection Hx' as ->. pose proof (zlen_nonneg x'). lia. }
  assert (S4 : ztake 4 x = sg) by (rewrite Ex; apply ztake_app_eq; lia). assert (D4 : y = zdrop 4 x) by (rewrite Ex; symmetry; apply zdrop_app_eq; lia). subst y.
  destruct (bytes_eqb sg [82; 83; 68; 83]) eqn:Es; cbn [negb].
  - apply bytes_eqb_eq in Es. rewrite Es in S4. rewrite (first x Dx ltac:(lia) S4). split.
    + intro E. split; [exact T|]. exists x. split; [exact Dx|]. apply (pdb_read x guid age path Hxb). split; [exact E|]. split; [lia|exact S4].
    + intros (_ & x' & Hx' & R). apply DD in Hx'. injection Hx' as <-. apply (pdb_read x guid age path Hxb) in R. exact (proj1 R).
  - rewrite IH. apply skip. right. exists x. split; [exact Dx|]. split; [lia|]. rewrite S4. intros ->. rewrite bytes_eqb_refl in Es. discriminate.
Qed.
Lemma pdb_np F l : Forall bytes_ok l -> pdb_search F l <> Panic.
Proof.
  induction 1 as [|d l Hd Hl IH]; [discriminate|]. cbn [pdb_search]. destruct (negb _); [exact IH|].
  pose proof (fld_bound Little 16 4 d Hd ltac:(lia) ltac:(lia)). pose proof (fld_bound Little 24 4 d Hd ltac:(lia) ltac:(lia)). rewrite rr_read_bytes_at_eq by lia.
  match goal with |- context [bind ?m _] => assert (exists r, m = Ok r \/ m = Err) as [x [->| ->]] end; [|cbn [bind]|discriminate].
  { destruct (_ =? 0); [eauto|]. destruct (_ <=? _); [|exists []]; eauto. }
  destruct (b_read_bytes x 4) as [r y] eqn:E4. apply b_read_bytes_spec in E4 as [(sg & -> & _)|(-> & _)]; [|discriminate]. destruct (negb _); [exact IH|].
  destruct (b_read_bytes y 16) as [r y1] eqn:E1. apply b_read_bytes_spec in E1 as [(g & -> & _)|(-> & _)]; [|discriminate]. cbn [bs].
  destruct (b_read y1 4) as [r y2] eqn:E2. apply b_read_spec in E2 as [(ag & -> & _)|(-> & _)]; [|discriminate]. cbn [bs].
  destruct (b_read_string y2) as [r y3] eqn:E3. apply b_read_string_spec in E3 as [(p & -> & _)|(-> & _)]; discriminate.
Qed.
Lemma pdb_chunks b l : bytes_ok b -> zlen b < 2 ^ 63 -> slice_from_all_bytes b 28 = Ok l <-> debug_entries b l.
Proof.
  intros Hb HL. unfold debug_entries. split.
  - intro E. destruct (Z.eq_dec (zlen b mod 28) 0) as [M|M]; [|rewrite slice_all_bad in E by (lia || exact M); discriminate].
    pose proof (zlen_nonneg b) as Nb. assert (D : zlen b = Z.of_nat (Z.to_nat (zlen b / 28)) * 28) by (pose proof (Z.div_mod (zlen b) 28); pose proof (Z.div_pos (zlen b) 28); lia).
    pose proof (chunks_len 28 _ b ltac:(lia) D) as A. pose proof (chunks_cat 28 _ b ltac:(lia) D) as C.
    rewrite <- C, slice_from_all_bytes_concat in E; [|lia|exact A|rewrite C; lia]. injection E as <-. split; [symmetry; exact C|exact A].
  - intros [-> H]. apply slice_from_all_bytes_concat; [lia|exact H|lia].
Qed.
(** [pdb_info] of a file *)
Section file.
Context (is64 : bool) (F : bytes) (f : pefile) (HF : file_ok F) (Hf : pe_parse is64 F = Ok f).
Lemma fimg : pe_image is64 F (pf_dos f) (pf_nt f) (pf_dirs f) (pf_sections f).
Proof. apply pe_exact; [exact HF|]. exists f. auto. Qed.
Lemma entries_ok b l : bytes_ok b -> debug_entries b l -> Forall bytes_ok l.
Proof. intros Hb [-> _]. apply Forall_forall. intros x Hx. apply in_split in Hx as (u & v & ->). rewrite concat_app in Hb. apply bytes_ok_app in Hb as [_ Hb]. cbn [concat] in Hb. apply bytes_ok_app in Hb as [Hb _]. exact Hb. Qed.
Lemma pdb_info_exact path guid age : pe_pdb_info f = Ok (Some (path, guid, age)) <->
  exists d b l, has_dir (pf_dirs f) 6 d /\ dir_content F (pf_sections f) d b /\ debug_entries b l /\ pdb_found F l path guid age.
Proof.
  pose proof fimg as HI. unfold pe_pdb_info. rewrite (f_data _ _ _ Hf). destruct (dir_get (pf_dirs f) 6) as [d|] eqn:E.
  2: { split; [discriminate|]. intros (d & b & l & H & _). apply dir_get_iff in H. congruence. }
  assert (G : forall d' : Z * Z, has_dir (pf_dirs f) 6 d' -> d' = d) by (intros d' H; apply dir_get_iff in H; congruence). apply dir_get_iff in E.
  pose proof (f_dirs _ _ _ HI _ _ E) as Pd. pose proof (f_secs _ _ _ HI) as Ps.
  assert (C : forall b, dir_data F d (pf_sections f) = Ok b <-> dir_content F (pf_sections f) d b) by (intro b; apply content_iff; assumption).
  destruct (dir_data F d (pf_sections f)) as [b| |] eqn:Eb; cbn [bind].
  2, 3: split; [discriminate|]; intros (d' & b & l & H & Hb & _); apply G in H as ->; apply C in Hb; discriminate.
  assert (Db : dir_content F (pf_sections f) d b) by (apply C; reflexivity). pose proof (content_ok _ _ _ HF HI _ _ Pd Db) as [Ob Lb].
  pose proof (fun l => pdb_chunks b l Ob Lb) as K. destruct (slice_from_all_bytes b 28) as [l| |] eqn:El; cbn [bind].
  2, 3: split; [discriminate|]; intros (d' & b' & l & H & Hb & Hl & _); apply G in H as ->; apply C in Hb; injection Hb as ->; apply K in Hl; discriminate.
  assert (Dl : debug_entries b l) by (apply K; reflexivity). rewrite (pdb_exact F l path guid age HF (entries_ok _ _ Ob Dl)). split.
  - intro P. exists d, b, l. auto.
  - intros (d' & b' & l' & H & Hb & Hl & P). apply G in H as ->. apply C in Hb. injection Hb as ->. apply K in Hl. injection Hl as ->. exact P.
Qed.
Lemma pdb_info_np : pe_pdb_info f <> Panic.
Proof.
  pose proof fimg as HI. unfold pe_pdb_info. rewrite (f_data _ _ _ Hf). destruct (dir_get (pf_dirs f) 6) as [d|] eqn:E; [|discriminate]. apply dir_get_iff in E.
  pose proof (f_dirs _ _ _ HI _ _ E) as Pd. pose proof (f_secs _ _ _ HI) as Ps.
  destruct (dir_data F d (pf_sections f)) as [b| |] eqn:Eb; cbn [bind]; [|discriminate|]. 2: { exfalso. exact (dir_data_np _ _ _ Eb). }
  apply content_iff in Eb; try assumption. pose proof (content_ok _ _ _ HF HI _ _ Pd Eb) as [Ob Lb]. destruct (slice_from_all_bytes b 28) as [l| |] eqn:El; cbn [bind]; [|discriminate|].
  - apply pdb_chunks in El; [|assumption..]. apply pdb_np. exact (entries_ok _ _ Ob El).
  - exfalso. exact (slice_from_all_bytes_no_panic _ _ El).
Qed.
End file.
