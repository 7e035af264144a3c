From Verif Require Import Core_proofs Util_proofs Map_proofs Hash_proofs File_proofs Pod_proofs ArSym_proofs.
From Verif Require Fix_proofs.
From Verif Require Import Sign_spec.

Section Num.
Context (D : bytes) (HD : bytes_ok D).

Lemma num_iff n off v : num n D off v <-> 0 <= off /\ off + Z.of_nat n <= zlen D /\ fld Big off (Z.of_nat n) D = v.
Proof.
  unfold num, fld. split.
  - intros (H & Hv). apply holds_iff in H. rewrite zlen_write_u in H. destruct H as (A & B & C). repeat split; try lia.
    rewrite C. apply read_write_u_small. exact Hv.
  - intros (A & B & <-). assert (L : zlen (zslice off (Z.of_nat n) D) = Z.of_nat n) by (apply zlen_zslice; lia).
    assert (K : bytes_ok (zslice off (Z.of_nat n) D)) by (apply bytes_ok_zslice; exact HD). split.
    + apply holds_iff. rewrite zlen_write_u. split; [lia|]. split; [lia|].
      pose proof (write_read_u Big _ K) as W. unfold zlen in L. rewrite <- W at 1. f_equal. lia.
    + pose proof (read_u_bound Big _ K) as R. rewrite L in R. exact R.
Qed.
Lemma fld_zslice a n o m : 0 <= a -> 0 <= n -> a + n <= m -> 0 <= o -> fld Big a n (zslice o m D) = fld Big (o + a) n D.
Proof. intros. unfold fld. f_equal. rewrite zslice_zslice by lia. reflexivity. Qed.
Lemma b_read_drop o n : 0 <= o <= zlen D -> 0 <= n ->
  b_read (zdrop o D) n = if o + n <=? zlen D then (Ok (zslice o n D), zdrop (o + n) D) else (Err, []).
Proof.
  intros Ho Hn. unfold b_read, from_bytes, get_from. rewrite zlen_zdrop by lia.
  destruct (Z.leb_spec (o + n) (zlen D)).
  - replace ((0 <=? n) && (n <=? zlen D - o)) with true by lia. cbn [of_opt bind]. rewrite zdrop_zdrop by lia. unfold zslice. do 2 f_equal. lia.
  - replace ((0 <=? n) && (n <=? zlen D - o)) with false by lia. reflexivity.
Qed.
End Num.

(** * The super blob *)
Lemma mul32 n : 0 <= n < 2 ^ 32 -> cmul 64 n 8 = Some (n * 8).
Proof. intro H. unfold cmul. destruct (Z.ltb_spec (n * 8) (2 ^ 64)); [reflexivity|lia]. Qed.
Lemma fld_bound e o n F : bytes_ok F -> 0 <= n -> 0 <= o -> 0 <= fld e o n F < 2 ^ (8 * n).
Proof.
  intros H Hn Ho. unfold fld. pose proof (read_u_bound e _ (bytes_ok_zslice o n _ H)) as R.
  assert (zlen (zslice o n F) <= n). { unfold zslice, ztake, zlen. rewrite firstn_length. lia. }
  pose proof (Z.pow_le_mono_r 2 (8 * zlen (zslice o n F)) (8 * n)). lia.
Qed.
Definition index_of (F : bytes) (n : Z) : list bytes := chunks 8 (Z.to_nat n) (zdrop 12 F).
Lemma csig_parse_eq F : bytes_ok F -> csig_parse F =
  if (12 <=? zlen F) && (fld Big 0 4 F =? 0xfade0cc0) && (12 + 8 * fld Big 8 4 F <=? zlen F)
  then Ok {| sg_data := F; sg_header := zslice 0 12 F; sg_index := index_of F (fld Big 8 4 F) |} else Err.
Proof.
  intro HF. unfold csig_parse. pose proof (b_read_drop F 0 12) as R. change (zdrop 0 F) with F in R. rewrite R by (pose proof (zlen_nonneg F); lia). clear R.
  change (0 + 12) with 12. destruct (Z.leb_spec 12 (zlen F)); cbn [bs fst andb]; [|reflexivity].
  rewrite !fld_zslice by lia. change (0 + 0) with 0. change (0 + 8) with 8. change cs_magic_signature with 0xfade0cc0. destruct (fld Big 0 4 F =? 0xfade0cc0); cbn [negb andb fst]; [|reflexivity].
  unfold b_read_slice, slice_from_bytes. pose proof (fld_bound Big 8 4 F HF). rewrite mul32 by lia. cbn [of_opt bind].
  unfold get_from. rewrite zlen_zdrop by lia. destruct (Z.leb_spec (12 + 8 * fld Big 8 4 F) (zlen F)).
  - replace ((0 <=? fld Big 8 4 F * 8) && (fld Big 8 4 F * 8 <=? zlen F - 12)) with true by lia. reflexivity.
  - replace ((0 <=? fld Big 8 4 F * 8) && (fld Big 8 4 F * 8 <=? zlen F - 12)) with false by lia. reflexivity.
Qed.
Lemma csig_parse_np F : bytes_ok F -> csig_parse F <> Panic.
Proof. intro H. rewrite csig_parse_eq by exact H. destruct (_ && _); discriminate. Qed.
Lemma index_get F n i : 12 + 8 * n <= zlen F -> 0 <= i < n -> zget (index_of F n) i = Some (zslice (12 + 8 * i) 8 F).
Proof.
  intros H Hi. unfold index_of. rewrite zget_chunks by (rewrite ?zlen_zdrop by lia; lia). f_equal. unfold zslice. rewrite zdrop_zdrop by lia. do 2 f_equal. lia.
Qed.
Lemma index_len F n : 0 <= n -> zlen (index_of F n) = n.
Proof. intro H. unfold index_of. rewrite zlen_chunks. lia. Qed.
Lemma csig_parse_iff F idx : bytes_ok F -> (exists s, csig_parse F = Ok s /\ sg_data s = F /\ map csig_entry (sg_index s) = idx) <-> super_blob F idx.
Proof.
  intro HF. rewrite csig_parse_eq by exact HF. unfold super_blob. rewrite !num_iff by exact HF. change (Z.of_nat 4) with 4. pose proof (fld_bound Big 8 4 F HF) as B.
  split.
  - intros (s & H & _ & <-). destruct ((12 <=? zlen F) && (fld Big 0 4 F =? 0xfade0cc0) && (12 + 8 * fld Big 8 4 F <=? zlen F)) eqn:E; [|discriminate H]. assert (s = {| sg_data := F; sg_header := zslice 0 12 F; sg_index := index_of F (fld Big 8 4 F) |}) as -> by congruence. cbn [sg_index].
    rewrite zlen_map, index_len by lia. split; [lia|]. split; [lia|]. intros i slot off. rewrite zget_map.
    destruct (zget (index_of F (fld Big 8 4 F)) i) as [c|] eqn:G; cbn [option_map]; [|discriminate].
    pose proof (zget_Some_lt _ _ _ G) as Hi. rewrite index_len in Hi by lia. rewrite index_get in G by lia. assert (c = zslice (12 + 8 * i) 8 F) as -> by congruence.
    unfold csig_entry. rewrite !fld_zslice by lia. intro X. rewrite !num_iff by exact HF. change (Z.of_nat 4) with 4.
    replace (16 + 8 * i) with (12 + 8 * i + 4) by lia. rewrite <- (Z.add_0_r (12 + 8 * i)) at 3. split; (split; [lia|]; split; [lia|congruence]).
  - intros (M & C & H). assert (E : 12 + 8 * zlen idx <= zlen F).
    { destruct (Z.eq_dec (zlen idx) 0); [lia|]. pose proof (zlen_nonneg idx). destruct (zget_lt_Some idx (zlen idx - 1)) as ((slot & off) & G); [lia|].
      apply H in G as (_ & G). apply num_iff in G; [|exact HF]. change (Z.of_nat 4) with 4 in G. lia. }
    replace ((12 <=? zlen F) && (fld Big 0 4 F =? 0xfade0cc0) && (12 + 8 * fld Big 8 4 F <=? zlen F)) with true by lia.
    eexists. split; [reflexivity|]. split; [reflexivity|]. cbn [sg_index]. apply zget_ext; rewrite zlen_map, index_len by lia; [lia|].
    intros i Hi. rewrite zget_map, index_get by lia. cbn [option_map]. destruct (zget_lt_Some idx i) as ((slot & off) & G); [lia|]. rewrite G. f_equal.
    apply H in G as (G1 & G2). rewrite num_iff in G1, G2 by exact HF. change (Z.of_nat 4) with 4 in G1, G2. unfold csig_entry. rewrite !fld_zslice by lia.
    rewrite Z.add_0_r. replace (12 + 8 * i + 4) with (16 + 8 * i) by lia. f_equal; lia.
Qed.

(** * Blobs *)
Lemma range_iff D off n b : 0 <= off -> 0 <= n -> b_read_bytes_at D off n = Ok b <-> zlen b = n /\ holds D off b.
Proof.
  intros Ho Hn. unfold b_read_bytes_at, b_skip, get_from. split.
  - destruct ((0 <=? off) && (off <=? zlen D)) eqn:E; [|discriminate]. unfold b_read_bytes, get_to, get_from. rewrite zlen_zdrop by lia.
    destruct ((0 <=? n) && (n <=? zlen D - off)) eqn:E2; [|discriminate]. cbn [fst]. intro H. assert (b = ztake n (zdrop off D)) as -> by congruence.
    assert (L : zlen (ztake n (zdrop off D)) = n) by (apply zlen_ztake; rewrite zlen_zdrop; lia). split; [exact L|]. apply holds_iff. rewrite L. split; [lia|]. split; [lia|reflexivity].
  - intros (<- & H). apply holds_iff in H. destruct H as (A & B & C). pose proof (zlen_nonneg b). destruct ((0 <=? off) && (off <=? zlen D)) eqn:E; [|lia].
    unfold b_read_bytes, get_to, get_from. rewrite zlen_zdrop by lia. destruct ((0 <=? zlen b) && (zlen b <=? zlen D - off)) eqn:E2; [|lia].
    cbn [fst]. unfold zslice in C. rewrite C. reflexivity.
Qed.
Lemma range_np D off n : b_read_bytes_at D off n <> Panic.
Proof. unfold b_read_bytes_at, b_skip, get_from. destruct (_ && _); [|discriminate]. unfold b_read_bytes, get_to, get_from. destruct (_ && _); discriminate. Qed.
Lemma b_read_at_eq D o n : 0 <= o -> 0 <= n -> b_read_at D o n = if o + n <=? zlen D then Ok (zslice o n D) else Err.
Proof.
  intros Ho Hn. unfold b_read_at, b_skip, get_from. destruct (Z.leb_spec o (zlen D)).
  - replace (0 <=? o) with true by lia. cbn [andb]. rewrite b_read_drop by lia. destruct (Z.leb_spec (o + n) (zlen D)); reflexivity.
  - replace (0 <=? o) with true by lia. cbn [andb]. destruct (Z.leb_spec (o + n) (zlen D)); [lia|reflexivity].
Qed.
Definition blob_of (D : bytes) (entry : Z * Z) : out csblob :=
  header <- b_read_at D (snd entry) 8 ;;
  data <- b_read_bytes_at D (snd entry) (fld Big 4 4 header) ;;
  Ok {| bl_slot := fst entry; bl_offset := snd entry; bl_magic := fld Big 0 4 header; bl_data := data |}.
Lemma blob_np D entry : blob_of D entry <> Panic.
Proof.
  unfold blob_of. unfold b_read_at, b_skip. destruct (get_from _ _) as [t|]; cbn [bind]; [|discriminate]. unfold b_read, from_bytes. destruct (get_from _ _); cbn [of_opt bind fst]; [|discriminate].
  pose proof (range_np D (snd entry) (fld Big 4 4 (ztake 8 t))). destruct (b_read_bytes_at _ _ _); cbn [bind]; congruence.
Qed.
Lemma blob_iff D entry b : bytes_ok D -> 0 <= snd entry -> blob_of D entry = Ok b <-> is_blob D entry b.
Proof.
  intros HD Ho. destruct entry as (slot, off). cbn [snd] in Ho. unfold blob_of, is_blob. cbn [fst snd]. rewrite b_read_at_eq by lia. rewrite !num_iff by exact HD. change (Z.of_nat 4) with 4.
  destruct (Z.leb_spec (off + 8) (zlen D)); cbn [bind].
  - rewrite !fld_zslice by lia. rewrite Z.add_0_r. pose proof (fld_bound Big (off + 4) 4 D HD). split.
    + destruct (b_read_bytes_at D off (fld Big (off + 4) 4 D)) as [d| |] eqn:E; cbn [bind]; [|discriminate|discriminate]. apply range_iff in E as (L & Hh); [|lia|lia].
      intro X. injection X as <-. cbn [bl_slot bl_offset bl_magic bl_data]. split; [reflexivity|]. split; [lia|]. split; [lia|exact Hh].
    + destruct b as [sl of mg dt]. cbn [bl_slot bl_offset bl_magic bl_data]. intros (E & (_ & _ & M) & (_ & _ & L) & Hh). injection E as -> ->.
      rewrite (proj2 (range_iff D off (fld Big (off + 4) 4 D) dt ltac:(lia) ltac:(lia))) by (split; [lia|exact Hh]). cbn [bind]. rewrite M. reflexivity.
  - split; [discriminate|]. intros (_ & M & L & _). lia.
Qed.
Lemma blobs_run D idx : bytes_ok D -> Forall (fun b => 0 <= snd (csig_entry b)) idx -> exists l,
  results csiter_next {| bi_data := D; bi_index := idx |} l /\
  Forall2 (fun e r => forall b, r = Some b <-> is_blob D e b) (map csig_entry idx) l.
Proof.
  intros HD Hi. induction Hi as [|c idx Hc Hi (l & R & F)].
  - exists []. split; [econstructor; reflexivity|constructor].
  - pose proof (blob_np D (csig_entry c)) as Hp. pose proof (fun b => blob_iff D (csig_entry c) b HD Hc) as Hb.
    assert (N : csiter_next {| bi_data := D; bi_index := c :: idx |} = (b <- blob_of D (csig_entry c) ;; Ok (Some b), {| bi_data := D; bi_index := idx |})).
    { unfold csiter_next, blob_of. cbn [bi_index bi_data]. destruct (csig_entry c) as (slot, off). cbn [fst snd]. destruct (b_read_at D off 8); cbn [bind]; [|reflexivity|reflexivity].
      destruct (b_read_bytes_at _ _ _); reflexivity. }
    destruct (blob_of D (csig_entry c)) as [b| |] eqn:E; cbn [bind] in N; [| |congruence].
    + exists (Some b :: l). split; [eapply res_ok; eassumption|]. constructor; [|exact F]. intro x. rewrite <- Hb. split; intro X; congruence.
    + exists (None :: l). split; [eapply res_err; eassumption|]. constructor; [|exact F]. intro x. rewrite <- Hb. split; intro X; discriminate X.
Qed.
Lemma csig_blobs_run F s : bytes_ok F -> csig_parse F = Ok s -> exists l,
  results csiter_next (csig_blobs s) l /\ Forall2 (fun e r => forall b, r = Some b <-> is_blob F e b) (map csig_entry (sg_index s)) l.
Proof.
  intros HF H. rewrite csig_parse_eq in H by exact HF. destruct ((12 <=? zlen F) && (fld Big 0 4 F =? 0xfade0cc0) && (12 + 8 * fld Big 8 4 F <=? zlen F)) eqn:E; [|discriminate H]. assert (s = {| sg_data := F; sg_header := zslice 0 12 F; sg_index := index_of F (fld Big 8 4 F) |}) as -> by congruence. unfold csig_blobs. cbn [sg_index sg_data].
  apply blobs_run; [exact HF|]. apply Forall_forall. intros c Hc. apply In_zget in Hc as (i & G). pose proof (zget_Some_lt _ _ _ G) as Hi.
  pose proof (fld_bound Big 8 4 F HF). rewrite index_len in Hi by lia. rewrite index_get in G by lia. assert (c = zslice (12 + 8 * i) 8 F) as -> by congruence. unfold csig_entry. cbn [snd]. rewrite fld_zslice by lia.
  apply fld_bound; [exact HF|lia|lia].
Qed.
Lemma code_signature_iff F off n s : zlen F < 2 ^ 63 -> 0 <= off -> 0 <= n ->
  code_signature F off n = Ok s <-> exists D, zlen D = n /\ holds F off D /\ csig_parse D = Ok s.
Proof.
  intros HF Ho Hn. unfold code_signature. split.
  - destruct (rr_read_bytes_at F off n) as [D| |] eqn:E; cbn [bind]; [|discriminate|discriminate]. intro H. apply (proj1 (rr_read_bytes_at_Ok F off n D Ho Hn)) in E as [(-> & ->)|(Hp & Hl & ->)].
    + discriminate H.
    + exists (zslice off n F). assert (L : zlen (zslice off n F) = n) by (apply zlen_zslice; lia). split; [exact L|]. split; [|exact H]. apply holds_iff. rewrite L. split; [lia|]. split; [lia|reflexivity].
  - intros (D & <- & Hh & Hp). rewrite (holds_read_bytes_at F off D) by (try exact Hh; reflexivity). exact Hp.
Qed.

(** * The code directory *)
Lemma cd_part_eq D version s o n : 0 <= o <= zlen D -> 0 <= n -> cd_part version s (zdrop o D) n =
  if s <=? version then if o + n <=? zlen D then (Ok (Some (zslice o n D)), zdrop (o + n) D) else (Err, []) else (Ok None, zdrop o D).
Proof. intros Ho Hn. unfold cd_part. destruct (s <=? version); [|reflexivity]. rewrite b_read_drop by lia. destruct (_ <=? _); reflexivity. Qed.
Definition from_version {A} (version s : Z) (x : A) : option A := if s <=? version then Some x else None.
Definition dir_size (v : Z) : Z :=
  if 132096 <=? v then 88 else if 131840 <=? v then 64 else if 131584 <=? v then 52 else if 131328 <=? v then 48 else 44.
Lemma cdir_parse_eq D : bytes_ok D -> cdir_parse D =
  let v := fld Big 8 4 D in
  if (44 <=? zlen D) && (fld Big 0 4 D =? 0xfade0c02) && (dir_size v <=? zlen D) then
    Ok {| cd_data := D; cd_header := zslice 0 44 D; cd_v1 := from_version v 131328 (zslice 44 4 D); cd_v2 := from_version v 131584 (zslice 48 4 D);
          cd_v3 := from_version v 131840 (zslice 52 12 D); cd_v4 := from_version v 132096 (zslice 64 24 D) |}
  else Err.
Proof.
  intro HD. unfold cdir_parse. pose proof (b_read_drop D 0 44) as R. change (zdrop 0 D) with D in R. rewrite R by (pose proof (zlen_nonneg D); lia). clear R.
  change (0 + 44) with 44. cbv zeta. destruct (Z.leb_spec 44 (zlen D)); cbn [bs fst andb]; [|reflexivity].
  rewrite !fld_zslice by lia. change (0 + 0) with 0. change (0 + 8) with 8. change cs_magic_directory with 0xfade0c02. destruct (fld Big 0 4 D =? 0xfade0c02); cbn [negb andb fst]; [|reflexivity].
  set (v := fld Big 8 4 D). unfold dir_size, from_version. rewrite cd_part_eq by lia.
  destruct (Z.leb_spec 131328 v).
  2: { cbn [bs]. do 3 (rewrite cd_part_eq by lia; match goal with |- context [?a <=? v] => replace (a <=? v) with false by lia end; cbn [bs]).
       replace (131328 <=? v) with false by lia. replace (132096 <=? v) with false by lia. replace (131840 <=? v) with false by lia. replace (131584 <=? v) with false by lia.
       replace (44 <=? zlen D) with true by lia. reflexivity. }
  destruct (Z.leb_spec (44 + 4) (zlen D)); cbn [bs fst].
  2: { match goal with |- context [if ?a <=? zlen D then _ else _] => replace (a <=? zlen D) with false; [reflexivity|] end. symmetry. apply Z.leb_gt. repeat destruct (_ <=? v); lia. }
  change (44 + 4) with 48. rewrite cd_part_eq by lia. destruct (Z.leb_spec 131584 v).
  2: { cbn [bs]. do 2 (rewrite cd_part_eq by lia; match goal with |- context [?a <=? v] => replace (a <=? v) with false by lia end; cbn [bs]).
       replace (132096 <=? v) with false by lia. replace (131840 <=? v) with false by lia. 
       replace (48 <=? zlen D) with true by lia. reflexivity. }
  destruct (Z.leb_spec (48 + 4) (zlen D)); cbn [bs fst].
  2: { match goal with |- context [if ?a <=? zlen D then _ else _] => replace (a <=? zlen D) with false; [reflexivity|] end. symmetry. apply Z.leb_gt. repeat destruct (_ <=? v); lia. }
  change (48 + 4) with 52. rewrite cd_part_eq by lia. destruct (Z.leb_spec 131840 v).
  2: { cbn [bs]. do 1 (rewrite cd_part_eq by lia; match goal with |- context [?a <=? v] => replace (a <=? v) with false by lia end; cbn [bs]).
       replace (132096 <=? v) with false by lia. replace (52 <=? zlen D) with true by lia. reflexivity. }
  destruct (Z.leb_spec (52 + 12) (zlen D)); cbn [bs fst].
  2: { match goal with |- context [if ?a <=? zlen D then _ else _] => replace (a <=? zlen D) with false; [reflexivity|] end. symmetry. apply Z.leb_gt. repeat destruct (_ <=? v); lia. }
  change (52 + 12) with 64. rewrite cd_part_eq by lia. destruct (Z.leb_spec 132096 v).
  - change (64 + 24) with 88. destruct (Z.leb_spec 88 (zlen D)); reflexivity.
  - cbn [bs fst]. replace (64 <=? zlen D) with true by lia. reflexivity.
Qed.
Lemma cdir_np D : bytes_ok D -> cdir_parse D <> Panic.
Proof. intro H. rewrite cdir_parse_eq by exact H. cbv zeta. destruct (_ && _); discriminate. Qed.
Lemma since_iff {A} v s (o : option A) (x : A) (P : A -> Prop) : (s <= v -> forall y, P y <-> y = x) -> (since v s o P <-> from_version v s x = o).
Proof.
  intro H. unfold since, from_version. destruct (Z.leb_spec s v) as [L|L].
  - specialize (H L). destruct o as [y|]; [rewrite H; split; [intros (_ & ->); reflexivity|intro E; split; [exact L|congruence]]|]. split; [lia|discriminate].
  - destruct o as [y|]; [split; [lia|discriminate]|]. split; [reflexivity|lia].
Qed.
Lemma since_need {A} v s (o : option A) (P : A -> Prop) : since v s o P -> s <= v -> exists y, P y.
Proof. unfold since. destruct o as [y|]; [intros (_ & H) _; exists y; exact H|lia]. Qed.
Lemma num_val D (HD : bytes_ok D) (n : nat) o y : 0 <= o -> o + Z.of_nat n <= zlen D -> (num n D o y <-> y = fld Big o (Z.of_nat n) D).
Proof. intros. rewrite num_iff by exact HD. split; [intros (_ & _ & <-); reflexivity|intros ->; auto]. Qed.
Definition exec_at (D : bytes) : Z * Z * Z -> Prop := fun '(base, limit, flags) => num 8 D 64 base /\ num 8 D 72 limit /\ num 8 D 80 flags.
Lemma exec_val D (HD : bytes_ok D) y : 88 <= zlen D -> (exec_at D y <-> y = (fld Big 64 8 D, fld Big 72 8 D, fld Big 80 8 D)).
Proof.
  intro H. destruct y as ((b & l) & f). unfold exec_at. rewrite !(num_val D HD 8) by lia. change (Z.of_nat 8) with 8. split; [intros (-> & -> & ->); reflexivity|].
  intro E. assert (b = fld Big 64 8 D /\ l = fld Big 72 8 D /\ f = fld Big 80 8 D) as (-> & -> & ->) by (repeat split; congruence). auto.
Qed.
Lemma parts_iff D v d : bytes_ok D -> 44 <= zlen D ->
  since v 0x20100 (di_scatter d) (num 4 D 44) /\ since v 0x20200 (di_team d) (num 4 D 48) /\
  since v 0x20300 (di_code_limit64 d) (num 8 D 56) /\ since v 0x20400 (di_exec d) (exec_at D) <->
  dir_size v <= zlen D /\ from_version v 131328 (fld Big 44 4 D) = di_scatter d /\ from_version v 131584 (fld Big 48 4 D) = di_team d /\
  from_version v 131840 (fld Big 56 8 D) = di_code_limit64 d /\
  from_version v 132096 (fld Big 64 8 D, fld Big 72 8 D, fld Big 80 8 D) = di_exec d.
Proof.
  intros HD HL.
  assert (K : dir_size v <= zlen D ->
    (since v 0x20100 (di_scatter d) (num 4 D 44) <-> from_version v 131328 (fld Big 44 4 D) = di_scatter d) /\
    (since v 0x20200 (di_team d) (num 4 D 48) <-> from_version v 131584 (fld Big 48 4 D) = di_team d) /\
    (since v 0x20300 (di_code_limit64 d) (num 8 D 56) <-> from_version v 131840 (fld Big 56 8 D) = di_code_limit64 d) /\
    (since v 0x20400 (di_exec d) (exec_at D) <-> from_version v 132096 (fld Big 64 8 D, fld Big 72 8 D, fld Big 80 8 D) = di_exec d)).
  { intro HS. assert (J : (131328 <= v -> 48 <= zlen D) /\ (131584 <= v -> 52 <= zlen D) /\ (131840 <= v -> 64 <= zlen D) /\ (132096 <= v -> 88 <= zlen D)).
    { unfold dir_size in HS. destruct (Z.leb_spec 132096 v); [lia|]. destruct (Z.leb_spec 131840 v); [lia|]. destruct (Z.leb_spec 131584 v); [lia|]. destruct (Z.leb_spec 131328 v); lia. }
    destruct J as (J1 & J2 & J3 & J4). split; [|split; [|split]]; apply since_iff; intros L y.
    - apply (num_val D HD 4); [lia|]. specialize (J1 L). lia.
    - apply (num_val D HD 4); [lia|]. specialize (J2 L). lia.
    - apply (num_val D HD 8); [lia|]. specialize (J3 L). lia.
    - apply exec_val; [exact HD|]. exact (J4 L). }
  split.
  - intros (A1 & A2 & A3 & A4). assert (HS : dir_size v <= zlen D).
    { unfold dir_size. destruct (Z.leb_spec 132096 v) as [L|L].
      { destruct (since_need _ _ _ _ A4 L) as (((b & l) & f) & _ & _ & Hy). apply num_iff in Hy; [|exact HD]. lia. }
      destruct (Z.leb_spec 131840 v) as [L2|L2]. { destruct (since_need _ _ _ _ A3 L2) as (y & Hy). apply num_iff in Hy; [|exact HD]. lia. }
      destruct (Z.leb_spec 131584 v) as [L3|L3]. { destruct (since_need _ _ _ _ A2 L3) as (y & Hy). apply num_iff in Hy; [|exact HD]. lia. }
      destruct (Z.leb_spec 131328 v) as [L4|L4]; [|exact HL]. destruct (since_need _ _ _ _ A1 L4) as (y & Hy). apply num_iff in Hy; [|exact HD]. lia. }
    destruct (K HS) as (K1 & K2 & K3 & K4). tauto.
  - intros (HS & A). destruct (K HS) as (K1 & K2 & K3 & K4). tauto.
Qed.
Lemma from_map {A B} v s (f : A -> B) x : option_map f (from_version v s x) = from_version v s (f x).
Proof. unfold from_version. destruct (_ <=? _); reflexivity. Qed.
Lemma shows_iff D d : let v := fld Big 8 4 D in
  shows {| cd_data := D; cd_header := zslice 0 44 D; cd_v1 := from_version v 131328 (zslice 44 4 D); cd_v2 := from_version v 131584 (zslice 48 4 D);
          cd_v3 := from_version v 131840 (zslice 52 12 D); cd_v4 := from_version v 132096 (zslice 64 24 D) |} d <->
  v = di_version d /\ fld Big 12 4 D = di_flags d /\ fld Big 16 4 D = di_hash_offset d /\ fld Big 20 4 D = di_ident_offset d /\
  fld Big 24 4 D = di_special_slots d /\ fld Big 28 4 D = di_code_slots d /\ fld Big 32 4 D = di_code_limit d /\
  fld Big 36 1 D = di_hash_size d /\ fld Big 37 1 D = di_hash_type d /\ fld Big 39 1 D = di_page_size d /\
  from_version v 131328 (fld Big 44 4 D) = di_scatter d /\ from_version v 131584 (fld Big 48 4 D) = di_team d /\
  from_version v 131840 (fld Big 56 8 D) = di_code_limit64 d /\
  from_version v 132096 (fld Big 64 8 D, fld Big 72 8 D, fld Big 80 8 D) = di_exec d.
Proof.
  cbv zeta. unfold shows, cd_version, cd_flags, cd_hash_offset, cd_ident_offset, cd_n_special_slots, cd_n_code_slots, cd_code_limit32, cd_hash_size, cd_hash_type, cd_page_size, cd_scatter_offset, cd_team_offset, cd_code_limit64, cd_exec_seg.
  cbn [cd_header cd_v1 cd_v2 cd_v3 cd_v4]. rewrite !from_map. rewrite !fld_zslice by lia.
  repeat match goal with |- context [Z.add ?a ?b] => let c := eval vm_compute in (Z.add a b) in change (Z.add a b) with c end. reflexivity.
Qed.
Lemma cdir_parse_iff D d : bytes_ok D -> (exists c, cdir_parse D = Ok c /\ cd_data c = D /\ shows c d) <-> is_directory D d.
Proof.
  intro HD. rewrite cdir_parse_eq by exact HD. pose proof (shows_iff D d) as Sh. cbv zeta in Sh |- *. set (v := fld Big 8 4 D) in *.
  assert (DD : is_directory D d <-> 44 <= zlen D /\ fld Big 0 4 D = 0xfade0c02 /\ dir_size v <= zlen D /\
    shows {| cd_data := D; cd_header := zslice 0 44 D; cd_v1 := from_version v 131328 (zslice 44 4 D); cd_v2 := from_version v 131584 (zslice 48 4 D);
          cd_v3 := from_version v 131840 (zslice 52 12 D); cd_v4 := from_version v 132096 (zslice 64 24 D) |} d).
  { rewrite Sh. pose proof (parts_iff D (di_version d) d HD) as P. unfold is_directory.
    pose proof (fun n o y => num_iff D HD n o y) as N. fold (exec_at D).
    split.
    - intros (M & V & R). destruct R as (R1 & R2 & R3 & R4 & R5 & R6 & R7 & R8 & R9 & L & R).
      apply N in M, V, R1, R2, R3, R4, R5, R6, R7, R8, R9. 
      destruct M as (_ & _ & M), V as (_ & _ & V). change (Z.of_nat 4) with 4 in *. change (Z.of_nat 1) with 1 in *. fold v in V.
      destruct (proj1 (P L) R) as (Q & Q1 & Q2 & Q3 & Q4). rewrite V. repeat (split; [tauto|]). tauto.
    - intros (L & M & Q & R0 & R1 & R2 & R3 & R4 & R5 & R6 & R7 & R8 & R9 & A1 & A2 & A3 & A4). rewrite R0 in *.
      assert (N4 : forall o y, 0 <= o -> o + 4 <= zlen D -> fld Big o 4 D = y -> num 4 D o y) by (intros; apply N; auto).
      assert (N1 : forall o y, 0 <= o -> o + 1 <= zlen D -> fld Big o 1 D = y -> num 1 D o y) by (intros; apply N; auto).
      repeat (split; [first [apply N4; [lia|lia|assumption]|apply N1; [lia|lia|assumption]]|]). split; [exact L|]. apply (P L). auto. }
  rewrite DD. split.
  - intros (c & H & _ & Hs). destruct ((44 <=? zlen D) && (fld Big 0 4 D =? 0xfade0c02) && (dir_size v <=? zlen D)) eqn:E; [|discriminate H].
    match type of H with Ok ?x = _ => assert (c = x) as -> by congruence end. split; [lia|]. split; [lia|]. split; [lia|exact Hs].
  - intros (L & M & Q & Hs). replace ((44 <=? zlen D) && (fld Big 0 4 D =? 0xfade0c02) && (dir_size v <=? zlen D)) with true by lia.
    eexists. split; [reflexivity|]. split; [reflexivity|exact Hs].
Qed.

(** * Accessors *)
Lemma dir_bounds D d : is_directory D d -> 0 <= di_hash_offset d < 2 ^ 32 /\ 0 <= di_ident_offset d < 2 ^ 32 /\ 0 <= di_special_slots d < 2 ^ 32 /\ 0 <= di_code_slots d < 2 ^ 32 /\
  0 <= di_hash_size d < 256 /\ (forall t, di_team d = Some t -> 0 <= t < 2 ^ 32).
Proof.
  intros (_ & _ & _ & (_ & A) & (_ & B) & (_ & C) & (_ & E) & _ & (_ & F) & _ & _ & _ & _ & T & _). change (8 * Z.of_nat 4) with 32 in *. change (2 ^ (8 * Z.of_nat 1)) with 256 in *.
  repeat (split; [assumption|]). intros t Ht. rewrite Ht in T. destruct T as (_ & _ & T). exact T.
Qed.
Section Access.
Context (D : bytes) (d : directory) (c : cdir) (HI : is_directory D d) (HC : cd_data c = D) (Sh : shows c d).
Lemma special_iff slot h : 0 <= slot ->
  cd_special_hash c slot = Ok h <-> 1 <= slot <= di_special_slots d /\ hash_at D d (- slot) h.
Proof.
  intros Hs. pose proof (dir_bounds _ _ HI) as (B1 & _ & B3 & _ & B5 & _). destruct Sh as (_ & _ & S3 & _ & S5 & _ & _ & S8 & _).
  unfold cd_special_hash, hash_at. rewrite S3, S5, S8, HC. unfold cmul, csub.
  destruct ((slot <? 1) || (di_special_slots d <? slot)) eqn:E1; [split; [discriminate|lia]|].
  destruct (Z.ltb_spec (slot * di_hash_size d) (2 ^ 32)); cbn [of_opt bind].
  2: { split; [discriminate|]. intros (_ & _ & Hh). apply holds_bounds in Hh. lia. }
  destruct (Z.leb_spec (slot * di_hash_size d) (di_hash_offset d)); cbn [of_opt bind].
  2: { split; [discriminate|]. intros (_ & _ & Hh). apply holds_bounds in Hh. lia. }
  rewrite range_iff by lia. replace (di_hash_offset d + - slot * di_hash_size d) with (di_hash_offset d - slot * di_hash_size d) by lia. split; [intro X; split; [lia|exact X]|tauto].
Qed.
Lemma code_iff i h : 0 <= i ->
  cd_code_hash c i = Ok h <->
  (di_scatter d = None \/ di_scatter d = Some 0) /\ i < di_code_slots d /\ di_hash_offset d + i * di_hash_size d < 2 ^ 32 /\ hash_at D d i h.
Proof.
  intros Hs. pose proof (dir_bounds _ _ HI) as (B1 & _ & _ & B4 & B5 & _). destruct Sh as (_ & _ & S3 & _ & _ & S6 & _ & S8 & _ & _ & P1 & _).
  unfold cd_code_hash, hash_at. rewrite S3, S6, S8, HC, P1. unfold cmul, cadd.
  destruct (Z.eqb_spec match di_scatter d with Some o => o | None => 0 end 0) as [E|E]; cbn [negb].
  2: { split; [discriminate|]. intros ([X|X] & _); rewrite X in E; congruence. }
  assert (X : di_scatter d = None \/ di_scatter d = Some 0) by (destruct (di_scatter d); [right; congruence|left; reflexivity]).
  destruct (Z.leb_spec (di_code_slots d) i); [split; [discriminate|lia]|].
  destruct (Z.ltb_spec (i * di_hash_size d) (2 ^ 32)); cbn [of_opt bind]; [|split; [discriminate|lia]].
  destruct (Z.ltb_spec (i * di_hash_size d + di_hash_offset d) (2 ^ 32)); cbn [of_opt bind]; [|split; [discriminate|lia]].
  rewrite range_iff by lia. rewrite (Z.add_comm (i * di_hash_size d)). split; [intro Y|tauto]. split; [exact X|]. split; [lia|]. split; [lia|exact Y].
Qed.
Lemma ident_iff s : cd_ident c = Ok s <-> string_at D (di_ident_offset d) s.
Proof.
  pose proof (dir_bounds _ _ HI) as (_ & B & _). destruct Sh as (_ & _ & _ & S4 & _). unfold cd_ident. rewrite S4, HC. apply string_at_iff. lia.
Qed.
Lemma team_iff t : cd_team_id c = Ok t <->
  match t with None => di_team d = None \/ di_team d = Some 0 | Some s => exists o, di_team d = Some o /\ o <> 0 /\ string_at D o s end.
Proof.
  pose proof (dir_bounds _ _ HI) as (_ & _ & _ & _ & _ & B). destruct Sh as (_ & _ & _ & _ & _ & _ & _ & _ & _ & _ & _ & P2 & _). unfold cd_team_id. rewrite P2, HC.
  destruct (di_team d) as [o|]; cbv zeta iota.
  - specialize (B o eq_refl). destruct (Z.eqb_spec o 0) as [->|E].
    + destruct t as [s|]; split.
      * discriminate.
      * intros (o & X & Y & _). congruence.
      * intros _. right. reflexivity.
      * reflexivity.
    + pose proof (fun s => string_at_iff D o s ltac:(lia)) as N. destruct (b_read_string_at D o) as [r| |] eqn:R; cbn [bind].
      * destruct t as [s|]; split.
        -- intro X. exists o. split; [reflexivity|]. split; [exact E|]. apply N. congruence.
        -- intros (o' & X & _ & Y). assert (o' = o) as -> by congruence. apply N in Y. congruence.
        -- discriminate.
        -- intros [X|X]; congruence.
      * destruct t as [s|]; split; try discriminate.
        -- intros (o' & X & _ & Y). assert (o' = o) as -> by congruence. apply N in Y. congruence.
        -- intros [X|X]; congruence.
      * destruct t as [s|]; split; try discriminate.
        -- intros (o' & X & _ & Y). assert (o' = o) as -> by congruence. apply N in Y. congruence.
        -- intros [X|X]; congruence.
  - change (0 =? 0) with true. cbv iota. destruct t as [s|]; split.
    + discriminate.
    + intros (o & X & _). discriminate X.
    + intros _. left. reflexivity.
    + reflexivity.
Qed.
Lemma limit_eq : cd_code_limit c = match di_code_limit64 d with Some l => if l =? 0 then di_code_limit d else l | None => di_code_limit d end.
Proof.
  destruct Sh as (_ & _ & _ & _ & _ & _ & S7 & _ & _ & _ & _ & _ & P3 & _). unfold cd_code_limit. rewrite S7, P3. destruct (di_code_limit64 d) as [l|]; [|reflexivity]. destruct (l =? 0); reflexivity.
Qed.
End Access.
Lemma special_np c slot : cd_special_hash c slot <> Panic.
Proof.
  unfold cd_special_hash. destruct (_ || _); [discriminate|]. destruct (cmul _ _ _); cbn [of_opt bind]; [|discriminate]. destruct (csub _ _); cbn [of_opt bind]; [|discriminate]. apply range_np.
Qed.
Lemma code_np c i : cd_code_hash c i <> Panic.
Proof.
  unfold cd_code_hash. destruct (negb _); [discriminate|]. destruct (_ <=? _); [discriminate|]. destruct (cmul _ _ _); cbn [of_opt bind]; [|discriminate]. destruct (cadd _ _ _); cbn [of_opt bind]; [|discriminate]. apply range_np.
Qed.
Lemma team_np c : cd_team_id c <> Panic.
Proof. unfold cd_team_id. cbv zeta. destruct (_ =? 0); [discriminate|]. pose proof (string_at_no_panic (cd_data c) (match cd_team_offset c with Some o => o | None => 0 end)). destruct (b_read_string_at _ _); cbn [bind]; congruence. Qed.
