(** Proofs about the PE reader: addresses, rich header, base relocations. *)
From Verif Require Import Core_proofs Util_proofs File_proofs Str_proofs Pod_proofs Iter_proofs Ar_proofs ArSym_proofs Rel_proofs CoffI_proofs.
From Verif Require Import Pe_spec.

(** * Lists *)
Lemma ztake_ztake_le {A} a b (l : list A) : a <= b -> ztake a (ztake b l) = ztake a l.
Proof. intro H. unfold ztake. rewrite firstn_firstn. f_equal. lia. Qed.
Lemma zdrop_ztake {A} a b (l : list A) : 0 <= a <= b -> zdrop a (ztake b l) = ztake (b - a) (zdrop a l).
Proof. intro H. unfold ztake, zdrop. rewrite skipn_firstn_comm. f_equal. lia. Qed.
Lemma find_map_Some {A B} (f : A -> option B) l y : find_map f l = Some y <-> exists x, is_first (fun x => f x <> None) l x /\ f x = Some y.
Proof.
  induction l as [|a l IH]; cbn [find_map].
  - split; [discriminate|]. intros (x & (p & q & E & _) & _). destruct p; discriminate.
  - destruct (f a) as [z|] eqn:Ea.
    + split.
      * intros [= ->]. exists a. split; [|exact Ea]. exists [], l. split; [reflexivity|]. split; [congruence|constructor].
      * intros (x & ([|p0 p] & q & E & Hx & Hp) & Hy). { cbn in E. assert (x = a) by congruence. subst. congruence. }
        assert (p0 = a) by (cbn in E; congruence). subst. apply Forall_inv in Hp. cbn beta in Hp. exfalso. apply Hp. congruence.
    + rewrite IH. split.
      * intros (x & (p & q & -> & Hx & Hp) & Hy). exists x. split; [|exact Hy]. exists (a :: p), q. split; [reflexivity|]. split; [exact Hx|]. constructor; [|exact Hp]. cbn beta. congruence.
      * intros (x & ([|p0 p] & q & E & Hx & Hp) & Hy). { cbn in E. assert (x = a) by congruence. subst. congruence. }
        exists x. split; [|exact Hy]. exists p, q. split; [cbn in E; congruence|]. split; [exact Hx|]. apply Forall_inv_tail in Hp. exact Hp.
Qed.
Lemma is_first_iff {A} (P Q : A -> Prop) l x : (forall y, In y l -> (P y <-> Q y)) -> is_first P l x <-> is_first Q l x.
Proof.
  intro H. unfold is_first. split; intros (a & c & -> & Hx & Ha); exists a, c; (split; [reflexivity|]); split.
  - apply H; [|exact Hx]. apply in_or_app. right. left. reflexivity.
  - rewrite Forall_forall in *. intros y Hy N. apply (Ha y Hy). apply H; [|exact N]. apply in_or_app. left. exact Hy.
  - apply H; [|exact Hx]. apply in_or_app. right. left. reflexivity.
  - rewrite Forall_forall in *. intros y Hy N. apply (Ha y Hy). apply H; [|exact N]. apply in_or_app. left. exact Hy.
Qed.
Lemma is_first_in {A} (P : A -> Prop) l x : is_first P l x -> In x l /\ P x.
Proof. intros (a & c & -> & Hx & _). split; [|exact Hx]. apply in_or_app. right. left. reflexivity. Qed.
Lemma find_map_None {A B} (f : A -> option B) l : find_map f l = None <-> Forall (fun x => f x = None) l.
Proof.
  induction l as [|a l IH]; cbn [find_map]; [split; [constructor|reflexivity]|]. destruct (f a) eqn:E.
  - split; [discriminate|]. intro H. apply Forall_inv in H. congruence.
  - rewrite IH. split; [intro; constructor; assumption|]. intro H. apply Forall_inv_tail in H. exact H.
Qed.

(** * Addresses *)
Lemma file_range_at_eq s va : sec_u32 s -> 0 <= va ->
  pe_file_range_at s va = if (c_vaddr s <=? va) && (va <? c_vaddr s + mapped s) && (offset_of s va <? 2 ^ 32)
    then Some (offset_of s va, c_vaddr s + mapped s - va) else None.
Proof.
  intros (H1 & H2 & H3 & H4) Hv. unfold pe_file_range_at, csub, pe_file_range, cadd, offset_of, mapped in *.
  destruct (Z.leb_spec (c_vaddr s) va); cbn [andb].
  2: { reflexivity. }
  destruct (Z.ltb_spec (va - c_vaddr s) (Z.min (c_vsize s) (c_rawsize s))), (Z.ltb_spec va (c_vaddr s + Z.min (c_vsize s) (c_rawsize s))); try lia; cbn [andb]; [|reflexivity].
  destruct (c_rawptr s + (va - c_vaddr s) <? 2 ^ 32); cbn [option_map]; [|reflexivity]. do 2 f_equal. lia.
Qed.
Lemma t_file_range t va o n : Forall sec_u32 t -> 0 <= va ->
  t_file_range_at t va = Some (o, n) <-> exists s, is_first (fun s => covers s va /\ offset_of s va < 2 ^ 32) t s /\ o = offset_of s va /\ n = c_vaddr s + mapped s - va.
Proof.
  intros Ht Hv. unfold t_file_range_at. rewrite find_map_Some. rewrite Forall_forall in Ht.
  assert (Q : forall s, In s t -> pe_file_range_at s va <> None <-> covers s va /\ offset_of s va < 2 ^ 32).
  { intros s Hs. rewrite file_range_at_eq by auto. unfold covers. destruct (_ && _) eqn:E; split; try congruence; lia. }
  split; intros (s & Hf & E).
  - apply (is_first_iff _ (fun s => covers s va /\ offset_of s va < 2 ^ 32) _ _ Q) in Hf. exists s. split; [exact Hf|]. apply is_first_in in Hf as [Hs _].
    rewrite file_range_at_eq in E by auto. destruct (_ && _); [|discriminate]. injection E as <- <-. auto.
  - pose proof (is_first_in _ _ _ Hf) as [Hs [Hc Ho]]. exists s. split; [apply (is_first_iff _ _ _ _ Q); exact Hf|].
    rewrite file_range_at_eq by auto. unfold covers in Hc. destruct (_ && _) eqn:B; [destruct E as [-> ->]; reflexivity|].
    exfalso. destruct (Z.leb_spec (c_vaddr s) va), (Z.ltb_spec va (c_vaddr s + mapped s)), (Z.ltb_spec (offset_of s va) (2 ^ 32)); try lia.
Qed.
Definition in_file (F : bytes) (s : csec) : Prop := c_rawptr s + mapped s <= zlen F.
Lemma data_at_eq F s va : sec_u32 s -> 0 <= va ->
  pe_data_at F s va = if (c_vaddr s <=? va) && (va <? c_vaddr s + mapped s) && (offset_of s va <? 2 ^ 32) && (c_rawptr s + mapped s <=? zlen F)
    then Some (zslice (offset_of s va) (c_vaddr s + mapped s - va) F) else None.
Proof.
  intros H Hv. unfold pe_data_at. rewrite file_range_at_eq by assumption. destruct (_ && _) eqn:E; cbn [andb]; [|reflexivity].
  apply andb_prop in E as [E B3]. apply andb_prop in E as [B1 B2]. destruct H as (H1 & H2 & H3 & H4). unfold offset_of in *.
  rewrite rr_read_bytes_at_eq by (unfold u32_ok in *; lia). destruct (Z.eqb_spec (c_vaddr s + mapped s - va) 0); [lia|].
  destruct (Z.leb_spec (c_rawptr s + (va - c_vaddr s) + (c_vaddr s + mapped s - va)) (zlen F)), (Z.leb_spec (c_rawptr s + mapped s) (zlen F)); try lia; reflexivity.
Qed.
Lemma t_data_at_iff F t va d : Forall sec_u32 t -> 0 <= va ->
  t_data_at F t va = Some d <-> exists s, is_first (fun s => covers s va /\ offset_of s va < 2 ^ 32 /\ in_file F s) t s /\
    d = zslice (offset_of s va) (c_vaddr s + mapped s - va) F.
Proof.
  intros Ht Hv. unfold t_data_at. rewrite find_map_Some. rewrite Forall_forall in Ht.
  assert (Q : forall s, In s t -> pe_data_at F s va <> None <-> covers s va /\ offset_of s va < 2 ^ 32 /\ in_file F s).
  { intros s Hs. rewrite data_at_eq by auto. unfold covers, in_file. destruct (_ && _) eqn:E; split; try congruence; lia. }
  split; intros (s & Hf & E).
  - apply (is_first_iff _ (fun s => covers s va /\ offset_of s va < 2 ^ 32 /\ in_file F s) _ _ Q) in Hf. exists s. split; [exact Hf|]. apply is_first_in in Hf as [Hs _].
    rewrite data_at_eq in E by auto. destruct (_ && _); congruence.
  - pose proof (is_first_in _ _ _ Hf) as [Hs Hc]. exists s. split; [apply (is_first_iff _ _ _ _ Q); exact Hf|].
    apply (Q s Hs) in Hc. rewrite data_at_eq in * by auto. destruct (_ && _); congruence.
Qed.
Lemma data_containing_eq F s va : sec_u32 s -> 0 <= va ->
  pe_data_containing F s va = if (c_vaddr s <=? va) && (va <? c_vaddr s + mapped s) && (c_rawptr s + mapped s <=? zlen F)
    then Some (zslice (c_rawptr s) (mapped s) F, c_vaddr s) else None.
Proof.
  intros (H1 & H2 & H3 & H4) Hv. unfold pe_data_containing, csub, pe_file_range, mapped in *. unfold u32_ok in *.
  destruct (Z.leb_spec (c_vaddr s) va); cbn [andb]; [|reflexivity].
  destruct (Z.ltb_spec (va - c_vaddr s) (Z.min (c_vsize s) (c_rawsize s))), (Z.ltb_spec va (c_vaddr s + Z.min (c_vsize s) (c_rawsize s))); try lia; cbn [andb]; [|reflexivity].
  rewrite rr_read_bytes_at_eq by lia. destruct (Z.eqb_spec (Z.min (c_vsize s) (c_rawsize s)) 0); [lia|].
  destruct (_ <=? _); reflexivity.
Qed.
Lemma t_data_containing_iff F t va d a : Forall sec_u32 t -> 0 <= va ->
  t_data_containing F t va = Some (d, a) <-> exists s, is_first (fun s => covers s va /\ in_file F s) t s /\ d = zslice (c_rawptr s) (mapped s) F /\ a = c_vaddr s.
Proof.
  intros Ht Hv. unfold t_data_containing. rewrite find_map_Some. rewrite Forall_forall in Ht.
  assert (Q : forall s, In s t -> pe_data_containing F s va <> None <-> covers s va /\ in_file F s).
  { intros s Hs. rewrite data_containing_eq by auto. unfold covers, in_file. destruct (_ && _) eqn:E; split; try congruence; lia. }
  split; intros (s & Hf & E).
  - apply (is_first_iff _ (fun s => covers s va /\ in_file F s) _ _ Q) in Hf. exists s. split; [exact Hf|]. apply is_first_in in Hf as [Hs _].
    rewrite data_containing_eq in E by auto. destruct (_ && _); [|discriminate]. split; congruence.
  - pose proof (is_first_in _ _ _ Hf) as [Hs Hc]. exists s. split; [apply (is_first_iff _ _ _ _ Q); exact Hf|].
    apply (Q s Hs) in Hc. rewrite data_containing_eq in * by auto. destruct E as [-> ->]. destruct (_ && _); congruence.
Qed.
(** the two ways to get at data agree, for files below 4 GiB *)
Lemma data_agree F t va : Forall sec_u32 t -> 0 <= va -> zlen F <= 2 ^ 32 ->
  t_data_at F t va = option_map (fun '(d, a) => zdrop (va - a) d) (t_data_containing F t va).
Proof.
  intros Ht Hv HF. induction Ht as [|s t Hs Ht IH]; [reflexivity|]. unfold t_data_at, t_data_containing in *. cbn [find_map].
  rewrite data_at_eq, data_containing_eq by assumption.
  destruct (Z.leb_spec (c_vaddr s) va); cbn [andb]; [|exact IH]. destruct (Z.ltb_spec va (c_vaddr s + mapped s)); cbn [andb]; [|exact IH].
  unfold offset_of. destruct (Z.leb_spec (c_rawptr s + mapped s) (zlen F)).
  - destruct (Z.ltb_spec (c_rawptr s + (va - c_vaddr s)) (2 ^ 32)); [|lia]. cbn [andb option_map]. f_equal.
    destruct Hs as (? & ? & ? & ?). unfold u32_ok in *. unfold zslice.
    rewrite zdrop_ztake by lia. rewrite zdrop_zdrop by lia. f_equal; [lia|f_equal; lia].
  - rewrite andb_false_r. exact IH.
Qed.
Lemma dir_data_iff F d t b : Forall sec_u32 t -> 0 <= fst d -> 0 <= snd d ->
  dir_data F d t = Ok b <-> exists s, is_first (fun s => covers s (fst d) /\ offset_of s (fst d) < 2 ^ 32 /\ in_file F s) t s /\
    fst d + snd d <= c_vaddr s + mapped s /\ b = zslice (offset_of s (fst d)) (snd d) F.
Proof.
  intros Ht H1 H2. unfold dir_data. destruct (t_data_at F t (fst d)) as [x|] eqn:E.
  - apply t_data_at_iff in E as (s & Hs & ->); try assumption. cbn [of_opt bind]. unfold get_to.
    pose proof (is_first_in _ _ _ Hs) as (Hi & Hc & Ho & Hf). unfold covers, in_file in *. rewrite Forall_forall in Ht. destruct (Ht s Hi) as (? & ? & ? & ?). unfold u32_ok, offset_of in *.
    rewrite zlen_zslice by lia. split.
    + destruct (_ && _) eqn:E; cbn [of_opt]; [|discriminate]. apply andb_prop in E as [? ?]. intros [= <-]. exists s. split; [exact Hs|]. split; [lia|].
      unfold zslice. apply ztake_ztake_le. lia.
    + intros (s' & Hs' & Hle & ->). assert (s' = s); [|subst s'].
      { destruct Hs as (a & c & E & P & Q), Hs' as (a' & c' & E' & P' & Q'). clear - E E' P P' Q Q'. subst t. revert a' E' Q'. induction a as [|y a IH]; intros [|y' a'] E' Q'; cbn [app] in E'.
        - congruence.
        - exfalso. assert (y' = s) by congruence. subst. apply Forall_inv in Q'. apply Q'. exact P.
        - exfalso. assert (y = s') by congruence. subst. apply Forall_inv in Q. apply Q. exact P'.
        - apply (IH (Forall_inv_tail Q) a'); [congruence|exact (Forall_inv_tail Q')]. }
      destruct (_ && _) eqn:E; cbn [of_opt]; [|lia]. f_equal. unfold zslice. apply ztake_ztake_le. lia.
  - cbn [of_opt bind]. split; [discriminate|]. intros (s & Hs & _). exfalso.
    assert (t_data_at F t (fst d) = Some (zslice (offset_of s (fst d)) (c_vaddr s + mapped s - fst d) F)) by (apply t_data_at_iff; eauto). congruence.
Qed.

(** * Reading arrays *)
Lemma slice_at_iff S o n k cs : 0 <= o -> 0 < n -> 0 <= k -> zlen S < 2 ^ 63 ->
  b_read_slice_at S o n k = Ok cs <-> holds S o (concat cs) /\ Forall (fun c => zlen c = n) cs /\ zlen cs = k.
Proof.
  intros Ho Hn Hk HS. unfold b_read_slice_at. rewrite b_skip_eq by lia. destruct (Z.leb_spec o (zlen S)).
  - destruct (b_read_slice (zdrop o S) n k) as [r s'] eqn:E. pose proof (ztake_zdrop o S) as Hd. split.
    + cbn [fst]. intros ->. apply b_read_slice_spec in E as [(cs' & [= <-] & Hc & Hf & E)|(? & _)]; try lia; [|discriminate].
      split; [|auto]. exists (ztake o S), s'. rewrite <- E. split; [symmetry; exact Hd|apply zlen_ztake; lia].
    + intros (Hh & Hf & Hc). apply holds_iff in Hh as (_ & Hb & Hs). rewrite (zlen_concat_const n) in * by exact Hf.
      assert (Ez : zdrop o S = concat cs ++ zdrop (o + zlen cs * n) S).
      { rewrite <- Hs. rewrite <- (zdrop_zslice S o (zlen cs * n)) by (pose proof (zlen_nonneg cs); nia). reflexivity. }
      pose proof (zlen_nonneg cs). rewrite Ez, b_read_slice_app in E by (first [assumption|lia|nia]). injection E as <- <-. reflexivity.
  - cbn [fst]. split; [discriminate|]. intros (Hh & _). apply holds_bounds in Hh. pose proof (zlen_nonneg (concat cs)). lia.
Qed.
Lemma slice_at_np S o n k : b_read_slice_at S o n k <> Panic.
Proof. unfold b_read_slice_at. destruct (b_skip S o) as [[] s'] eqn:E; [apply b_read_slice_np|discriminate|]. apply b_skip_spec in E as [(? & _)|(? & _)]; discriminate. Qed.
Lemma holds_bytes_ok F o b : bytes_ok F -> holds F o b -> bytes_ok b.
Proof. intros HF (a & c & -> & _). apply bytes_ok_app in HF as [_ HF]. apply bytes_ok_app in HF as [HF _]. exact HF. Qed.
Lemma concat_bytes_ok l : bytes_ok (concat l) -> Forall bytes_ok l.
Proof. induction l as [|x l IH]; cbn [concat]; [constructor|]. intro H. apply bytes_ok_app in H as [? ?]. constructor; auto. Qed.
(** an array of numbers of [w] bytes *)
Lemma words_at_iff S o (w : nat) k l : (0 < w)%nat -> bytes_ok S -> 0 <= o -> 0 <= k -> zlen S < 2 ^ 63 ->
  (exists cs, b_read_slice_at S o (Z.of_nat w) k = Ok cs /\ l = map (read_u Little) cs) <->
  holds S o (concat (map (write_u Little w) l)) /\ Forall (fun x => 0 <= x < 2 ^ (8 * Z.of_nat w)) l /\ zlen l = k.
Proof.
  intros Hw HS Ho Hk HL. split.
  - intros (cs & E & ->). apply slice_at_iff in E as (Hh & Hf & Hc); try lia. pose proof (concat_bytes_ok _ (holds_bytes_ok _ _ _ HS Hh)) as Hb.
    assert (Em : map (write_u Little w) (map (read_u Little) cs) = cs).
    { rewrite map_map. rewrite <- (map_id cs) at 2. apply map_ext_in. intros c Hi. rewrite Forall_forall in Hb, Hf. specialize (Hf c Hi). specialize (Hb c Hi).
      replace w with (length c) by (unfold zlen in Hf; lia). apply write_read_u. exact Hb. }
    rewrite Em. split; [exact Hh|]. split; [|rewrite <- Hc; unfold zlen; rewrite map_length; reflexivity].
    rewrite Forall_map, Forall_forall in *. intros c Hi. cbn beta. rewrite <- (Hf c Hi). apply read_u_bound. apply Hb. exact Hi.
  - intros (Hh & Hf & Hc). exists (map (write_u Little w) l). split; [|symmetry; apply map_read_write_u; exact Hf].
    apply slice_at_iff; try lia. split; [exact Hh|]. split; [|rewrite <- Hc; unfold zlen; rewrite map_length; reflexivity].
    rewrite Forall_map, Forall_forall. intros x _. rewrite zlen_write_u. reflexivity.
Qed.

(** * Rich header *)
Lemma zlen_word x : zlen (word x) = 4.
Proof. unfold word. rewrite zlen_write_u. reflexivity. Qed.
Lemma zlen_half x : zlen (half x) = 2.
Proof. unfold half. rewrite zlen_write_u. reflexivity. Qed.
Lemma lxor_bound n a b : 0 < n -> 0 <= a < 2 ^ n -> 0 <= b < 2 ^ n -> 0 <= Z.lxor a b < 2 ^ n.
Proof.
  intros Hn Ha Hb. assert (H0 : 0 <= Z.lxor a b) by (apply Z.lxor_nonneg; lia). split; [exact H0|].
  destruct (Z.eq_dec (Z.lxor a b) 0) as [->|]; [lia|]. apply Z.log2_lt_pow2; [lia|]. pose proof (Z.log2_lxor a b ltac:(lia) ltac:(lia)).
  assert (forall x, 0 <= x < 2 ^ n -> Z.log2 x < n). { intros x Hx. destruct (Z.eq_dec x 0) as [->|]; [cbn; lia|]. apply Z.log2_lt_pow2; lia. }
  pose proof (H1 a Ha). pose proof (H1 b Hb). lia.
Qed.
Lemma memmem_loop_spec d needle fuel o : 0 < zlen needle -> o mod 4 = 0 -> 0 <= o -> zlen d < 2 ^ 63 -> (0 < fuel)%nat -> zlen d - o < Z.of_nat fuel ->
  (forall o', 0 <= o' < o -> o' mod 4 = 0 -> ~ holds d o' needle) ->
  exists r, memmem_loop fuel d needle 4 o = Ok r /\
    match r with Some x => first_aligned d needle x | None => forall o', 0 <= o' -> o' mod 4 = 0 -> ~ holds d o' needle end.
Proof.
  intros Hn. revert o. induction fuel as [|fuel IH]; intros o Hm Ho Hd H1 H2 Hno; [lia|]. cbn [memmem_loop].
  rewrite get_from_eq. destruct ((0 <=? o) && (o <=? zlen d)) eqn:E.
  2: { exists None. split; [reflexivity|]. intros o' Ho' Hm' Hh. pose proof (holds_bounds _ _ _ Hh). apply (Hno o'); try assumption. lia. }
  unfold get_to. rewrite zlen_zdrop by lia. destruct ((0 <=? zlen needle) && (zlen needle <=? zlen d - o)) eqn:E2.
  2: { exists None. split; [reflexivity|]. intros o' Ho' Hm' Hh. pose proof (holds_bounds _ _ _ Hh). apply (Hno o'); try assumption. lia. }
  change (ztake (zlen needle) (zdrop o d)) with (zslice o (zlen needle) d).
  destruct (bytes_eqb (zslice o (zlen needle) d) needle) eqn:Eb.
  - apply bytes_eqb_eq in Eb. exists (Some o). split; [reflexivity|]. split; [exact Hm|]. split; [|exact Hno]. apply holds_iff. split; [lia|]. split; [lia|exact Eb].
  - unfold padd. destruct (Z.ltb_spec (o + 4) (2 ^ 64)); [|lia]. cbn [bind]. apply IH; try lia.
    intros o' Ho' Hm'. destruct (Z.lt_ge_cases o' o); [apply Hno; try assumption; lia|]. destruct (Z.eq_dec o' o) as [->|].
    + intro Hh. apply holds_slice in Hh. rewrite Hh, bytes_eqb_refl in Eb. discriminate.
    + exfalso. clear - Hm Hm' Ho' H0 n. Z.to_euclidean_division_equations. lia.
Qed.
Lemma memmem_spec d needle : 0 < zlen needle -> zlen d < 2 ^ 63 ->
  exists r, memmem d needle 4 = Ok r /\
    match r with Some x => first_aligned d needle x | None => forall o', 0 <= o' -> o' mod 4 = 0 -> ~ holds d o' needle end.
Proof.
  intros Hn Hd. unfold memmem. apply memmem_loop_spec; try assumption; try lia. unfold zlen. lia.
Qed.
Lemma first_aligned_unique d needle a b : first_aligned d needle a -> first_aligned d needle b -> a = b.
Proof.
  intros (A1 & A2 & A3) (B1 & B2 & B3). pose proof (holds_bounds _ _ _ A2). pose proof (holds_bounds _ _ _ B2).
  destruct (Z.lt_trichotomy a b) as [L|[L|L]]; [|exact L|]; exfalso; [apply (B3 a)|apply (A3 b)]; try assumption; lia.
Qed.
Lemma memmem_first d needle o : 0 < zlen needle -> zlen d < 2 ^ 63 -> memmem d needle 4 = Ok (Some o) <-> first_aligned d needle o.
Proof.
  intros Hn Hd. destruct (memmem_spec d needle Hn Hd) as (r & E & H). rewrite E. destruct r as [x|].
  - split; [intros [= ->]; exact H|]. intro Hf. do 2 f_equal. apply (first_aligned_unique d needle); assumption.
  - split; [discriminate|]. intros (A & B & _). exfalso. apply (H o); try assumption. apply holds_bounds in B. lia.
Qed.
Lemma dir_chunk c : zlen c = 8 -> bytes_ok c -> c = word (fst (dir_of c)) ++ word (snd (dir_of c)).
Proof.
  intros Hc Hb. pose proof (pod_field Little 0 4 c Hb ltac:(lia) ltac:(lia)) as E0. pose proof (pod_field Little 4 4 c Hb ltac:(lia) ltac:(lia)) as E1.
  change (Z.of_nat 4) with 4 in *. change (zdrop 0 c) with c in E0. change (0 + 4) with 4 in E0. change (4 + 4) with 8 in E1.
  rewrite E1 in E0. rewrite (zlen_0_nil (zdrop 8 c)) in E0 by (rewrite zlen_zdrop; lia). rewrite app_nil_r in E0. exact E0.
Qed.
Lemma dir_of_words a b : u32_ok a -> u32_ok b -> dir_of (word a ++ word b) = (a, b).
Proof.
  unfold u32_ok. intros Ha Hb. unfold dir_of, word. f_equal; [apply fld_hd; [reflexivity|exact Ha]|].
  rewrite (fld_skip_app Little 4 4 4) by (rewrite ?zlen_write_u; reflexivity || lia). apply fld_hd1; [reflexivity|exact Hb].
Qed.
Lemma dir_of_u32 c : bytes_ok c -> pair_u32 (dir_of c).
Proof. intro H. split; [apply (fld_bound Little 0 4 c H)|apply (fld_bound Little 4 4 c H)]; lia. Qed.
Lemma pairs_at_iff S o k l : bytes_ok S -> 0 <= o -> 0 <= k -> zlen S < 2 ^ 63 ->
  (exists cs, b_read_slice_at S o 8 k = Ok cs /\ l = map dir_of cs) <->
  holds S o (concat (map (fun p => word (fst p) ++ word (snd p)) l)) /\ Forall pair_u32 l /\ zlen l = k.
Proof.
  intros HS Ho Hk HL. split.
  - intros (cs & E & ->). apply slice_at_iff in E as (Hh & Hf & Hc); try lia. pose proof (concat_bytes_ok _ (holds_bytes_ok _ _ _ HS Hh)) as Hb.
    rewrite map_map. rewrite Forall_forall in Hb, Hf.
    assert (Em : map (fun c => word (fst (dir_of c)) ++ word (snd (dir_of c))) cs = cs).
    { rewrite <- (map_id cs) at 2. apply map_ext_in. intros c Hi. symmetry. apply dir_chunk; auto. }
    rewrite Em. split; [exact Hh|]. split; [|rewrite <- Hc; unfold zlen; rewrite map_length; reflexivity].
    rewrite Forall_map, Forall_forall. intros c Hi. apply dir_of_u32. auto.
  - intros (Hh & Hf & Hc). exists (map (fun p => word (fst p) ++ word (snd p)) l). split.
    + apply slice_at_iff; try lia. split; [exact Hh|]. split; [|rewrite <- Hc; unfold zlen; rewrite map_length; reflexivity].
      rewrite Forall_map, Forall_forall. intros x _. rewrite zlen_app, !zlen_word. reflexivity.
    + rewrite map_map. rewrite <- (map_id l) at 1. apply map_ext_in. intros [a b] Hi. rewrite Forall_forall in Hf. destruct (Hf _ Hi). cbn [fst snd] in *. symmetry. apply dir_of_words; assumption.
Qed.
Lemma zlen_rich_start k : zlen (rich_start k) = 16.
Proof. unfold rich_start. rewrite !zlen_app, !zlen_word. reflexivity. Qed.
Lemma lxor_twice a k : Z.lxor (Z.lxor a k) k = a.
Proof. rewrite Z.lxor_assoc, Z.lxor_nilpotent, Z.lxor_0_r. reflexivity. Qed.
Definition unmask (k : Z) (p : Z * Z) : Z * Z := (Z.lxor (fst p) k, Z.lxor (snd p) k).
Lemma rich_items_mask k l : rich_items k l = concat (map (fun p => word (fst p) ++ word (snd p)) (map (unmask k) l)).
Proof. unfold rich_items. rewrite map_map. f_equal. apply map_ext. intros [a b]. reflexivity. Qed.
Lemma unmask_twice k l : map (unmask k) (map (unmask k) l) = l.
Proof. rewrite map_map. rewrite <- (map_id l) at 2. apply map_ext. intros [a b]. unfold unmask. cbn [fst snd]. rewrite !lxor_twice. reflexivity. Qed.
Lemma unmask_u32 k l : u32_ok k -> Forall pair_u32 l -> Forall pair_u32 (map (unmask k) l).
Proof. intros Hk H. rewrite Forall_map. eapply Forall_impl; [|exact H]. intros [a b] [Ha Hb]. split; apply lxor_bound; try assumption; lia. Qed.
Lemma rich_entries_eq r : rich_entries r = map (unmask (ri_key r)) (ri_entries r).
Proof. unfold rich_entries. apply map_ext. intros [a b]. reflexivity. Qed.
Lemma holds_ztake F o b n : 0 <= n -> holds (ztake n F) o b <-> holds F o b /\ o + zlen b <= n.
Proof.
  intro Hn. split.
  - intro H. pose proof (holds_bounds _ _ _ H) as [_ B]. rewrite zlen_ztake_min in B by lia. split; [|lia]. destruct H as (a & c & E & Ha).
    exists a, (c ++ zdrop n F). split; [|exact Ha]. rewrite <- (ztake_zdrop n F), E at 1. rewrite <- !app_assoc. reflexivity.
  - intros [H Hl]. pose proof (holds_bounds _ _ _ H) as [B0 B]. apply holds_iff in H as (_ & _ & E). apply holds_iff. split; [exact B0|].
    rewrite zlen_ztake_min by lia. split; [lia|]. transitivity (zslice o (zlen b) F); [|exact E]. unfold zslice. pose proof (zlen_nonneg b). rewrite zdrop_ztake by lia. apply ztake_ztake_le. lia.
Qed.
Lemma rich_exact F nt o n k l : file_ok F -> 0 <= nt ->
  (exists r, rich_parse F nt = Ok (Some r) /\ ri_offset r = o /\ ri_length r = n /\ ri_key r = k /\ rich_entries r = l) <-> rich_header F nt o n k l.
Proof.
  intros [HB HF] Hnt.
  assert (core : forall D rest, F = D ++ rest -> zlen D = nt ->
    ((exists r, rich_parse F nt = Ok (Some r) /\ ri_offset r = o /\ ri_length r = n /\ ri_key r = k /\ rich_entries r = l) <->
     exists e, u32_ok k /\ Forall pair_u32 l /\
    first_aligned D rich_mark e /\ holds D e (rich_mark ++ word k) /\ first_aligned (ztake e D) (rich_start k) o /\
    holds D (o + 16) (rich_items k l) /\ o + 16 + 8 * zlen l <= e < o + 16 + 8 * zlen l + 8 /\ n = e + 8 - o)).
  { intros D rest -> HD. apply bytes_ok_app in HB as [HB _]. rewrite zlen_app in HF. pose proof (zlen_nonneg rest) as Hr.
    unfold rich_parse. rewrite (rr_read_bytes_at_app [] D rest) by (try reflexivity; lia).
    destruct (memmem_spec D rich_mark ltac:(reflexivity) ltac:(lia)) as (me & Em & He). change [82; 105; 99; 104] with rich_mark. rewrite Em. cbn [bind].
    destruct me as [e|].
    2: { split; [intros (r & [=] & _)|]. intros (e & _ & _ & (A & B & _) & _). exfalso. apply (He e); try assumption. apply holds_bounds in B. lia. }
    pose proof He as (He1 & He2 & He3). pose proof (holds_bounds _ _ _ He2) as [He0 HeL]. change (zlen rich_mark) with 4 in HeL.
    unfold padd at 1. destruct (Z.ltb_spec (e + 4) (2 ^ 64)); [|lia]. cbn [bind].
    rewrite b_read_at_eq by lia. destruct (Z.leb_spec (e + 4 + 4) (zlen D)) as [Hk4|Hk4].
    2: { split; [intros (r & [=] & _)|]. intros (e' & _ & _ & Hf & Hh & _). rewrite (first_aligned_unique _ _ _ _ Hf He) in *. apply holds_bounds in Hh as [_ Hh]. rewrite zlen_app, zlen_word in Hh. change (zlen rich_mark) with 4 in Hh. lia. }
    set (kb := zslice (e + 4) 4 D). assert (Hkb : zlen kb = 4) by (unfold kb; rewrite zlen_zslice; lia). assert (Bkb : bytes_ok kb) by (apply bytes_ok_zslice; exact HB).
    assert (Hkh : holds D (e + 4) kb) by (apply holds_iff; rewrite Hkb; split; [lia|]; split; [lia|reflexivity]).
    set (key := read_u Little kb). assert (Ekb : kb = word key). { unfold word, key. replace 4%nat with (length kb) by (unfold zlen in Hkb; lia). symmetry. apply write_read_u. exact Bkb. }
    assert (Hkey : u32_ok key) by (unfold u32_ok; replace 32 with (8 * zlen kb) by (rewrite Hkb; reflexivity); apply read_u_bound; exact Bkb).
    assert (Est : write_u Little 4 (Z.lxor 1399742788 key) ++ kb ++ kb ++ kb = rich_start key) by (unfold rich_start; rewrite <- Ekb; reflexivity).
    rewrite Est. clearbody kb key. subst kb.
    assert (Kiff : forall k', u32_ok k' -> holds D e (rich_mark ++ word k') -> k' = key).
    { intros k' Hk' Hh. apply holds_app in Hh as [_ Hh]. change (zlen rich_mark) with 4 in Hh. apply holds_slice in Hh. apply holds_slice in Hkh. rewrite zlen_word in *. rewrite Hkh in Hh.
      unfold word in Hh. apply (f_equal (read_u Little)) in Hh. rewrite !read_write_u_small in Hh; [congruence| |]; assumption. }
    assert (Khold : holds D e (rich_mark ++ word key)) by (apply holds_app; split; assumption).
    unfold get_to. destruct ((0 <=? e) && (e <=? zlen D)) eqn:Eg; [|lia]. cbn [unwrap bind].
    destruct (memmem_spec (ztake e D) (rich_start key)) as (ms & Es & Hs). { rewrite zlen_rich_start. lia. } { rewrite zlen_ztake by lia. lia. }
    rewrite Es. cbn [bind]. destruct ms as [s|].
    2: { split; [intros (r & [=] & _)|]. intros (e' & Hk' & _ & Hf & Hh & (A & B & _) & _). exfalso. rewrite (first_aligned_unique _ _ _ _ Hf He) in *. rewrite (Kiff k) in B by assumption. apply (Hs o); try assumption. apply holds_bounds in B. lia. }
    pose proof Hs as (Hs1 & Hs2 & Hs3). pose proof (holds_bounds _ _ _ Hs2) as [Hs0 HsL]. rewrite zlen_rich_start, zlen_ztake in HsL by lia. rewrite zlen_rich_start.
    unfold padd at 1. destruct (Z.ltb_spec (s + 16) (2 ^ 64)); [|lia]. cbn [bind]. unfold psub at 1. destruct (Z.leb_spec (s + 16) e); [|lia]. cbn [bind].
    pose proof (Z.div_mod (e - (s + 16)) 8 ltac:(lia)) as Hdm. pose proof (Z.mod_pos_bound (e - (s + 16)) 8 ltac:(lia)) as Hmb.
    assert (Hq : 0 <= (e - (s + 16)) / 8) by (apply Z.div_pos; lia). set (q := (e - (s + 16)) / 8) in *. clearbody q.
    destruct (b_read_slice_at D (s + 16) 8 q) as [cs| |] eqn:Ec.
    - unfold psub. destruct (Z.leb_spec s e); [|lia]. cbn [bind]. unfold padd. destruct (Z.ltb_spec (e - s + 8) (2 ^ 64)); [|lia]. cbn [bind].
      pose proof (proj1 (pairs_at_iff D (s + 16) q (map dir_of cs) HB ltac:(lia) Hq ltac:(lia)) (ex_intro _ cs (conj Ec eq_refl))) as (Hh & Hp & Hl).
      split.
      + intros (r & [= <-] & <- & <- & <- & <-). cbn [ri_offset ri_length ri_key]. rewrite rich_entries_eq. cbn [ri_key ri_entries].
        exists e. split; [exact Hkey|]. split; [apply unmask_u32; assumption|]. split; [exact He|]. split; [exact Khold|]. split; [exact Hs|].
        rewrite rich_items_mask, unmask_twice. split; [exact Hh|]. assert (El : zlen (map (unmask key) (map dir_of cs)) = q) by (rewrite <- Hl; unfold zlen; rewrite (map_length (unmask key)); reflexivity).
        rewrite El. split; [lia|lia].
      + intros (e' & Hk' & Hp' & Hf & Hkh' & Hso & Hit & Hle & ->). rewrite (first_aligned_unique _ _ _ _ Hf He) in *. rewrite (Kiff k) in * by assumption.
        rewrite (first_aligned_unique _ _ _ _ Hso Hs) in *. eexists. split; [reflexivity|]. cbn [ri_offset ri_length ri_key]. rewrite rich_entries_eq. cbn [ri_key ri_entries].
        split; [reflexivity|]. split; [lia|]. split; [reflexivity|]. rewrite rich_items_mask in Hit.
        assert (Hlq : zlen l = q) by lia.
        assert (X : exists cs', b_read_slice_at D (s + 16) 8 q = Ok cs' /\ map (unmask key) l = map dir_of cs').
        { apply pairs_at_iff; try assumption; try lia. split; [exact Hit|]. split; [apply unmask_u32; assumption|]. rewrite <- Hlq. unfold zlen. rewrite map_length. reflexivity. }
        destruct X as (cs' & Ec' & El). rewrite Ec in Ec'. injection Ec' as <-. rewrite <- El. apply unmask_twice.
    - split; [intros (r & [=] & _)|]. intros (e' & Hk' & Hp' & Hf & Hkh' & Hso & Hit & Hle & ->). exfalso. rewrite (first_aligned_unique _ _ _ _ Hf He) in *. rewrite (Kiff k) in * by assumption.
      rewrite (first_aligned_unique _ _ _ _ Hso Hs) in *. rewrite rich_items_mask in Hit. assert (Hlq : zlen l = q) by lia.
      assert (X : exists cs', b_read_slice_at D (s + 16) 8 q = Ok cs' /\ map (unmask key) l = map dir_of cs').
      { apply pairs_at_iff; try assumption; try lia. split; [exact Hit|]. split; [apply unmask_u32; assumption|]. rewrite <- Hlq. unfold zlen. rewrite map_length. reflexivity. }
      destruct X as (cs' & Ec' & El). congruence.
    - exfalso. exact (slice_at_np _ _ _ _ Ec). }
  destruct (Z.le_gt_cases nt (zlen F)) as [L|L].
  - assert (HD : zlen (ztake nt F) = nt) by (apply zlen_ztake; lia). pose proof (core (ztake nt F) (zdrop nt F) (eq_sym (ztake_zdrop nt F)) HD) as C. rewrite C. split.
    + intros (e & A & B & H). exists (ztake nt F), (zdrop nt F), e. split; [symmetry; apply ztake_zdrop|]. split; [exact HD|]. split; [exact A|]. split; [exact B|]. exact H.
    + intros (D & rest & e & E & El & H). assert (D = ztake nt F) by (rewrite E, <- El, ztake_app; reflexivity). subst D. exists e. exact H.
  - split.
    + intros (r & E & _). unfold rich_parse in E. rewrite rr_read_bytes_at_eq in E by lia. pose proof (zlen_nonneg F). destruct (Z.eqb_spec nt 0); [lia|]. destruct (Z.leb_spec (0 + nt) (zlen F)); [lia|]. discriminate.
    + intros (D & rest & e & -> & El & _). rewrite zlen_app in L. pose proof (zlen_nonneg rest). lia.
Qed.
Lemma rich_no_panic F nt : zlen F < 2 ^ 63 -> 0 <= nt -> rich_parse F nt <> Panic.
Proof.
  intros HF Hnt. unfold rich_parse. destruct (rr_read_bytes_at F 0 nt) as [D| |] eqn:ED; [|discriminate|exfalso; exact (rr_read_bytes_at_no_panic _ _ _ ED)].
  assert (HD : zlen D < 2 ^ 63).
  { rewrite rr_read_bytes_at_eq in ED by lia. destruct (nt =? 0) eqn:E0. { injection ED as <-. reflexivity. } destruct (Z.leb_spec (0 + nt) (zlen F)); [|discriminate]. injection ED as <-. rewrite zlen_zslice; lia. }
  destruct (memmem_spec D rich_mark ltac:(reflexivity) HD) as (me & Em & He). change [82; 105; 99; 104] with rich_mark. rewrite Em. cbn [bind].
  destruct me as [e|]; [|discriminate]. destruct He as (_ & He & _). pose proof (holds_bounds _ _ _ He) as [He0 HeL]. change (zlen rich_mark) with 4 in HeL.
  unfold padd at 1. destruct (Z.ltb_spec (e + 4) (2 ^ 64)); [|lia]. cbn [bind]. rewrite b_read_at_eq by lia. destruct (Z.leb_spec (e + 4 + 4) (zlen D)); [|discriminate].
  unfold get_to. destruct ((0 <=? e) && (e <=? zlen D)) eqn:Eg; [|lia]. cbn [unwrap bind].
  match goal with |- context [memmem ?a ?b 4] => set (st := b) end.
  assert (Hst : zlen st = 16). { unfold st. rewrite !zlen_app, zlen_write_u, zlen_zslice by lia. reflexivity. } clearbody st.
  destruct (memmem_spec (ztake e D) st) as (ms & Es & Hs); [lia|rewrite zlen_ztake; lia|]. rewrite Es. cbn [bind]. destruct ms as [s|]; [|discriminate].
  destruct Hs as (_ & Hs & _). apply holds_bounds in Hs as [Hs0 HsL]. rewrite zlen_ztake in HsL by lia. rewrite Hst in *.
  unfold padd at 1. destruct (Z.ltb_spec (s + 16) (2 ^ 64)); [|lia]. cbn [bind]. unfold psub at 1. destruct (Z.leb_spec (s + 16) e); [|lia]. cbn [bind].
  destruct (b_read_slice_at D (s + 16) 8 ((e - (s + 16)) / 8)) eqn:Ec; [|discriminate|exfalso; exact (slice_at_np _ _ _ _ Ec)].
  unfold psub. destruct (Z.leb_spec s e); [|lia]. cbn [bind]. unfold padd. destruct (Z.ltb_spec (e - s + 8) (2 ^ 64)); [|lia]. discriminate.
Qed.
Lemma rich_round pre key l tl nt : let F := pre ++ rich_bytes key l ++ tl in let e := zlen pre + 16 + 8 * zlen l in
  file_ok F -> u32_ok key -> Forall pair_u32 l -> zlen pre mod 4 = 0 -> e + 8 <= nt <= zlen F ->
  (forall o', 0 <= o' < e -> o' mod 4 = 0 -> ~ holds F o' rich_mark) -> (forall o', 0 <= o' -> o' mod 4 = 0 -> ~ holds pre o' (rich_start key)) ->
  rich_header F nt (zlen pre) (24 + 8 * zlen l) key l.
Proof.
  intros F e HF Hk Hl Hp Hnt HR HS. assert (Hit : zlen (rich_items key l) = 8 * zlen l).
  { unfold rich_items. rewrite (zlen_concat_const 8); [unfold zlen; rewrite map_length; lia|]. rewrite Forall_map, Forall_forall. intros [a b] _. rewrite zlen_app, !zlen_word. reflexivity. }
  assert (HH : holds F (zlen pre) (rich_bytes key l)) by (exists pre, tl; auto).
  unfold rich_bytes in HH. apply holds_app in HH as [H1 HH]. rewrite zlen_rich_start in HH. apply holds_app in HH as [H2 HH]. rewrite Hit in HH. fold e in HH.
  pose proof (holds_bounds _ _ _ HH) as [He0 HeL]. rewrite zlen_app, zlen_word in HeL. change (zlen rich_mark) with 4 in HeL. pose proof (zlen_nonneg pre) as Hp0. pose proof (zlen_nonneg l) as Hl0.
  assert (Hem : e mod 4 = 0) by (unfold e; clear - Hp; Z.to_euclidean_division_equations; lia).
  exists (ztake nt F), (zdrop nt F), e. split; [symmetry; apply ztake_zdrop|]. split; [apply zlen_ztake; lia|]. split; [exact Hk|]. split; [exact Hl|].
  split. { split; [exact Hem|]. split; [|intros o' Ho' Hm' X; apply holds_ztake in X as [X _]; [|lia]; exact (HR o' Ho' Hm' X)]. apply holds_ztake; [lia|]. apply holds_app in HH as [HH _]. split; [exact HH|]. change (zlen rich_mark) with 4. lia. }
  split. { apply holds_ztake; [lia|]. split; [exact HH|]. rewrite zlen_app, zlen_word. change (zlen rich_mark) with 4. lia. }
  split.
  { split; [exact Hp|]. split. { apply holds_ztake; [lia|]. rewrite zlen_rich_start. split; [|lia]. apply holds_ztake; [lia|]. rewrite zlen_rich_start. split; [exact H1|lia]. }
    intros o' Ho' Hm' X. apply holds_ztake in X as [X _]; [|lia]. apply holds_ztake in X as [X _]; [|lia].
    destruct (Z.le_gt_cases (o' + 16) (zlen pre)) as [L|L].
    - apply (HS o'); try assumption; [lia|]. rewrite <- (ztake_app_eq (zlen pre) pre (rich_bytes key l ++ tl)) by reflexivity. apply holds_ztake; [lia|]. split; [exact X|]. rewrite zlen_rich_start. exact L.
    - exfalso. unfold rich_start in X, H1. apply holds_app in H1 as [H1 _].
      apply holds_app in X as [_ X]. rewrite zlen_word in X. apply holds_app in X as [X1 X]. rewrite zlen_word in X. apply holds_app in X as [X2 X3]. rewrite zlen_word in X3.
      assert (Hcase : zlen pre = o' + 4 \/ zlen pre = o' + 4 + 4 \/ zlen pre = o' + 4 + 4 + 4) by (clear - Hp Hm' L Ho'; Z.to_euclidean_division_equations; lia).
      assert (Hw : holds F (zlen pre) (word key)) by (destruct Hcase as [->|[->| ->]]; assumption).
      assert (word (Z.lxor 1399742788 key) = word key) as Ew by (apply holds_slice in H1; apply holds_slice in Hw; rewrite zlen_word in *; congruence).
      unfold word in Ew. apply (f_equal (read_u Little)) in Ew.
      rewrite !read_write_u_small in Ew; [|exact Hk|apply (lxor_bound 32); [lia|lia|exact Hk]].
      apply (f_equal (fun x => Z.lxor x key)) in Ew. rewrite lxor_twice, Z.lxor_nilpotent in Ew. discriminate. }
  split. { apply holds_ztake; [lia|]. split; [exact H2|]. rewrite Hit. lia. }
  unfold e. lia.
Qed.

(** * Base relocations *)
Lemma zlen_u16s l : zlen (u16s l) = 2 * zlen l.
Proof. unfold u16s. rewrite (zlen_concat_const 2); [unfold zlen; rewrite map_length; lia|]. rewrite Forall_map, Forall_forall. intros. apply zlen_half. Qed.
Lemma zlen_u32s l : zlen (u32s l) = 4 * zlen l.
Proof. unfold u32s. rewrite (zlen_concat_const 4); [unfold zlen; rewrite map_length; lia|]. rewrite Forall_map, Forall_forall. intros. apply zlen_word. Qed.
Lemma block_parse_enc b x rest : block_enc b x -> block_parse (x ++ rest) = (Ok b, rest).
Proof.
  intros (-> & Hv & Hs & Hr & Es & H8 & H4). unfold block_parse. rewrite <- !app_assoc. rewrite (app_assoc (word _)).
  rewrite (b_read_app (word (rb_va b) ++ word (rb_size b))) by (rewrite zlen_app, !zlen_word; reflexivity). cbn [bs].
  assert (Ed := dir_of_words (rb_va b) (rb_size b) Hv Hs). unfold dir_of in Ed. assert (E0 : fld Little 0 4 (word (rb_va b) ++ word (rb_size b)) = rb_va b) by congruence.
  assert (E4 : fld Little 4 4 (word (rb_va b) ++ word (rb_size b)) = rb_size b) by congruence. rewrite E0, E4. clear Ed E0 E4.
  assert (Z.land (rb_size b) 3 = 0) as -> by (change 3 with (Z.ones 2); rewrite Z.land_ones by lia; exact H4).
  destruct (Z.leb_spec (rb_size b) 8); [lia|]. cbn [orb negb Z.eqb].
  assert (Hq : (rb_size b - 8) / 2 = zlen (rb_relocs b)) by (clear - Es; Z.to_euclidean_division_equations; lia). rewrite Hq.
  unfold u16s. rewrite b_read_slice_app.
  - cbn [bs]. unfold half. rewrite map_read_write_u by exact Hr. destruct b; reflexivity.
  - lia.
  - rewrite Forall_map, Forall_forall. intros. apply zlen_half.
  - unfold zlen. rewrite map_length. reflexivity.
  - unfold zlen in *. rewrite map_length. unfold u32_ok in Hs. lia.
Qed.
Lemma block_parse_inv data b rest : bytes_ok data -> block_parse data = (Ok b, rest) -> exists x, block_enc b x /\ data = x ++ rest.
Proof.
  intros Hb. unfold block_parse. destruct (b_read data 8) as [r d1] eqn:E. apply b_read_spec in E as [(h & -> & _ & Hh & ->)|(-> & _)]; cbn [bs]; [|discriminate].
  apply bytes_ok_app in Hb as [Bh Bd].
  destruct (Z.leb_spec (fld Little 4 4 h) 8); cbn [orb]; [discriminate|]. destruct (Z.eqb_spec (Z.land (fld Little 4 4 h) 3) 0) as [H4|]; cbn [negb]; [|discriminate].
  change 3 with (Z.ones 2) in H4. rewrite Z.land_ones in H4 by lia. change (2 ^ 2) with 4 in H4.
  destruct (dir_of_u32 h Bh) as [Hv Hs]. pose proof (dir_chunk h Hh Bh) as Eh. cbn [dir_of fst snd] in Hv, Hs, Eh.
  destruct (b_read_slice d1 2 ((fld Little 4 4 h - 8) / 2)) as [r d2] eqn:E.
  apply b_read_slice_spec in E as [(cs & -> & Hc & Hf & ->)|(-> & _)]; cbn [bs]; [|discriminate|lia|apply Z.div_pos; lia]. intros [= <- <-].
  apply bytes_ok_app in Bd as [Bc _]. apply concat_bytes_ok in Bc.
  assert (Em : map half (map (read_u Little) cs) = cs).
  { rewrite map_map. rewrite <- (map_id cs) at 2. apply map_ext_in. intros c Hi. rewrite Forall_forall in Bc, Hf. specialize (Hf c Hi). specialize (Bc c Hi). unfold half.
    replace 2%nat with (length c) by (unfold zlen in Hf; lia). apply write_read_u. exact Bc. }
  exists (h ++ concat cs). split; [|rewrite <- app_assoc; reflexivity]. unfold block_enc. cbn [rb_va rb_size rb_relocs]. unfold u16s. rewrite Em.
  split; [rewrite app_assoc, <- Eh; reflexivity|]. split; [exact Hv|]. split; [exact Hs|]. split.
  { rewrite Forall_map, Forall_forall. rewrite Forall_forall in Bc, Hf. intros c Hi. cbn beta. unfold u16_ok. replace 16 with (8 * zlen c) by (rewrite (Hf c Hi); reflexivity). apply read_u_bound. apply Bc. exact Hi. }
  assert (zlen (map (read_u Little) cs) = zlen cs) as -> by (unfold zlen; rewrite map_length; reflexivity). rewrite Hc.
  split; [|split; [lia|exact H4]]. clear - H4 H. Z.to_euclidean_division_equations; lia.
Qed.
Lemma blocks_decode : decodes block_enc block_next.
Proof.
  apply seq_decodes.
  - intros b x (-> & _) E. apply (f_equal zlen) in E. rewrite zlen_app, zlen_word in E. pose proof (zlen_nonneg (word (rb_size b) ++ u16s (rb_relocs b))). change (zlen (@nil Z)) with 0 in E. lia.
  - intros b x rest _ H. apply block_parse_enc. exact H.
  - intros data b rest Hb H. apply block_parse_inv; assumption.
  - intros data _. unfold block_parse. destruct (b_read data 8) as [r d1] eqn:E. apply b_read_spec in E as [(h & -> & _)|(-> & _)]; cbn [bs]; [|discriminate].
    destruct (_ || _); [discriminate|]. pose proof (b_read_slice_np d1 2 ((fld Little 4 4 h - 8) / 2)) as N.
    destruct (b_read_slice d1 2 ((fld Little 4 4 h - 8) / 2)) as [[] d2]; cbn [bs fst] in *; congruence.
Qed.
Lemma breloc_runs va l : u32_ok va -> Forall u16_ok l -> runs (breloc_next va) l (map (entry_reloc va) (filter (fun r => negb (r =? 0)) l)) false [].
Proof.
  intros Hv H. induction H as [|r l Hr Hl IH]; [apply runs_done; reflexivity|]. cbn [filter]. destruct (Z.eqb_spec r 0) as [->|Hn]; cbn [negb].
  - inversion IH as [? ? E|? ? E|? ? ? ? ? ? E Hm]; subst.
    + apply runs_done. cbn [breloc_next Z.eqb negb]. exact E.
    + eapply runs_more; [|exact Hm]. cbn [breloc_next Z.eqb negb]. exact E.
  - cbn [map]. eapply runs_more; [|exact IH]. cbn [breloc_next]. destruct (Z.eqb_spec r 0); [contradiction|]. cbn [negb]. unfold entry_reloc, wrap_u.
    change 4095 with (Z.ones 12). rewrite Z.land_ones by lia. rewrite Z.shiftr_div_pow2 by lia. reflexivity.
Qed.
