(** XCOFF reader: sections and symbols. *)
From Verif Require Import Core_proofs Util_proofs File_proofs Hash_proofs Pod_proofs.
From Verif Require Pe_proofs PeI_proofs Mach_proofs Ar_spec Ar_proofs CoffR_proofs CoffI_proofs MachQ_proofs Mach_spec Fkind_proofs Rel_proofs.
From Verif Require Import Xcoff_spec Xcoff_proofs.

(** * Sections *)
Lemma padded_until f : padded f (until_null f).
Proof. exact (MachQ_proofs.until_null_field f). Qed.
Lemma sec_ok is64 F f s : xfile_of is64 F f -> In s (xf_sections f) -> xsec_ok is64 s.
Proof. intros (_ & _ & _ & _ & _ & _ & A & _) H. rewrite Forall_forall in A. apply A. exact H. Qed.
Lemma xword_range is64 v : xword is64 v -> 0 <= v < 2 ^ 64.
Proof. unfold xword, u32_ok, u64_ok. destruct is64; lia. Qed.
Lemma xs_data_iff is64 F f s d : bytes_ok F -> zlen F < 2 ^ 63 -> xfile_of is64 F f -> In s (xf_sections f) -> xs_data f s = Ok d <-> sec_data f s d.
Proof.
  intros B HF X H. destruct (sec_ok _ _ _ _ X H) as (_ & _ & _ & _ & H5 & H6 & _). apply xword_range in H5, H6. destruct X as (_ & E & _). unfold xs_data, sec_data. rewrite E.
  rewrite rr_read_bytes_at_Ok by lia. split.
  - intros [(E1 & ->)|(E1 & E2 & ->)]; [split; [symmetry; exact E1|congruence]|]. rewrite zlen_zslice by lia. split; [reflexivity|]. intros _. apply holds_iff. rewrite zlen_zslice by lia. repeat split; lia.
  - intros (L & A). destruct d as [|x d]; [left; split; [rewrite <- L; reflexivity|reflexivity]|]. right. specialize (A ltac:(discriminate)). pose proof (holds_bounds _ _ _ A). rewrite L in *. split; [rewrite <- L; rewrite zlen_cons; pose proof (zlen_nonneg d); lia|]. split; [lia|].
    apply holds_slice in A. rewrite L in A. symmetry. exact A.
Qed.
Lemma xs_relocations_iff is64 F f s rs : bytes_ok F -> zlen F < 2 ^ 63 -> xfile_of is64 F f -> In s (xf_sections f) -> xs_relocations f s = Ok rs <-> sec_relocs f s rs.
Proof.
  intros B HF X H. destruct (sec_ok _ _ _ _ X H) as (_ & _ & _ & _ & _ & _ & H7 & _ & _ & H10). apply xword_range in H7. destruct X as (E1 & E & _). unfold xs_relocations, sec_relocs. rewrite E, E1.
  assert (H10' : 0 <= xs_nreloc s) by (unfold u32_ok, u16_ok in H10; destruct is64; lia).
  pose proof (Mach_proofs.array_iff (xrel_of is64) (xrel_enc is64) (xrel_ok is64) F (xs_relptr s) (xrel_size is64) (xs_nreloc s) rs B ltac:(lia) ltac:(lia) ltac:(destruct is64; reflexivity) H10' (xrel_dec is64) (xrel_back is64)) as A.
  destruct is64; cbn [negb andb].
  - rewrite A. split; [intros (K1 & K2 & K3); repeat split; try assumption; discriminate|]. intros (K1 & K2 & K3 & _). auto.
  - destruct (Z.eqb_spec (xs_nreloc s) 65535) as [K|K]; [split; [discriminate|]; intros (_ & _ & _ & K2); specialize (K2 eq_refl); contradiction|]. rewrite A. split; [intros (K1 & K2 & K3); auto|]. intros (K1 & K2 & K3 & _). auto.
Qed.
Lemma xs_np f s : xs_data f s <> Panic /\ xs_relocations f s <> Panic /\ xs_relocs f s <> Panic.
Proof.
  assert (A : xs_relocations f s <> Panic). { unfold xs_relocations. destruct (_ && _); [discriminate|]. pose proof (rr_read_slice_no_panic (xf_data f) (xs_relptr s) (xrel_size (xf_64 f)) (xs_nreloc s)) as P. unfold rr_read_slice_at. destruct (fst _); cbn [bind]; congruence. }
  split; [apply rr_read_bytes_at_no_panic|]. split; [exact A|]. unfold xs_relocs. destruct (xs_relocations f s); congruence.
Qed.
Lemma any1 v k : 0 <= k < 16 -> negb (Z.land (wrap_u 16 v) (2 ^ k) =? 0) = Z.testbit v k.
Proof. intros H. rewrite land_any by lia. rewrite negb_involutive. unfold wrap_u. apply Z.mod_pow2_bits_low. lia. Qed.
Lemma any_lor t a b : negb (Z.land t (Z.lor a b) =? 0) = negb (Z.land t a =? 0) || negb (Z.land t b =? 0).
Proof.
  rewrite Z.land_lor_distr_r. destruct (Z.eqb_spec (Z.lor (Z.land t a) (Z.land t b)) 0) as [E|E]; destruct (Z.eqb_spec (Z.land t a) 0) as [E1|E1], (Z.eqb_spec (Z.land t b) 0) as [E2|E2]; try reflexivity; exfalso.
  - apply Z.lor_eq_0_iff in E as (? & ?); congruence.
  - apply Z.lor_eq_0_iff in E as (? & ?); congruence.
  - apply Z.lor_eq_0_iff in E as (? & ?); congruence.
  - apply E. rewrite E1, E2. reflexivity.
Qed.
Lemma xs_kind_flags s : flag_kind (xs_flags s) kind_bits (xs_kind s).
Proof.
  unfold xs_kind. cbv zeta. rewrite !any_lor.
  change 32 with (2 ^ 5). change 64 with (2 ^ 6). change 1024 with (2 ^ 10). change 128 with (2 ^ 7). change 2048 with (2 ^ 11). change 8192 with (2 ^ 13). change 4096 with (2 ^ 12). change 32768 with (2 ^ 15). change 512 with (2 ^ 9). change 256 with (2 ^ 8). change (Z.land (wrap_u 16 (xs_flags s)) 8) with (Z.land (wrap_u 16 (xs_flags s)) (2 ^ 3)). change 16384 with (2 ^ 14).
  change (Z.land (wrap_u 16 (xs_flags s)) 16) with (Z.land (wrap_u 16 (xs_flags s)) (2 ^ 4)).
  rewrite !any1 by lia. unfold kind_bits.
  repeat match goal with |- flag_kind ?v ((?n, _) :: _) _ => let E := fresh in destruct (Z.testbit v n) eqn:E; cbn [orb]; [apply fk_here; exact E|apply fk_skip; [exact E|]] end. apply fk_none.
Qed.
Lemma find_idx {A} (P : A -> bool) l a i x : find (fun p => P (snd p)) (combine (map (fun i => i + 1) (map Z.of_nat (seq a (length l)))) l) = Some (i, x) <->
  exists k, i = Z.of_nat a + 1 + k /\ zget l k = Some x /\ P x = true /\ forall j y, 0 <= j < k -> zget l j = Some y -> P y = false.
Proof.
  revert a. induction l as [|y l IH]; intro a.
  - cbn. split; [discriminate|]. intros (k & _ & K & _). destruct k; discriminate K.
  - cbn [length seq map combine find snd]. destruct (P y) eqn:E.
    + split; [intros [= <- <-]; exists 0; repeat split; [lia|exact E|intros; lia]|]. intros (k & -> & K1 & K2 & K3). pose proof (zget_Some_lt _ _ _ K1). destruct (Z.eq_dec k 0) as [->|N]; [|specialize (K3 0 y ltac:(lia) eq_refl); congruence].
      assert (x = y) by (unfold zget in K1; cbn in K1; congruence). subst. do 2 f_equal. lia.
    + rewrite IH. split.
      * intros (k & -> & K1 & K2 & K3). pose proof (zget_Some_lt _ _ _ K1). exists (k + 1). split; [lia|]. split; [rewrite zget_S by lia; replace (k + 1 - 1) with k by lia; exact K1|]. split; [exact K2|]. intros j z Hj Hz. destruct (Z.eq_dec j 0) as [->|N]; [assert (z = y) by (unfold zget in Hz; cbn in Hz; congruence); congruence|].
        rewrite zget_S in Hz by lia. apply (K3 (j - 1) z); [lia|exact Hz].
      * intros (k & -> & K1 & K2 & K3). pose proof (zget_Some_lt _ _ _ K1). destruct (Z.eq_dec k 0) as [->|N]; [assert (x = y) by (unfold zget in K1; cbn in K1; congruence); congruence|]. exists (k - 1). split; [lia|]. split; [rewrite zget_S in K1 by lia; exact K1|]. split; [exact K2|].
        intros j z Hj Hz. apply (K3 (j + 1) z); [lia|]. rewrite zget_S by lia. replace (j + 1 - 1) with j by lia. exact Hz.
Qed.
Lemma by_name_iff f q i s : xf_section_by_name f q = Some (i, s) <->
  zget (xf_sections f) (i - 1) = Some s /\ xs_name_bytes s = q /\ forall j z, 0 <= j < i - 1 -> zget (xf_sections f) j = Some z -> xs_name_bytes z <> q.
Proof.
  unfold xf_section_by_name, seqZ. rewrite (find_idx (fun s => bytes_eqb (xs_name_bytes s) q) (xf_sections f) 0 i s). split.
  - intros (k & -> & K1 & K2 & K3). apply bytes_eqb_eq in K2. replace (Z.of_nat 0 + 1 + k - 1) with k by lia. repeat split; [exact K1|exact K2|]. intros j z Hj Hz K. specialize (K3 j z Hj Hz). rewrite K, bytes_eqb_refl in K3. discriminate.
  - intros (K1 & K2 & K3). exists (i - 1). split; [lia|]. split; [exact K1|]. split; [apply bytes_eqb_eq; exact K2|]. intros j z Hj Hz. specialize (K3 j z Hj Hz). apply bytes_eqb_neq. exact K3.
Qed.
Lemma by_name_none f q : xf_section_by_name f q = None <-> Forall (fun s => xs_name_bytes s <> q) (xf_sections f).
Proof.
  split.
  - intro E. apply Forall_forall. intros s Hs K. apply In_zget in Hs as (i & Hi). unfold xf_section_by_name in E. rewrite MachQ_proofs.find_none, Forall_forall in E. pose proof (zget_Some_lt _ _ _ Hi) as HL.
    assert (J : zget (combine (map (fun i => i + 1) (seqZ (length (xf_sections f)))) (xf_sections f)) i = Some (i + 1, s)). { apply CoffW_proofs.zget_combine; [|exact Hi]. rewrite Map_proofs.zget_map, zget_seqZ by (unfold zlen in HL; lia). reflexivity. }
    apply (E (i + 1, s) (zget_In _ _ _ J)). cbn [snd]. rewrite K. apply bytes_eqb_refl.
  - intro H. destruct (xf_section_by_name f q) as [[i s]|] eqn:E; [|reflexivity]. apply by_name_iff in E as (E1 & E2 & _). rewrite Forall_forall in H. exfalso. apply (H s (zget_In _ _ _ E1) E2).
Qed.
Lemma xf_section_iff f i s : 0 <= i < 2 ^ 64 -> zlen (xf_sections f) < 2 ^ 63 -> xf_section f i = Ok s <-> 1 <= i /\ zget (xf_sections f) (i - 1) = Some s.
Proof.
  intros H HL. unfold xf_section, of_opt, wrap_u. destruct (Z.eq_dec i 0) as [->|N].
  - replace ((0 - 1) mod 2 ^ 64) with (2 ^ 64 - 1) by reflexivity. split; [|lia]. destruct (zget (xf_sections f) (2 ^ 64 - 1)) eqn:E; [|discriminate]. apply zget_Some_lt in E. lia.
  - rewrite Z.mod_small by lia. destruct (zget (xf_sections f) (i - 1)); split; [intro; split; [lia|congruence]|intros (_ & ?); congruence|discriminate|intros (_ & ?); discriminate].
Qed.

(** * Strings *)
Definition tab_ok (t : xsymtab) : Prop :=
  Forall (fun b => zlen b = 18 /\ bytes_ok b) (xt_entries t) /\ zlen (xt_entries t) < 2 ^ 32 /\
  match xt_strings t with (Some F, a, _) => 0 <= a /\ zlen F < 2 ^ 63 /\ a < 2 ^ 63 | (None, _, _) => True end.
Lemma file_tab_ok is64 F f : bytes_ok F -> zlen F < 2 ^ 63 -> xfile_of is64 F f -> tab_ok (xf_symbols f).
Proof.
  intros B HF X. destruct X as (_ & _ & (_ & _ & H3 & H4 & _) & _ & _ & _ & _ & _ & _ & S). apply xword_range in H3. unfold u32_ok in H4. unfold tab_ok. destruct (Z.eqb_spec (xh_symptr (xf_header f)) 0).
  - destruct S as (-> & ->). split; [constructor|]. split; [reflexivity|exact I].
  - destruct S as (S1 & S2 & S3 & len & S4 & S5 & ->). split; [|split; [lia|]].
    + assert (Fb : Forall bytes_ok (xt_entries (xf_symbols f))). { destruct (xt_entries (xf_symbols f)) as [|c cs]; [constructor|]. apply bytes_ok_concat. destruct (S3 ltac:(discriminate)) as (a & c' & -> & _). apply bytes_ok_app in B as (_ & B). apply bytes_ok_app in B as (B & _). exact B. }
      rewrite Forall_forall in *. intros x Hx. split; [apply S2|apply Fb]; exact Hx.
    + apply holds_bounds in S5. rewrite zlen_write_u in S5. lia.
Qed.
Lemma strings_iff t off n : u32_ok off -> match t with (Some F, a, _) => 0 <= a /\ zlen F < 2 ^ 63 /\ a < 2 ^ 63 | (None, _, _) => True end -> strings_get t off = Ok n <-> xstring t off n.
Proof.
  intros Ho. destruct t as [[[F|] a] b]; cbn [strings_get xstring]; [|intros _; split; [discriminate|contradiction]]. intros (Ha & HF & Ha2). unfold u32_ok in Ho. rewrite (strtab_get_exact F a b off n) by (unfold u64_ok, u32_ok; lia). unfold string_at, holds, is_slice. split.
  - intros (_ & post & (pre & post2 & E & L) & K & N). split; [|lia]. split; [|exact N]. exists pre, (post ++ post2). split; [|exact L]. rewrite E, <- !app_assoc. reflexivity.
  - intros (((pre & c & E & L) & N) & K). split; [lia|]. exists []. split; [|split; [lia|exact N]]. exists pre, c. split; [|exact L]. exact E.
Qed.
Lemma field_iff t f n : zlen f = 8 -> bytes_ok f -> match t with (Some F, a, _) => 0 <= a /\ zlen F < 2 ^ 63 /\ a < 2 ^ 63 | (None, _, _) => True end -> x_field_name t f = Ok n <-> xfield t f n.
Proof.
  intros L B T. unfold x_field_name, xfield. destruct (zget f 0) as [b0|] eqn:E; [|apply zget_None in E; lia]. cbn [unwrap bind]. destruct (Z.eqb_spec b0 0) as [->|N].
  - assert (D : zslice 4 4 f = zdrop 4 f). { unfold zslice. apply ztake_all. rewrite zlen_zdrop by lia. lia. } rewrite D. assert (Ld : zlen (zdrop 4 f) = 4) by (rewrite zlen_zdrop by lia; lia). assert (Bd : bytes_ok (zdrop 4 f)) by (apply bytes_ok_zdrop; exact B).
    pose proof (read_u_bound Big _ Bd) as R. rewrite Ld in R. rewrite strings_iff by assumption. split.
    + intro K. exists (read_u Big (zdrop 4 f)). split; [exact R|]. split; [|exact K]. symmetry. apply write_read_n; [exact Bd|exact Ld].
    + intros (off & Ho & E2 & K). rewrite E2. rewrite read_write_u_small by exact Ho. exact K.
  - split; [intro K; assert (n = until_null f) by congruence; subst; apply padded_until|]. intro K. f_equal. apply (MachQ_proofs.field_name_fun f); [apply MachQ_proofs.until_null_field|exact K].
Qed.
Lemma own_iff t y n : tab_ok t -> xsym_ok (xt_64 t) y -> xy_own_name t y = Ok n <-> own_name t y n.
Proof.
  intros (_ & _ & T) (L & B & _). unfold xy_own_name, own_name. destruct (xt_64 t).
  - pose proof (read_u_bound Big _ B) as R. rewrite L in R. rewrite strings_iff by assumption. split.
    + intro K. exists (read_u Big (xy_field y)). split; [exact R|]. split; [|exact K]. symmetry. apply write_read_n; [exact B|exact L].
    + intros (off & Ho & E2 & K). rewrite E2. rewrite read_write_u_small by exact Ho. exact K.
  - apply field_iff; assumption.
Qed.
Lemma field_np t f : zlen f = 8 -> x_field_name t f <> Panic.
Proof. intros L. unfold x_field_name. destruct (zget f 0) as [b0|] eqn:E; [|apply zget_None in E; lia]. cbn [unwrap bind]. destruct (b0 =? 0); [|discriminate]. destruct t as [[? ?] ?]. apply strtab_get_no_panic. Qed.

(** * Symbols *)
Lemma get_ok t i k : tab_ok t -> 0 <= i -> 0 <= k -> i + k < 2 ^ 64 -> xt_get t i k = of_opt (zget (xt_entries t) (i + k)).
Proof.
  intros (T & _) Hi Hk H. unfold xt_get, cadd. destruct (Z.ltb_spec (i + k) (2 ^ 64)); [|lia]. cbn [of_opt bind]. destruct (zget (xt_entries t) (i + k)) as [b|] eqn:E; cbn [of_opt bind]; [|reflexivity].
  rewrite Forall_forall in T. destruct (T b (zget_In _ _ _ E)) as (L & _). rewrite <- (app_nil_r b). rewrite b_read_app by lia. rewrite app_nil_r. reflexivity.
Qed.
Lemma get_far t i k : 2 ^ 64 <= i + k -> xt_get t i k = Err.
Proof. intro H. unfold xt_get, cadd. destruct (Z.ltb_spec (i + k) (2 ^ 64)); [lia|reflexivity]. Qed.
Lemma unchecked_iff t i y : tab_ok t -> 0 <= i < 2 ^ 64 -> xt_unchecked t i = Ok y <-> entry t i y.
Proof.
  intros T Hi. unfold xt_unchecked, entry. rewrite get_ok by (assumption || lia). rewrite Z.add_0_r. destruct T as (T & _). destruct (zget (xt_entries t) i) as [b|] eqn:E; cbn [of_opt bind]; [|split; [discriminate|intros (_ & ?); discriminate]].
  rewrite Forall_forall in T. destruct (T b (zget_In _ _ _ E)) as (L & B). destruct (xsym_dec (xt_64 t) b L B) as (D1 & D2). split.
  - intro K. assert (y = xsym_of (xt_64 t) b) by congruence. subst y. split; [exact D1|rewrite D2; reflexivity].
  - intros (K1 & K2). assert (b = xsym_enc (xt_64 t) y) by congruence. subst b. destruct (xsym_back _ _ K1) as (_ & K3). rewrite K3. reflexivity.
Qed.
Lemma unchecked_err t i : tab_ok t -> 0 <= i < 2 ^ 64 -> zlen (xt_entries t) <= i -> xt_unchecked t i = Err.
Proof. intros T Hi H. unfold xt_unchecked. rewrite get_ok by (assumption || lia). rewrite Z.add_0_r. rewrite (proj2 (zget_None _ _)) by lia. reflexivity. Qed.
Lemma unchecked_np t i : tab_ok t -> 0 <= i < 2 ^ 64 -> xt_unchecked t i <> Panic.
Proof. intros T Hi. unfold xt_unchecked. rewrite get_ok by (assumption || lia). destruct (zget _ _); cbn [of_opt bind]; discriminate. Qed.
Lemma symbol_iff t i y : tab_ok t -> 0 <= i < 2 ^ 64 -> xt_symbol t i = Ok y <-> entry t i y /\ xy_class y <> 0.
Proof.
  intros T Hi. unfold xt_symbol, xy_null. split.
  - intro E. destruct (xt_unchecked t i) as [z| |] eqn:E1; cbn [bind] in E; try discriminate. apply unchecked_iff in E1; [|assumption..]. destruct (Z.eqb_spec (xy_class z) 0) as [K|K]; [discriminate|]. assert (y = z) by congruence. subst. auto.
  - intros (E & K). apply unchecked_iff in E; [|assumption..]. rewrite E. cbn [bind]. destruct (Z.eqb_spec (xy_class y) 0); [contradiction|reflexivity].
Qed.
Lemma entry_exists t i : tab_ok t -> 0 <= i < zlen (xt_entries t) -> exists y, entry t i y.
Proof.
  intros T Hi. destruct T as (T & _). apply zget_lt_Some in Hi as (b & E). rewrite Forall_forall in T. destruct (T b (zget_In _ _ _ E)) as (L & B). destruct (xsym_dec (xt_64 t) b L B) as (D1 & D2). exists (xsym_of (xt_64 t) b). split; [exact D1|rewrite D2; exact E].
Qed.
Lemma entry_det t i y z : entry t i y -> entry t i z -> y = z.
Proof. intros (K1 & E1) (K2 & E2). destruct (xsym_back _ _ K1) as (_ & A). destruct (xsym_back _ _ K2) as (_ & B). rewrite <- A, <- B. congruence. Qed.
Lemma entry_lt t i y : entry t i y -> 0 <= i < zlen (xt_entries t).
Proof. intros (_ & E). apply zget_Some_lt in E. exact E. Qed.
Lemma entry_naux t i y : entry t i y -> 0 <= xy_naux y < 256.
Proof. intros ((_ & _ & _ & _ & _ & _ & H) & _). exact H. Qed.

Lemma xwalk_exists t : tab_ok t -> forall k, 0 <= k -> exists l k', xwalk t k l k'.
Proof.
  intros T k. remember (Z.to_nat (zlen (xt_entries t) - k)) as m eqn:Em. revert k Em. induction m as [m IH] using lt_wf_ind. intros k -> Hk. destruct (Z_le_dec (zlen (xt_entries t)) k); [exists [], k; constructor; lia|].
  destruct (entry_exists t k T ltac:(lia)) as (y & Hy). pose proof (entry_naux _ _ _ Hy). destruct (IH (Z.to_nat (zlen (xt_entries t) - (k + 1 + xy_naux y))) ltac:(lia) (k + 1 + xy_naux y) eq_refl ltac:(lia)) as (l & k' & W).
  destruct (Z.eq_dec (xy_class y) 0); [exists l, k'; eapply xw_null; eassumption|exists ((k, y) :: l), k'; apply xw_some; assumption].
Qed.
Lemma xwalk_det t k l k' : xwalk t k l k' -> forall m k2, xwalk t k m k2 -> l = m /\ k' = k2.
Proof.
  intro H. induction H as [k Hl|k y l k' Hy Hc Hw IH|k y l k' Hy Hc Hw IH]; intros m k2 H2; inversion H2 as [q1 q2|q1 z q3 q4 q5 q6 q7|q1 z q3 q4 q5 q6 q7]; subst.
  - auto.
  - apply entry_lt in q5. lia.
  - apply entry_lt in q5. lia.
  - apply entry_lt in Hy. lia.
  - pose proof (entry_det _ _ _ _ Hy q5). subst z. apply IH. exact q7.
  - pose proof (entry_det _ _ _ _ Hy q5). subst z. contradiction.
  - apply entry_lt in Hy. lia.
  - pose proof (entry_det _ _ _ _ Hy q5). subst z. contradiction.
  - pose proof (entry_det _ _ _ _ Hy q5). subst z. destruct (IH _ _ q7) as (-> & ->). auto.
Qed.
Lemma xwalk_step t (T : tab_ok t) : forall l k k', xwalk t k l k' -> 0 <= k < 2 ^ 63 -> forall fuel, (Z.to_nat (zlen (xt_entries t) - k) < fuel)%nat ->
  match l with
  | [] => xt_loop fuel t k = (Ok None, k')
  | x :: l' => exists k1, xt_loop fuel t k = (Ok (Some x), k1) /\ xwalk t k1 l' k' /\ 0 <= k1 < 2 ^ 63
  end.
Proof.
  intros l k k' W. induction W as [k Hl|k y l k' Hy Hc Hw IH|k y l k' Hy Hc Hw IH]; intros Hk fuel Hf; (destruct fuel as [|fuel]; [lia|]); cbn [xt_loop].
  - rewrite unchecked_err by (assumption || lia). reflexivity.
  - pose proof (entry_naux _ _ _ Hy). pose proof (entry_lt _ _ _ Hy). pose proof (proj1 (proj2 T)). rewrite (proj2 (unchecked_iff t k y T ltac:(lia)) Hy). unfold padd. destruct (Z.ltb_spec (k + (1 + xy_naux y)) (2 ^ 64)); [|lia]. unfold xy_null. destruct (Z.eqb_spec (xy_class y) 0); [|contradiction].
    rewrite Z.add_assoc. apply IH; lia.
  - pose proof (entry_naux _ _ _ Hy). pose proof (entry_lt _ _ _ Hy). pose proof (proj1 (proj2 T)). rewrite (proj2 (unchecked_iff t k y T ltac:(lia)) Hy). unfold padd. destruct (Z.ltb_spec (k + (1 + xy_naux y)) (2 ^ 64)); [|lia]. unfold xy_null. destruct (Z.eqb_spec (xy_class y) 0); [contradiction|].
    exists (k + 1 + xy_naux y). rewrite Z.add_assoc. split; [reflexivity|]. split; [exact Hw|lia].
Qed.
Lemma xwalk_runs t k l k' : tab_ok t -> 0 <= k < 2 ^ 63 -> xwalk t k l k' -> runs (xt_next t) k l false k'.
Proof.
  intros T. revert k. induction l as [|x l IH]; intros k Hk W.
  - apply runs_done. unfold xt_next. apply (xwalk_step t T [] k k' W Hk). unfold zlen. lia.
  - destruct (xwalk_step t T (x :: l) k k' W Hk (S (length (xt_entries t))) ltac:(unfold zlen; lia)) as (k1 & E & W1 & H1). eapply runs_more; [exact E|]. apply IH; assumption.
Qed.
Lemma xwalk_entries t k l k' : xwalk t k l k' -> Forall (fun p => k <= fst p /\ entry t (fst p) (snd p) /\ xy_class (snd p) <> 0) l.
Proof.
  intro W. induction W as [k Hl|k y l k' Hy Hc Hw IH|k y l k' Hy Hc Hw IH]; [constructor| |constructor; [repeat split; (assumption || (cbn; lia) || apply Hy)|]].
  - pose proof (entry_naux _ _ _ Hy). eapply Forall_impl; [|exact IH]. cbn beta. intros p (? & ?). split; [lia|assumption].
  - pose proof (entry_naux _ _ _ Hy). eapply Forall_impl; [|exact IH]. cbn beta. intros p (? & ?). split; [lia|assumption].
Qed.

(** * Auxiliary entries *)
Lemma file_aux_iff is64 b a : zlen b = 18 -> bytes_ok b -> file_entry is64 b a <-> (is64 = true -> fld Big 17 1 b = 252) /\ a = {| xa_fname := zslice 0 8 b; xa_ftype := fld Big 14 1 b |}.
Proof.
  intros L B. split.
  - intros (pad & rest & -> & H1 & H2 & H3 & H4 & H5). unfold byte_ok in H3. split.
    + intro Q. specialize (H5 Q). rewrite !(fld_skip_app _ _ _ 8 (xa_fname a)), !(fld_skip_app _ _ _ 6 pad) by lia. rewrite fld_skip by lia. change (17 - 8 - 6 - Z.of_nat 1) with 2.
      rewrite <- (ztake_zdrop 2 rest). rewrite (fld_skip_app _ _ _ 2 (ztake 2 rest)) by (rewrite ?zlen_ztake; lia). rewrite (zdrop_cons rest 2 252) by exact H5. reflexivity.
    + destruct a as [n ft]. cbn [xa_fname xa_ftype] in *. f_equal; [symmetry; apply (zslice_app_eq 0 8 []); [reflexivity|lia]|]. rewrite !(fld_skip_app _ _ _ 8 n), !(fld_skip_app _ _ _ 6 pad) by lia. symmetry. apply fld_hd; [reflexivity|exact H3].
  - intros (Q & ->). exists (zslice 8 6 b), (zslice 15 3 b). cbn [xa_fname xa_ftype]. split.
    + unfold fld. Mach_proofs.pod_join. symmetry. apply zslice_all. lia.
    + split; [apply zlen_zslice; lia|]. split; [apply zlen_zslice; lia|]. split; [apply (fbound b); (assumption || lia)|]. split; [apply zlen_zslice; lia|]. intro K. specialize (Q K). unfold fld in Q.
      unfold zslice. rewrite zget_ztake by lia. rewrite zget_zdrop by lia. change (15 + 2) with 17. assert (L17 : 0 <= 17 < zlen b) by lia. apply zget_lt_Some in L17 as (x & E). rewrite E. f_equal.
      assert (E2 : zslice 17 1 b = [x]). { unfold zslice. rewrite (zdrop_cons b 17 x) by exact E. reflexivity. } rewrite E2 in Q. cbn in Q. lia.
Qed.
Lemma lor_hi lo hi : 0 <= lo < 2 ^ 32 -> Z.lor lo (Z.shiftl hi 32) = lo + hi * 2 ^ 32.
Proof. intros H1. rewrite Z.shiftl_mul_pow2 by lia. apply ElfR_proofs.lor_add'; lia. Qed.
Lemma last_byte b : zlen b = 18 -> bytes_ok b -> zslice 17 1 b = [fld Big 17 1 b].
Proof.
  intros L B. assert (L17 : 0 <= 17 < zlen b) by lia. apply zget_lt_Some in L17 as (x & E). unfold fld, zslice. rewrite (zdrop_cons b 17 x) by exact E. change (ztake 1 (x :: zdrop (17 + 1) b)) with [x]. f_equal. change (read_u Big [x]) with (0 + 256 * 0 + x) || cbn. pose proof (zget_In _ _ _ E) as I. unfold bytes_ok in B. rewrite Forall_forall in B. specialize (B x I). unfold byte_ok in B. lia.
Qed.
Lemma fld_last b x : fld Big 0 1 [x] = x -> fld Big 0 1 (x :: b) = x.
Proof. intro H. exact H. Qed.
Lemma csect_dec is64 b : zlen b = 18 -> bytes_ok b -> (is64 = true -> fld Big 17 1 b = 251) -> csect_entry is64 b (xcaux_of is64 b).
Proof.
  intros L B M. assert (R4 : 0 <= fld Big 0 4 b < 2 ^ 32) by (apply (fbound b); (assumption || lia)). assert (R12 : 0 <= fld Big 12 4 b < 2 ^ 32) by (apply (fbound b); (assumption || lia)).
  assert (S : xword is64 (xc_scnlen (xcaux_of is64 b)) /\ xc_scnlen (xcaux_of is64 b) mod 2 ^ 32 = fld Big 0 4 b /\ (is64 = true -> xc_scnlen (xcaux_of is64 b) / 2 ^ 32 = fld Big 12 4 b)).
  { unfold xcaux_of. cbn [xc_scnlen]. destruct is64; unfold xword, u32_ok, u64_ok.
    - rewrite lor_hi by lia. set (u := fld Big 0 4 b) in *. set (v := fld Big 12 4 b) in *. split; [lia|]. split; [|intros _]; Z.to_euclidean_division_equations; lia.
    - split; [lia|]. split; [apply Z.mod_small; lia|discriminate]. }
  destruct S as (S1 & S2 & S3). unfold csect_entry. split; [apply (fbound b); (assumption || lia)|]. split; [apply (fbound b); (assumption || lia)|]. split; [apply (fbound b); (assumption || lia)|]. split; [apply (fbound b); (assumption || lia)|]. split; [exact S1|].
  exists (zslice 12 6 b). rewrite S2. cbn [xcaux_of xc_parmhash xc_snhash xc_smtyp xc_smclas]. split; [unfold fld; Mach_proofs.pod_join; symmetry; apply zslice_all; lia|]. split; [apply zlen_zslice; lia|]. split; [apply bytes_ok_zslice; exact B|]. intro Q. rewrite (S3 Q). specialize (M Q). pose proof (last_byte b L B) as E. rewrite M in E.
  assert (L16 : 0 <= 16 < zlen b) by lia. apply zget_lt_Some in L16 as (x & Ex). exists x.
  assert (E16 : zslice 16 1 b = [x]) by (unfold zslice; rewrite (zdrop_cons b 16 x) by exact Ex; reflexivity). rewrite <- E, <- E16. unfold fld. Mach_proofs.pod_join. reflexivity.
Qed.
Lemma csect_inv is64 b a : zlen b = 18 -> csect_entry is64 b a -> (is64 = true -> fld Big 17 1 b = 251) /\ xcaux_of is64 b = a.
Proof.
  intros L (H1 & H2 & H3 & H4 & H5 & rest & E & Lr & Br & Q). fb. assert (M : 0 <= xc_scnlen a mod 2 ^ 32 < 2 ^ (8 * 4)) by (change (8 * 4) with 32; apply Z.mod_pos_bound; reflexivity). destruct is64.
  - destruct (Q eq_refl) as (pad & ->). clear Q Br. assert (M2 : 0 <= xc_scnlen a / 2 ^ 32 < 2 ^ (8 * 4)) by (change (8 * 4) with 32; split; [apply Z.div_pos; lia|apply Z.div_lt_upper_bound; lia]). subst b. split.
    + intros _. rewrite !fld_skip by lia. cbn [Z.of_nat Pos.of_succ_nat Pos.succ Z.sub Z.add Z.opp Z.pos_sub Pos.pred_double]. rewrite (fld_skip_app _ _ _ 1 [pad]) by (reflexivity || lia). reflexivity.
    + unfold xcaux_of. rewrite <- ?app_assoc in *. fld_norm. rewrite lor_hi by (change (8 * 4) with 32 in M; lia). destruct a as [a1 a2 a3 a4 a5]. cbn [xc_scnlen xc_parmhash xc_snhash xc_smtyp xc_smclas] in *. f_equal. pose proof (Z.div_mod a1 (2 ^ 32) ltac:(lia)). lia.
  - clear Q. split; [discriminate|]. subst b. unfold xcaux_of. fld_norm. rewrite Z.mod_small by lia. destruct a; reflexivity.
Qed.
Lemma aux_entry_iff is64 b a : zlen b = 18 -> bytes_ok b -> csect_entry is64 b a <-> (is64 = true -> fld Big 17 1 b = 251) /\ a = xcaux_of is64 b.
Proof.
  intros L B. split; [intro H; destruct (csect_inv _ _ _ L H) as (K1 & K2); split; [exact K1|symmetry; exact K2]|]. intros (K & ->). apply csect_dec; assumption.
Qed.
Lemma has_csect_iff y : has_csect_aux y = true <-> csect_class (xy_class y) /\ 0 < xy_naux y.
Proof.
  unfold has_csect_aux, csect_class, C_EXT, C_WEAKEXT, C_HIDEXT. rewrite andb_true_iff, !orb_true_iff, Z.ltb_lt, !Z.eqb_eq. tauto.
Qed.
Lemma csect_at t i y : tab_ok t -> entry t i y -> has_csect_aux y = true -> xt_aux_csect t i (xy_naux y) =
  match zget (xt_entries t) (i + xy_naux y) with Some b => if xt_64 t && negb (fld Big 17 1 b =? 251) then Err else Ok (xcaux_of (xt_64 t) b) | None => Err end.
Proof.
  intros T Hy H. pose proof (entry_lt _ _ _ Hy). pose proof (entry_naux _ _ _ Hy). pose proof (proj1 (proj2 T)). assert (C : xy_class y <> 0) by (apply has_csect_iff in H as ([->|[->| ->]] & _); discriminate).
  unfold xt_aux_csect. rewrite (proj2 (symbol_iff t i y T ltac:(lia))) by auto. cbn [bind]. rewrite H. cbn [negb]. rewrite get_ok by (assumption || lia). destruct (zget _ _); reflexivity.
Qed.
Lemma xy_csect_some t i y a : tab_ok t -> entry t i y -> xy_csect t i y = Ok (Some a) <-> csect_of t i y a.
Proof.
  intros T Hy. unfold xy_csect, csect_of. destruct (has_csect_aux y) eqn:H.
  - rewrite csect_at by assumption. apply has_csect_iff in H as (H1 & H2). destruct T as (T & _). destruct (zget (xt_entries t) (i + xy_naux y)) as [b|] eqn:E.
    + rewrite Forall_forall in T. destruct (T b (zget_In _ _ _ E)) as (L & B). pose proof (aux_entry_iff (xt_64 t) b a L B) as A. split.
      * intro K. split; [exact H1|]. split; [exact H2|]. exists b. split; [reflexivity|]. apply A. destruct (xt_64 t); cbn [andb] in K; [|split; [discriminate|congruence]]. destruct (Z.eqb_spec (fld Big 17 1 b) 251); cbn [negb] in K; [|discriminate]. split; [auto|congruence].
      * intros (_ & _ & b' & Eb & K). assert (b' = b) by congruence. subst b'. apply A in K as (K & ->). destruct (xt_64 t); cbn [andb]; [|reflexivity]. rewrite (K eq_refl). reflexivity.
    + split; [discriminate|]. intros (_ & _ & b & K & _). discriminate.
  - split; [discriminate|]. intros (K1 & K2 & _). exfalso. rewrite (proj2 (has_csect_iff y)) in H by auto. discriminate.
Qed.
Lemma xy_csect_np t i y : tab_ok t -> entry t i y -> xy_csect t i y <> Panic /\ xy_csect t i y <> Err.
Proof.
  intros T Hy. unfold xy_csect. destruct (has_csect_aux y) eqn:H; [|split; discriminate]. rewrite csect_at by assumption. destruct (zget _ _); [|split; discriminate]. destruct (_ && _); split; discriminate.
Qed.
(** what the csect is *)
Definition csect_is (t : xsymtab) (i : Z) (y : xsym) (a : option xcaux) : Prop := match a with Some a => csect_of t i y a | None => forall a, ~ csect_of t i y a end.
Lemma xy_csect_iff t i y a : tab_ok t -> entry t i y -> xy_csect t i y = Ok a <-> csect_is t i y a.
Proof.
  intros T Hy. destruct a as [a|]; cbn [csect_is]; [apply xy_csect_some; assumption|]. split.
  - intros E a K. apply xy_csect_some in K; [|assumption..]. congruence.
  - intros N. destruct (xy_csect_np t i y T Hy) as (P1 & P2). destruct (xy_csect t i y) as [[a|]| |] eqn:E; try congruence. apply xy_csect_some in E; [|assumption..]. exfalso. apply (N a). exact E.
Qed.
Lemma typ_type a : xc_typ a = csect_type a.
Proof. unfold xc_typ, csect_type. change 7 with (Z.ones 3). rewrite Z.land_ones by lia. reflexivity. Qed.
Lemma class_kind c : xc_class_kind c = if existsb (Z.eqb c) [0; 6] then YText else if existsb (Z.eqb c) [1; 3; 5; 9; 10; 15; 16] then YData else if existsb (Z.eqb c) [20; 21] then YTls else YUnknown.
Proof.
  destruct (Z_lt_dec c 0) as [H|H]; [destruct c; try lia; reflexivity|]. destruct (Z_lt_dec c 22) as [K|K].
  - assert (c = 0 \/ c = 1 \/ c = 2 \/ c = 3 \/ c = 4 \/ c = 5 \/ c = 6 \/ c = 7 \/ c = 8 \/ c = 9 \/ c = 10 \/ c = 11 \/ c = 12 \/ c = 13 \/ c = 14 \/ c = 15 \/ c = 16 \/ c = 17 \/ c = 18 \/ c = 19 \/ c = 20 \/ c = 21) as D by lia.
    repeat destruct D as [->|D]; try reflexivity. subst. reflexivity.
  - assert (E : forall k, k < 22 -> (c =? k) = false) by (intros k Hk; apply Z.eqb_neq; lia). cbn [existsb]. rewrite !E by lia. cbn [orb]. unfold xc_class_kind. destruct c as [|p|p]; try lia. do 22 (try (destruct p as [p|p|]; try reflexivity; try lia)).
Qed.
Lemma reports t i y a : tab_ok t -> entry t i y -> xy_class y <> 0 -> csect_is t i y a ->
  xy_size t i y = Ok (sym_size a) /\ xy_kind t i y = Ok (sym_kind y a) /\ xy_definition t i y = Ok (sym_defined y a).
Proof.
  intros T Hy Hc Ha. apply xy_csect_iff in Ha as E; [|assumption..]. unfold xy_size, xy_kind, xy_definition, sym_size, sym_kind, sym_defined. rewrite E. cbn [bind].
  destruct a as [a|]; rewrite ?typ_type.
  - assert (R : 0 <= csect_type a < 8) by (apply Z.mod_pos_bound; reflexivity). split; [reflexivity|]. unfold csect_kind. cbv zeta. rewrite class_kind. destruct Ha as (Hcl & _).
    assert (C : xy_class y =? C_FILE = false) by (destruct Hcl as [->|[->| ->]]; reflexivity). rewrite C. split.
    + destruct (Z.eqb_spec (csect_type a) 1), (Z.eqb_spec (csect_type a) 3), (Z.eqb_spec (csect_type a) 2), (Z.eqb_spec (csect_type a) 0), (Z.leb_spec (csect_type a) 3); try lia; reflexivity.
    + destruct (Z.leb_spec (xy_scnum y) 0), (Z.ltb_spec 0 (xy_scnum y)); try lia; [reflexivity|]. cbn [andb bind]. f_equal. destruct (Z.eqb_spec (csect_type a) 1), (Z.eqb_spec (csect_type a) 3), (Z.eqb_spec (csect_type a) 2), (Z.leb_spec 1 (csect_type a)), (Z.leb_spec (csect_type a) 3); try lia; reflexivity.
  - split; [reflexivity|]. split; [reflexivity|]. destruct (Z.leb_spec (xy_scnum y) 0), (Z.ltb_spec 0 (xy_scnum y)); try lia; reflexivity.
Qed.
Lemma file_at t i y : tab_ok t -> entry t i y -> has_file_aux y = true -> xt_aux_file t i 1 =
  match zget (xt_entries t) (i + 1) with Some b => if xt_64 t && negb (fld Big 17 1 b =? 252) then Err else Ok {| xa_fname := zslice 0 8 b; xa_ftype := fld Big 14 1 b |} | None => Err end.
Proof.
  intros T Hy H. pose proof (entry_lt _ _ _ Hy). pose proof (proj1 (proj2 T)). assert (C : xy_class y <> 0) by (unfold has_file_aux in H; apply andb_true_iff in H as (_ & H); apply Z.eqb_eq in H; rewrite H; discriminate).
  unfold xt_aux_file. rewrite (proj2 (symbol_iff t i y T ltac:(lia))) by auto. cbn [bind]. rewrite H. cbn [negb]. rewrite get_ok by (assumption || lia). destruct (zget _ _); reflexivity.
Qed.
Lemma sym_name_iff t i y n : tab_ok t -> entry t i y -> xy_name t i y = Ok n <-> sym_name t i y n.
Proof.
  intros T Hy. unfold xy_name, sym_name. destruct (has_file_aux y) eqn:H; unfold has_file_aux, C_FILE in H; rewrite andb_comm in H; rewrite H; [|apply own_iff; [exact T|apply Hy]].
  rewrite (file_at t i y) by (try assumption; unfold has_file_aux, C_FILE; rewrite andb_comm; exact H). destruct T as (T & _ & TS). destruct (zget (xt_entries t) (i + 1)) as [b|] eqn:E; cbn [bind].
  - rewrite Forall_forall in T. destruct (T b (zget_In _ _ _ E)) as (L & B). assert (Lf : zlen (zslice 0 8 b) = 8) by (apply zlen_zslice; lia). pose proof (field_iff (xt_strings t) (zslice 0 8 b) n Lf (bytes_ok_zslice _ _ _ B) TS) as A. split.
    + intro K. exists b, {| xa_fname := zslice 0 8 b; xa_ftype := fld Big 14 1 b |}. split; [reflexivity|]. rewrite (file_aux_iff (xt_64 t) b _ L B). cbn [xa_fname].
      destruct (xt_64 t); cbn [andb] in K; [destruct (Z.eqb_spec (fld Big 17 1 b) 252); cbn [negb bind] in K; [|discriminate]|]; cbn [bind xa_fname] in K; apply A in K; repeat split; auto; discriminate.
    + intros (b' & a & Eb & K1 & K2). assert (b' = b) by congruence. subst b'. apply (file_aux_iff (xt_64 t) b _ L B) in K1 as (K1 & ->). cbn [xa_fname] in K2. apply A in K2. destruct (xt_64 t); cbn [andb bind xa_fname]; [|exact K2]. rewrite (K1 eq_refl). exact K2.
  - split; [discriminate|]. intros (b & a & K & _). discriminate.
Qed.
Lemma sym_np t i y : tab_ok t -> entry t i y -> xy_name t i y <> Panic /\ xy_flags t i y <> Panic.
Proof.
  intros T Hy. split.
  - unfold xy_name. destruct (has_file_aux y) eqn:H.
    + rewrite (file_at t i y) by assumption. destruct (zget (xt_entries t) (i + 1)) as [b|] eqn:E; cbn [bind]; [|discriminate]. destruct T as (T & _ & TS). rewrite Forall_forall in T. destruct (T b (zget_In _ _ _ E)) as (L & B). destruct (_ && _); cbn [bind]; [discriminate|]. apply field_np. cbn [xa_fname]. apply zlen_zslice; lia.
    + unfold xy_own_name. destruct Hy as ((L & _) & _). destruct (xt_64 t); [destruct (xt_strings t) as [[? ?] ?]; apply strtab_get_no_panic|apply field_np; exact L].
  - unfold xy_flags. destruct (xy_csect_np t i y T Hy) as (P & _). destruct (xy_csect t i y); cbn [bind]; congruence.
Qed.
