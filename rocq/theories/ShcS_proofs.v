(** Dyld shared caches: relocations of version 2. *)
From Verif Require Import Core_proofs Util_proofs File_proofs Iter_proofs Rel_proofs.
From Verif Require Import Fix_proofs.
From Verif Require FixC_proofs.
From Verif Require Import Shc_spec Shc_proofs ShcR_proofs.

Lemma land_bit x k : 0 <= k -> negb (Z.land x (2 ^ k) =? 0) = Z.testbit x k.
Proof.
  intro Hk. destruct (Z.testbit x k) eqn:E; destruct (Z.eqb_spec (Z.land x (2 ^ k)) 0) as [Z0|N]; try reflexivity; exfalso.
  - assert (T : Z.testbit (Z.land x (2 ^ k)) k = true) by (rewrite Z.land_spec, E, Z.pow2_bits_true by lia; reflexivity). rewrite Z0, Z.bits_0 in T. discriminate.
  - apply N. apply Z.bits_inj'. intros n Hn. rewrite Z.land_spec, Z.bits_0. destruct (Z.eq_dec n k) as [->|Nk]; [rewrite E; reflexivity|]. rewrite Z.pow2_bits_false by lia. apply andb_false_r.
Qed.
Lemma low14 x : Z.land x 0x3fff = x mod 2 ^ 14.
Proof. change 0x3fff with (Z.ones 14). apply Z.land_ones. lia. Qed.
(** the lowest bit of the mask *)
Lemma ptz_spec p : 0 <= ptz p /\ exists c, 0 <= c /\ Z.pos p = 2 ^ ptz p * (2 * c + 1).
Proof.
  induction p as [p _|p (I1 & c & I2 & I3)|]; cbn [ptz].
  - split; [lia|]. exists (Z.pos p). lia.
  - split; [lia|]. exists c. split; [exact I2|]. rewrite Z.pow_add_r by lia. change (Z.pos p~0) with (2 * Z.pos p). rewrite I3. lia.
  - split; [lia|]. exists 0. lia.
Qed.
Lemma tz_spec m : 0 < m < 2 ^ 64 -> 0 <= tz64 m < 64 /\ exists c, 0 <= c /\ m = 2 ^ tz64 m * (2 * c + 1).
Proof.
  intro H. destruct m as [|p|p]; [lia| |lia]. cbn [tz64]. destruct (ptz_spec p) as (H1 & c & H2 & H3). split; [|exists c; auto]. split; [exact H1|]. destruct (Z_lt_ge_dec (ptz p) 64) as [|G]; [assumption|exfalso].
  assert (2 ^ 64 <= 2 ^ ptz p) by (apply Z.pow_le_mono_r; lia). assert (0 < 2 ^ ptz p) by (apply Z.pow_pos_nonneg; lia). nia.
Qed.
Lemma low_fun k c k' c' : 0 <= k -> 0 <= k' -> 2 ^ k * (2 * c + 1) = 2 ^ k' * (2 * c' + 1) -> k = k'.
Proof.
  assert (Hh : forall k c k' c', 0 <= k -> k < k' -> 2 ^ k * (2 * c + 1) = 2 ^ k' * (2 * c' + 1) -> False).
  { clear. intros k c k' c' H H0 E. replace k' with (k + (1 + (k' - k - 1))) in E by lia. rewrite 2 Z.pow_add_r, <- Z.mul_assoc in E by lia. assert (P : 0 < 2 ^ k) by (apply Z.pow_pos_nonneg; lia). apply Z.mul_reg_l in E; [|lia]. lia. }
  intros H H0 E. destruct (Z.lt_trichotomy k k') as [L|[E'|L]]; [exfalso; eapply Hh; [|exact L|exact E]; lia|exact E'|exfalso; eapply Hh; [|exact L|symmetry; exact E]; lia].
Qed.

Definition slide2_ok (g : slide2) : Prop :=
  u64_ok (g2_mfo g) /\ u32_ok (g2_page_size g) /\ 0 < g2_mask g < 2 ^ 64 /\ zlen (g2_starts g) < 2 ^ 32 /\ Forall u16_ok (g2_starts g) /\ zlen (g2_extras g) < 2 ^ 32 /\ Forall u16_ok (g2_extras g).
Lemma inr_inj {A B} (x y : B) : @inr A B x = inr y -> x = y.
Proof. congruence. Qed.
Section R2.
Context (e : endian) (F : bytes) (g : slide2) (HB : bytes_ok F) (HF : zlen F < 2 ^ 63) (Hg : slide2_ok g).
Notation next := (r2_next e F g).
Definition inv2 (s : it2) : Prop := 0 <= i2_start s /\ 0 <= i2_extra s /\ 0 <= i2_page s /\ 0 <= i2_offset s.
Definition mk2 (st : state2) (p x po o : Z) : it2 := {| i2_state := st; i2_start := p; i2_extra := x; i2_page := po; i2_offset := o |}.
Lemma start2 p x : zget (g2_starts g) p = Some x -> 0 <= p < zlen (g2_starts g) /\ u16_ok x /\ 0 <= p * g2_page_size g < 2 ^ 64.
Proof.
  intro E. destruct Hg as (_ & P & _ & L & Fs & _). pose proof (zget_Some_lt _ _ _ E). rewrite Forall_forall in Fs. pose proof (Fs x (zget_In _ _ _ E)) as U.
  unfold u32_ok, u16_ok in *. change (2 ^ 32) with 4294967296 in *. change (2 ^ 64) with 18446744073709551616. split; [lia|]. split; [exact U|]. nia.
Qed.
Lemma extra2 p x : zget (g2_extras g) p = Some x -> 0 <= p < zlen (g2_extras g) /\ u16_ok x.
Proof. intro E. destruct Hg as (_ & _ & _ & _ & _ & L & Fs). pose proof (zget_Some_lt _ _ _ E). rewrite Forall_forall in Fs. pose proof (Fs x (zget_In _ _ _ E)) as U. auto. Qed.
Lemma step2_start s x : i2_state s = R2Start -> zget (g2_starts g) (i2_start s) = Some x ->
  r2_step e F g s = inr (let p := i2_start s in let po := p * g2_page_size g in
    if Z.testbit x 14 then mk2 R2Start (p + 1) (i2_extra s) po (i2_offset s)
    else if Z.testbit x 15 then mk2 R2Extra (p + 1) (x mod 2 ^ 14) po (i2_offset s) else mk2 R2Page (p + 1) (i2_extra s) po (x mod 2 ^ 14 * 4)).
Proof.
  intros Es Ex. unfold r2_step. rewrite Es, Ex. destruct (start2 _ _ Ex) as (H1 & H2 & H3). assert (L : zlen (g2_starts g) < 2 ^ 32) by apply Hg.
  unfold pmul, padd. destruct (Z.ltb_spec (i2_start s * g2_page_size g) (2 ^ 64)); [|lia]. cbn [bind]. destruct (Z.ltb_spec (i2_start s + 1) (2 ^ 64)); [|lia]. cbn [bind].
  change 0x4000 with (2 ^ 14). change 0x8000 with (2 ^ 15). rewrite !land_bit, low14 by lia. cbv zeta. unfold mk2. destruct (Z.testbit x 14); [reflexivity|]. destruct (Z.testbit x 15); reflexivity.
Qed.
Lemma step2_extra s x : i2_state s = R2Extra -> zget (g2_extras g) (i2_extra s) = Some x ->
  r2_step e F g s = inr (mk2 (if x <? 2 ^ 15 then R2PageExtra else R2Page) (i2_start s) (i2_extra s + 1) (i2_page s) (x mod 2 ^ 14 * 4)).
Proof.
  intros Es Ex. unfold r2_step. rewrite Es, Ex. destruct (extra2 _ _ Ex) as (H1 & H2). assert (L : zlen (g2_extras g) < 2 ^ 32) by apply Hg.
  unfold padd. destruct (Z.ltb_spec (i2_extra s + 1) (2 ^ 64)); [|lia]. destruct (FixC_proofs.start_bit x H2) as (_ & ->). rewrite low14. unfold mk2. destruct (x <? 2 ^ 15); reflexivity.
Qed.
Definition after2 (st : state2) : state2 := match st with R2PageExtra => R2Extra | _ => R2Start end.
Definition moved2 (s : it2) (nx : Z) : it2 :=
  if nx =? 0 then mk2 (after2 (i2_state s)) (i2_start s) (i2_extra s) (i2_page s) (i2_offset s) else mk2 (i2_state s) (i2_start s) (i2_extra s) (i2_page s) (i2_offset s + 4 * nx).
Definition in_page (s : it2) : Prop := i2_state s = R2Page \/ i2_state s = R2PageExtra.
Lemma step2_page s : in_page s -> inv2 s ->
  (exists nx value, ptr2_at e F g (i2_page s) (i2_offset s) nx value /\ 0 <= nx /\ g2_mfo g + i2_page s + i2_offset s + 8 <= zlen F /\ i2_offset s + 4 * nx < 2 ^ 64 /\
     r2_step e F g s = if value =? 0 then inr (moved2 s nx) else inl (Ok (Some {| sr_offset := i2_offset s; sr_value := (value + g2_add g) mod 2 ^ 64; sr_auth := None |}), moved2 s nx)) \/
  (exists nx value, ptr2_at e F g (i2_page s) (i2_offset s) nx value /\ 2 ^ 64 <= i2_offset s + 4 * nx /\ r2_step e F g s = inl (Err, s)) \/
  ((forall v, ~ u_at e F (g2_mfo g + i2_page s + i2_offset s) 8 v) /\ r2_step e F g s = inl (Err, s)).
Proof.
  intros Es (I1 & I2 & I3 & I4). unfold r2_step. assert (Hm : 0 <= g2_mfo g) by apply Hg.
  set (m := (x <- of_opt (cadd 64 (g2_mfo g) (i2_page s)) ;; x <- of_opt (cadd 64 x (i2_offset s)) ;; rr_read_at F x 8)).
  assert (R : (exists v b, u_at e F (g2_mfo g + i2_page s + i2_offset s) 8 v /\ m = Ok b /\ read_u e b = v) \/ (m = Err /\ forall v, ~ u_at e F (g2_mfo g + i2_page s + i2_offset s) 8 v)).
  { subst m. assert (Ec : cadd 64 (g2_mfo g) (i2_page s) = if g2_mfo g + i2_page s <? 2 ^ 64 then Some (g2_mfo g + i2_page s) else None) by reflexivity. rewrite Ec. clear Ec. destruct (Z.ltb_spec (g2_mfo g + i2_page s) (2 ^ 64)) as [Hlt|Hge]; cbn [of_opt bind].
    - pose proof (read_ptr e F (g2_mfo g + i2_page s) (i2_offset s) HB HF ltac:(lia) I4) as RP. cbv zeta in RP. destruct RP as [(v & b & U & E & R & _)|(E & N)]; [left; exists v, b; split; [exact U|]; split; [exact E|exact R]|right; split; [exact E|exact N]].
    - right. split; [reflexivity|]. intros v (_ & H). apply holds_bounds in H. rewrite zlen_write_u in H. lia. }
  destruct (tz_spec (g2_mask g)) as (Tz & c & Hc & Hk); [apply Hg|].
  destruct R as [(v & b & U & E & R)|(E & N)].
  2: { right. right. split; [exact N|]. destruct Es as [-> | ->]; rewrite E; reflexivity. }
  assert (Bd : g2_mfo g + i2_page s + i2_offset s + 8 <= zlen F) by (destruct U as (_ & H); apply holds_bounds in H; rewrite zlen_write_u in H; lia).
  set (nx := Z.shiftr (Z.land v (g2_mask g)) (tz64 (g2_mask g))).
  assert (Hv : 0 <= v) by apply U.
  assert (Hn : 0 <= nx) by (apply Z.shiftr_nonneg; apply Z.land_nonneg; left; exact Hv).
  assert (P : ptr2_at e F g (i2_page s) (i2_offset s) nx (Z.ldiff v (g2_mask g))).
  { exists v, (tz64 (g2_mask g)), c. split; [exact U|]. split; [exact Hk|]. split; [lia|]. split; [exact Hc|]. split; [apply Z.shiftr_div_pow2; lia|reflexivity]. }
  assert (Sh : pshr (Z.land v (g2_mask g)) (tz64 (g2_mask g)) = Ok nx) by (unfold pshr; destruct (Z.ltb_spec (tz64 (g2_mask g)) 64); [reflexivity|lia]).
  clearbody nx. unfold moved2, mk2. 
  destruct Es as [Es|Es]; rewrite Es; rewrite E, R, Sh; destruct (Z.eqb_spec nx 0) as [Z0|Nz];
  try (left; exists nx, (Z.ldiff v (g2_mask g)); split; [exact P|]; split; [exact Hn|]; split; [exact Bd|]; split; [lia|]; rewrite Z0; reflexivity);
  unfold cmul, cadd; (destruct (Z.ltb_spec (nx * 4) (2 ^ 64)); [cbn [of_opt bind]; destruct (Z.ltb_spec (i2_offset s + nx * 4) (2 ^ 64)); cbn [of_opt bind]|cbn [of_opt bind]]).
  all: try (right; left; exists nx, (Z.ldiff v (g2_mask g)); split; [exact P|]; split; [lia|reflexivity]).
  all: left; exists nx, (Z.ldiff v (g2_mask g)); (split; [exact P|]; split; [exact Hn|]; split; [exact Bd|]; split; [lia|]); rewrite (proj2 (Z.eqb_neq nx 0) Nz); rewrite (Z.mul_comm nx 4); reflexivity.
Qed.
Lemma bound2 s : inv2 s -> 0 <= r2_bound F g s.
Proof. intros _. unfold r2_bound. pose proof (zlen_nonneg F). pose proof (zlen_nonneg (g2_extras g)). cbv zeta. destruct (i2_state s); nia. Qed.
Lemma step2_down s s' : inv2 s -> r2_step e F g s = inr s' -> inv2 s' /\ r2_bound F g s' < r2_bound F g s.
Proof.
  intros I E. pose proof (zlen_nonneg F) as LF. pose proof (zlen_nonneg (g2_extras g)) as LX. destruct I as (I1 & I2 & I3 & I4). pose proof (conj I1 (conj I2 (conj I3 I4)) : inv2 s) as I.
  destruct (i2_state s) eqn:Es.
  - destruct (zget (g2_starts g) (i2_start s)) as [x|] eqn:Ex; [|unfold r2_step in E; rewrite Es, Ex in E; discriminate].
    rewrite (step2_start s x Es Ex) in E. apply inr_inj in E. subst s'. destruct (start2 _ _ Ex) as (H1 & H2 & H3). assert (M : 0 <= x mod 2 ^ 14) by (apply Z.mod_pos_bound; lia).
    cbv zeta. unfold mk2, inv2, r2_bound. rewrite Es. cbv zeta. set (K := (zlen (g2_extras g) + 2) * (zlen F + 3)).
    assert (KX : K = zlen (g2_extras g) * (zlen F + 3) + 2 * (zlen F + 3)) by (subst K; lia). assert (K0 : 0 <= zlen (g2_extras g) * (zlen F + 3)) by (apply Z.mul_nonneg_nonneg; lia).
    assert (MX : Z.max 0 (zlen (g2_extras g) - x mod 2 ^ 14) * (zlen F + 3) <= zlen (g2_extras g) * (zlen F + 3)) by (apply Z.mul_le_mono_nonneg_r; lia).
    rewrite (Z.max_r 0 (zlen (g2_starts g) - i2_start s)) by lia.
    assert (N1 : Z.max 0 (zlen (g2_starts g) - (i2_start s + 1)) * K = (zlen (g2_starts g) - i2_start s) * K - K) by (rewrite Z.max_r by lia; lia).
    destruct (Z.testbit x 14); [|destruct (Z.testbit x 15)]; cbn [i2_state i2_start i2_extra i2_page i2_offset]; rewrite N1; (split; [lia|]); lia.
  - destruct (zget (g2_extras g) (i2_extra s)) as [x|] eqn:Ex; [|unfold r2_step in E; rewrite Es, Ex in E; discriminate].
    rewrite (step2_extra s x Es Ex) in E. apply inr_inj in E. subst s'. destruct (extra2 _ _ Ex) as (H1 & H2). assert (M : 0 <= x mod 2 ^ 14) by (apply Z.mod_pos_bound; lia).
    unfold mk2, inv2, r2_bound. rewrite Es. cbv zeta. set (K := (zlen (g2_extras g) + 2) * (zlen F + 3)).
    rewrite (Z.max_r 0 (zlen (g2_extras g) - i2_extra s)) by lia. cbn [i2_state i2_start i2_extra i2_page i2_offset].
    assert (N1 : Z.max 0 (zlen (g2_extras g) - (i2_extra s + 1)) * (zlen F + 3) = (zlen (g2_extras g) - i2_extra s) * (zlen F + 3) - (zlen F + 3)) by (rewrite Z.max_r by lia; lia).
    assert (N2 : zlen F + 3 <= (zlen (g2_extras g) - i2_extra s) * (zlen F + 3)) by nia.
    destruct (x <? 2 ^ 15); cbn [i2_state]; rewrite ?N1; (split; [lia|]); lia.
  - destruct (step2_page s (or_introl Es) I) as [(nx & value & P & H0 & Bd & Hb & E')|[(nx & value & _ & _ & E')|(_ & E')]]; [|congruence..]. rewrite E' in E. destruct (value =? 0); [|discriminate]. apply inr_inj in E. subst s'.
    assert (Hm : 0 <= g2_mfo g) by apply Hg. unfold moved2, mk2, inv2, r2_bound. rewrite Es. cbv zeta. destruct (Z.eqb_spec nx 0); cbn [i2_state i2_start i2_extra i2_page i2_offset after2]; (split; [lia|]); lia.
  - destruct (step2_page s (or_intror Es) I) as [(nx & value & P & H0 & Bd & Hb & E')|[(nx & value & _ & _ & E')|(_ & E')]]; [|congruence..]. rewrite E' in E. destruct (value =? 0); [|discriminate]. apply inr_inj in E. subst s'.
    assert (Hm : 0 <= g2_mfo g) by apply Hg. unfold moved2, mk2, inv2, r2_bound. rewrite Es. cbv zeta. destruct (Z.eqb_spec nx 0); cbn [i2_state i2_start i2_extra i2_page i2_offset after2]; (split; [lia|]); lia.
Qed.
Lemma next2 s : inv2 s -> next s = match r2_step e F g s with inl r => r | inr s' => next s' end.
Proof. intro I. exact (loop_next (r2_step e F g) (r2_bound F g) inv2 bound2 step2_down s I). Qed.
Lemma next2_np s : inv2 s -> fst (next s) <> Panic.
Proof.
  intro I. unfold r2_next. apply (loop_no_panic (r2_step e F g) (r2_bound F g) inv2 bound2 step2_down (Datatypes.S (Z.to_nat (r2_bound F g s)))); [|exact I|pose proof (bound2 s I); lia|lia].
  intros t s' It E. destruct (i2_state t) eqn:Es.
  - destruct (zget (g2_starts g) (i2_start t)) as [x|] eqn:Ex; [rewrite (step2_start t x Es Ex) in E; discriminate|]. unfold r2_step in E. rewrite Es, Ex in E. discriminate.
  - destruct (zget (g2_extras g) (i2_extra t)) as [x|] eqn:Ex; [rewrite (step2_extra t x Es Ex) in E; discriminate|]. unfold r2_step in E. rewrite Es, Ex in E. discriminate.
  - destruct (step2_page t (or_introl Es) It) as [(nx & value & _ & _ & _ & _ & E')|[(nx & value & _ & _ & E')|(_ & E')]]; rewrite E' in E; [destruct (value =? 0)|..]; discriminate.
  - destruct (step2_page t (or_intror Es) It) as [(nx & value & _ & _ & _ & _ & E')|[(nx & value & _ & _ & E')|(_ & E')]]; rewrite E' in E; [destruct (value =? 0)|..]; discriminate.
Qed.
Definition stuck2 (s : it2) : Prop := next s = (Err, s).
Definition ended2 (err : bool) (s : it2) : Prop := if err then stuck2 s else next s = (Ok None, s).
Lemma ptr2_fun page o nx v nx' v' : ptr2_at e F g page o nx v -> ptr2_at e F g page o nx' v' -> nx = nx' /\ v = v'.
Proof.
  intros (p & k & c & U & E & Hk & Hc & -> & ->) (p' & k' & c' & U' & E' & Hk' & Hc' & -> & ->). pose proof (u_at_fun _ _ _ _ _ _ U U') as <-. rewrite E in E' at 1. apply low_fun in E' as <-; auto.
Qed.
(** one pointer *)
Lemma item_step s nx value : in_page s -> inv2 s -> ptr2_at e F g (i2_page s) (i2_offset s) nx value -> i2_offset s + 4 * nx < 2 ^ 64 ->
  0 <= nx /\ forall l er s', runs next (moved2 s nx) l er s' -> runs next s (item2 g (i2_offset s) value ++ l) er s'.
Proof.
  intros Es I P Hb. pose proof (next2 s I) as N. destruct (step2_page s Es I) as [(nx' & v' & P' & H0 & _ & _ & E')|[(nx' & v' & P' & Hb' & E')|(Nu & E')]]; rewrite E' in N.
  - destruct (ptr2_fun _ _ _ _ _ _ P P') as (<- & <-). split; [exact H0|]. intros l er s' R. unfold item2. destruct (value =? 0); cbn [app]; [eapply runs_same; [exact N|exact R]|eapply runs_more; [exact N|exact R]].
  - destruct (ptr2_fun _ _ _ _ _ _ P P') as (<- & <-). lia.
  - destruct P as (p & _ & _ & U & _). destruct (Nu p U).
Qed.
Lemma chain2_gives page off l err : chain2 e F g page off l err -> forall s, in_page s -> inv2 s -> i2_page s = page -> i2_offset s = off ->
  if err then exists s', runs next s l true s' /\ stuck2 s' else exists o, 0 <= o /\ forall l2 e2 s2, runs next (mk2 (after2 (i2_state s)) (i2_start s) (i2_extra s) page o) l2 e2 s2 -> runs next s (l ++ l2) e2 s2.
Proof.
  intro C. induction C as [off value P|off nx value l err P Nz Hb C IH|off nx value P Hb|off N]; intros s Es I Ep <-; subst page.
  - destruct (item_step s _ _ Es I P) as (_ & St); [destruct I as (I1 & I2 & I3 & I4); assert (B : i2_offset s < 2 ^ 63); [|lia]|].
    { destruct P as (p & _ & _ & (_ & H) & _). apply holds_bounds in H. rewrite zlen_write_u in H. destruct Hg as ((Hm & _) & _). lia. }
    exists (i2_offset s). split; [apply I|]. intros l2 e2 s2 R. apply St. exact R.
  - destruct (item_step s _ _ Es I P Hb) as (H0 & St). unfold moved2 in St. destruct (Z.eqb_spec nx 0); [lia|].
    match type of St with context [runs next ?s1] => specialize (IH s1 Es ltac:(destruct I as (? & ? & ? & ?); unfold inv2, mk2; cbn [i2_start i2_extra i2_page i2_offset]; lia) eq_refl eq_refl) end. destruct err.
    + destruct IH as (s' & R & Sk). exists s'. split; [apply St; exact R|exact Sk].
    + destruct IH as (o & Ho & IH). exists o. split; [exact Ho|]. intros l2 e2 s2 R. rewrite <- app_assoc. apply St. apply IH. exact R.
  - pose proof (next2 s I) as Nx. destruct (step2_page s Es I) as [(nx' & v' & P' & H0 & _ & Hb' & E')|[(nx' & v' & P' & Hb' & E')|(Nu & E')]]; rewrite E' in Nx.
    + destruct (ptr2_fun _ _ _ _ _ _ P P') as (<- & <-). lia.
    + exists s. split; [apply runs_err; exact Nx|exact Nx].
    + exists s. split; [apply runs_err; exact Nx|exact Nx].
  - pose proof (next2 s I) as Nx. destruct (step2_page s Es I) as [(nx' & v' & (p & _ & _ & U & _) & _)|[(nx' & v' & (p & _ & _ & U & _) & _)|(Nu & E')]]; [destruct (N p U)..|]. rewrite E' in Nx.
    exists s. split; [apply runs_err; exact Nx|exact Nx].
Qed.
Definition outcome (s : it2) (page : Z) (l : list sreloc) (r : option bool) : Prop :=
  match r with
  | Some err => exists s', runs next s l err s' /\ ended2 err s'
  | None => exists x o, 0 <= x /\ 0 <= o /\ forall l2 e2 s2, runs next (mk2 R2Start (i2_start s) x page o) l2 e2 s2 -> runs next s (l ++ l2) e2 s2
  end.
Lemma outcome_same a b page l r : next a = next b -> i2_start a = i2_start b -> outcome b page l r -> outcome a page l r.
Proof.
  intros E Q H. destruct r as [err|]; cbn [outcome] in *.
  - destruct H as (s' & R & En). exists s'. split; [eapply runs_same; [exact E|exact R]|exact En].
  - destruct H as (x & o & Hx & Ho & H). exists x, o. split; [exact Hx|]. split; [exact Ho|]. intros l2 e2 s2 R. eapply runs_same; [exact E|]. apply H. rewrite <- Q. exact R.
Qed.
Lemma chain2_outcome page off l err s : chain2 e F g page off l err -> i2_state s = R2Page -> inv2 s -> i2_page s = page -> i2_offset s = off -> outcome s page l (if err then Some true else None).
Proof.
  intros C Es I Ep Eo. pose proof (chain2_gives _ _ _ _ C s (or_introl Es) I Ep Eo) as Gv. destruct err; cbn [outcome].
  - exact Gv.
  - destruct Gv as (o & Ho & Gv). rewrite Es in Gv. cbn [after2] in Gv. exists (i2_extra s), o. split; [apply I|]. split; [exact Ho|exact Gv].
Qed.
Lemma extras2_gives page i l r : extras2 e F g page i l r -> forall s, i2_state s = R2Extra -> inv2 s -> i2_page s = page -> i2_extra s = i -> outcome s page l r.
Proof.
  intro X. induction X as [i x l err Ex Hx C|i x l1 l2 r Ex Hx C X IH|i x l Ex Hx C|i Ex]; intros s Es I Ep <-; pose proof (next2 s I) as N; destruct I as (I1 & I2 & I3 & I4).
  1,2,3: rewrite (step2_extra s x Es Ex) in N; assert (M : 0 <= x mod 2 ^ 14) by (apply Z.mod_pos_bound; lia).
  - destruct (Z.ltb_spec x (2 ^ 15)); [lia|]. eapply outcome_same; [exact N|reflexivity|]. apply (chain2_outcome page (x mod 2 ^ 14 * 4)); [exact C|reflexivity| |exact Ep|reflexivity]. unfold inv2, mk2. cbn [i2_start i2_extra i2_page i2_offset]. lia.
  - destruct (Z.ltb_spec x (2 ^ 15)); [|lia]. eapply outcome_same; [exact N|reflexivity|].
    match goal with |- outcome ?s1 _ _ _ => pose proof (chain2_gives _ _ _ _ C s1 (or_intror eq_refl) ltac:(unfold inv2, mk2; cbn [i2_start i2_extra i2_page i2_offset]; lia) Ep eq_refl) as (o & Ho & Gv) end.
    cbn [after2 mk2 i2_state i2_start i2_extra] in Gv.
    specialize (IH (mk2 R2Extra (i2_start s) (i2_extra s + 1) page o) eq_refl ltac:(unfold inv2, mk2; cbn [i2_start i2_extra i2_page i2_offset]; lia) eq_refl eq_refl).
    destruct r as [err|]; cbn [outcome] in *.
    + destruct IH as (s' & R & En). exists s'. split; [apply Gv; exact R|exact En].
    + destruct IH as (x' & o' & Hx' & Ho' & IH). exists x', o'. split; [exact Hx'|]. split; [exact Ho'|]. intros l3 e3 s3 R. rewrite <- app_assoc. apply Gv. apply IH. exact R.
  - destruct (Z.ltb_spec x (2 ^ 15)); [|lia]. eapply outcome_same; [exact N|reflexivity|].
    match goal with |- outcome ?s1 _ _ _ => exact (chain2_gives _ _ _ _ C s1 (or_intror eq_refl) ltac:(unfold inv2, mk2; cbn [i2_start i2_extra i2_page i2_offset]; lia) Ep eq_refl) end.
  - assert (E : next s = (Ok None, s)) by (rewrite N; unfold r2_step; rewrite Es, Ex; reflexivity). exists s. split; [apply runs_done; exact E|exact E].
Qed.
Lemma page2_gives x l r s : page2 e F g (i2_start s * g2_page_size g) x l r -> i2_state s = R2Start -> inv2 s -> zget (g2_starts g) (i2_start s) = Some x ->
  match r with
  | Some err => exists s', runs next s l err s' /\ ended2 err s'
  | None => exists y o, 0 <= y /\ 0 <= o /\ forall l2 e2 s2, runs next (mk2 R2Start (i2_start s + 1) y (i2_start s * g2_page_size g) o) l2 e2 s2 -> runs next s (l ++ l2) e2 s2
  end.
Proof.
  intros P Es I Ex. pose proof (next2 s I) as N. rewrite (step2_start s x Es Ex) in N. cbv zeta in N. destruct (start2 _ _ Ex) as (H1 & H2 & H3). destruct I as (I1 & I2 & I3 & I4).
  assert (M : 0 <= x mod 2 ^ 14) by (apply Z.mod_pos_bound; lia).
  destruct P as [B14|l r B14 B15 X|l err B14 B15 C]; rewrite B14 in N.
  - exists (i2_extra s), (i2_offset s). split; [exact I2|]. split; [exact I4|]. intros l2 e2 s2 R. eapply runs_same; [exact N|exact R].
  - rewrite B15 in N. match type of N with _ = next ?s1 => pose proof (extras2_gives _ _ _ _ X s1 eq_refl ltac:(unfold inv2, mk2; cbn [i2_start i2_extra i2_page i2_offset]; lia) eq_refl eq_refl) as O end.
    destruct r as [err|]; cbn [outcome mk2 i2_start] in O.
    + destruct O as (s' & R & En). exists s'. split; [eapply runs_same; [exact N|exact R]|exact En].
    + destruct O as (y & o & Hy & Ho & O). exists y, o. split; [exact Hy|]. split; [exact Ho|]. intros l2 e2 s2 R. eapply runs_same; [exact N|]. apply O. exact R.
  - rewrite B15 in N. match type of N with _ = next ?s1 => pose proof (chain2_outcome _ _ _ _ s1 C eq_refl ltac:(unfold inv2, mk2; cbn [i2_start i2_extra i2_page i2_offset]; lia) eq_refl eq_refl) as O end.
    destruct err; cbn [outcome mk2 i2_start] in O.
    + destruct O as (s' & R & En). exists s'. split; [eapply runs_same; [exact N|exact R]|exact En].
    + destruct O as (y & o & Hy & Ho & O). exists y, o. split; [exact Hy|]. split; [exact Ho|]. intros l2 e2 s2 R. eapply runs_same; [exact N|]. apply O. exact R.
Qed.
Lemma pages2_run p xs l err : pages2 e F g p xs l err -> forall s, i2_state s = R2Start -> inv2 s -> i2_start s = p -> zdrop p (g2_starts g) = xs -> exists s', runs next s l err s' /\ ended2 err s'.
Proof.
  intro P. induction P as [p|p x xs l1 l2 err P1 P IH|p x xs l err P1]; intros s Es I <- Ed.
  - assert (E : next s = (Ok None, s)) by (rewrite (next2 s I); unfold r2_step; rewrite Es, (zget_drop_nil _ _ (proj1 I) Ed); reflexivity). exists s. split; [apply runs_done; exact E|exact E].
  - destruct (zget_drop _ _ _ _ (proj1 I) Ed) as (Ex & Ed'). destruct (page2_gives x l1 None s P1 Es I Ex) as (y & o & Hy & Ho & Gv). destruct (start2 _ _ Ex) as (H1 & H2 & H3).
    match type of Gv with context [runs next ?s1] => destruct (IH s1 eq_refl ltac:(unfold inv2, mk2; cbn [i2_start i2_extra i2_page i2_offset]; lia) eq_refl Ed') as (s' & R & En) end. exists s'. split; [apply Gv; exact R|exact En].
  - destruct (zget_drop _ _ _ _ (proj1 I) Ed) as (Ex & Ed'). exact (page2_gives x l (Some err) s P1 Es I Ex).
Qed.
(** every chain and every table have relocations *)
Lemma chain2_total page n : 0 <= page -> forall off, 0 <= off -> zlen F - off < Z.of_nat n -> exists l err, chain2 e F g page off l err.
Proof.
  intro Hp. assert (Hm : 0 <= g2_mfo g) by apply Hg. induction n as [|n IH]; intros off Ho Hn.
  - exists [], true. apply c2_bad. intros v (_ & H). apply holds_bounds in H. rewrite zlen_write_u in H. lia.
  - destruct (step2_page (mk2 R2Page 0 0 page off) (or_introl eq_refl)) as [(nx & v & P & H0 & _ & Hb & _)|[(nx & v & P & Hb & _)|(N & _)]]; [unfold inv2, mk2; cbn [i2_start i2_extra i2_page i2_offset]; lia| | |exists [], true; apply c2_bad; exact N]; cbn [mk2 i2_page i2_offset] in P, Hb.
    + destruct (Z.eq_dec nx 0) as [->|Nz]; [exists (item2 g off v), false; apply c2_last; exact P|].
      destruct (IH (off + 4 * nx) ltac:(lia) ltac:(lia)) as (l & err & C). exists (item2 g off v ++ l), err. eapply c2_next; eassumption.
    + exists [], true. eapply c2_far; eassumption.
Qed.
Lemma chain2_any page off : 0 <= page -> 0 <= off -> exists l err, chain2 e F g page off l err.
Proof. intros Hp Ho. apply (chain2_total page (Z.to_nat (zlen F + 1))); [exact Hp|exact Ho|]. pose proof (zlen_nonneg F). lia. Qed.
Lemma extras2_total page n : 0 <= page -> forall i, 0 <= i -> zlen (g2_extras g) - i < Z.of_nat n -> exists l r, extras2 e F g page i l r.
Proof.
  intro Hp. induction n as [|n IH]; intros i Hi Hn; (destruct (zget (g2_extras g) i) as [x|] eqn:Ex; [|exists [], (Some false); apply x2_end; exact Ex]); [apply zget_Some_lt in Ex; lia|].
  assert (M : 0 <= x mod 2 ^ 14) by (apply Z.mod_pos_bound; lia). destruct (chain2_any page (x mod 2 ^ 14 * 4) Hp ltac:(lia)) as (l & err & C). destruct (Z_lt_dec x 0x8000) as [Hlt|Hlt].
  - destruct err; [exists l, (Some true); eapply x2_stop; eassumption|]. destruct (IH (i + 1) ltac:(lia) ltac:(lia)) as (l2 & r & X). exists (l ++ l2), r. eapply x2_more; eassumption.
  - exists l, (if err then Some true else None). eapply x2_last; [exact Ex|lia|exact C].
Qed.
Lemma page2_total page x : 0 <= page -> exists l r, page2 e F g page x l r.
Proof.
  intro Hp. assert (M : 0 <= x mod 2 ^ 14) by (apply Z.mod_pos_bound; lia). destruct (Z.testbit x 14) eqn:B14; [exists [], None; apply p2_none; exact B14|]. destruct (Z.testbit x 15) eqn:B15.
  - destruct (extras2_total page (Z.to_nat (zlen (g2_extras g) + 1)) Hp (x mod 2 ^ 14) M) as (l & r & X); [pose proof (zlen_nonneg (g2_extras g)); lia|]. exists l, r. apply p2_extra; assumption.
  - destruct (chain2_any page (x mod 2 ^ 14 * 4) Hp ltac:(lia)) as (l & err & C). exists l, (if err then Some true else None). apply p2_chain; assumption.
Qed.
Lemma pages2_total xs : forall p, 0 <= p -> exists l err, pages2 e F g p xs l err.
Proof.
  assert (Hps : 0 <= g2_page_size g) by apply Hg. induction xs as [|x xs IH]; intros p Hp; [exists [], false; apply q2_end|].
  destruct (page2_total (p * g2_page_size g) x ltac:(nia)) as (l & [err|] & P); [exists l, err; apply q2_stop; exact P|]. destruct (IH (p + 1) ltac:(lia)) as (l2 & err & P2). exists (l ++ l2), err. eapply q2_more; eassumption.
Qed.
Lemma relocs2_total : exists l err s, pages2 e F g 0 (g2_starts g) l err /\ runs next it2_new l err s /\ ended2 err s.
Proof.
  destruct (pages2_total (g2_starts g) 0 ltac:(lia)) as (l & err & P). destruct (pages2_run 0 _ l err P it2_new eq_refl ltac:(unfold inv2; cbn; lia) eq_refl eq_refl) as (s & R & En). exists l, err, s. auto.
Qed.
Lemma relocs2_iff l err : (exists s, runs next it2_new l err s) <-> pages2 e F g 0 (g2_starts g) l err.
Proof.
  split.
  - intros (s & R). destruct relocs2_total as (l' & err' & s' & P & R' & _). destruct (runs_det next _ _ _ _ R _ _ _ R') as (-> & -> & _). exact P.
  - intro P. destruct (pages2_run 0 _ l err P it2_new eq_refl ltac:(unfold inv2; cbn; lia) eq_refl eq_refl) as (s & R & _). exists s. exact R.
Qed.
End R2.
