(** Dyld shared caches: relocations of versions 3 and 5. *)
From Verif Require Import Core_proofs Util_proofs File_proofs Iter_proofs Rel_proofs.
From Verif Require Import Fix_proofs.
From Verif Require Fkind_proofs.
From Verif Require Import Shc_spec Shc_proofs.

(** reading a pointer *)
Lemma read_ptr e F mfo off : bytes_ok F -> zlen F < 2 ^ 63 -> 0 <= mfo -> 0 <= off ->
  let m := (x <- of_opt (cadd 64 mfo off) ;; rr_read_at F x 8) in
  (exists v b, u_at e F (mfo + off) 8 v /\ m = Ok b /\ read_u e b = v /\ mfo + off < 2 ^ 63) \/ (m = Err /\ forall v, ~ u_at e F (mfo + off) 8 v).
Proof.
  intros B L Hm Ho. cbv zeta. unfold cadd. destruct (Z.ltb_spec (mfo + off) (2 ^ 64)) as [Hlt|Hge]; cbn [of_opt bind].
  - pose proof (rr_read_at_no_panic F (mfo + off) 8) as NP. destruct (rr_read_at F (mfo + off) 8) as [b| |] eqn:E; [left|right|congruence].
    + assert (U : u_at e F (mfo + off) 8 (read_u e b)) by (apply read_at_u; [exact B|exact L|lia|lia|exists b; split; [exact E|reflexivity]]).
      exists (read_u e b), b. split; [exact U|]. repeat split. destruct U as (_ & H). apply holds_bounds in H. rewrite zlen_write_u in H. lia.
    + split; [reflexivity|]. intros v U. apply (read_at_u e F (mfo + off) 8 v B L ltac:(lia) ltac:(lia)) in U as (b & E' & _). change (Z.of_nat 8) with 8 in E'. congruence.
  - right. split; [reflexivity|]. intros v (_ & H). apply holds_bounds in H. rewrite zlen_write_u in H. lia.
Qed.

Definition slide3_ok (g : slide3) : Prop := u64_ok (g3_mfo g) /\ u32_ok (g3_page_size g) /\ zlen (g3_starts g) < 2 ^ 32 /\ Forall u16_ok (g3_starts g).
Section R3.
Context (e : endian) (F : bytes) (g : slide3) (HB : bytes_ok F) (HF : zlen F < 2 ^ 63) (Hg : slide3_ok g).
Notation next := (r3_next e F g).
Definition inv3 (s : it3) : Prop := 0 <= i3_start s /\ 0 <= i3_offset s.
Lemma start3 p x : zget (g3_starts g) p = Some x -> 0 <= p < zlen (g3_starts g) /\ u16_ok x /\ 0 <= p * g3_page_size g /\ p * g3_page_size g + x < 2 ^ 64.
Proof.
  intro E. destruct Hg as (_ & P & L & Fs). pose proof (zget_Some_lt _ _ _ E). rewrite Forall_forall in Fs. pose proof (Fs x (zget_In _ _ _ E)) as U.
  unfold u32_ok, u16_ok in *. change (2 ^ 32) with 4294967296 in *. change (2 ^ 64) with 18446744073709551616. change (2 ^ 16) with 65536 in *. split; [lia|]. split; [exact U|]. nia.
Qed.
Lemma step3_start s x : i3_page s = false -> zget (g3_starts g) (i3_start s) = Some x ->
  r3_step e F g s = inr (if x =? 65535 then {| i3_page := false; i3_start := i3_start s + 1; i3_offset := i3_offset s |}
                         else {| i3_page := true; i3_start := i3_start s + 1; i3_offset := i3_start s * g3_page_size g + x |}).
Proof.
  intros Es Ex. unfold r3_step. rewrite Es, Ex. destruct (start3 _ _ Ex) as (H1 & H2 & H3 & H4). unfold u16_ok in H2. destruct Hg as (_ & _ & L & _).
  unfold pmul, padd. destruct (Z.ltb_spec (i3_start s * g3_page_size g) (2 ^ 64)); [|lia]. cbn [bind]. destruct (Z.ltb_spec (i3_start s + 1) (2 ^ 64)); [|lia]. cbn [bind].
  destruct (x =? 65535); [reflexivity|]. destruct (Z.ltb_spec (i3_start s * g3_page_size g + x) (2 ^ 64)); [reflexivity|lia].
Qed.
Lemma step3_page s : i3_page s = true -> inv3 s ->
  (exists nx r, ptr3_at e F g (i3_offset s) nx r /\ 0 <= nx /\ (nx = 0 \/ i3_offset s + 8 * nx < 2 ^ 64) /\ g3_mfo g + i3_offset s < 2 ^ 63 /\
     r3_step e F g s = inl (Ok (Some r), if nx =? 0 then {| i3_page := false; i3_start := i3_start s; i3_offset := i3_offset s |} else {| i3_page := true; i3_start := i3_start s; i3_offset := i3_offset s + 8 * nx |})) \/
  ((forall v, ~ u_at e F (g3_mfo g + i3_offset s) 8 v) /\ r3_step e F g s = inl (Err, s)).
Proof.
  intros Es (I1 & I2). unfold r3_step. rewrite Es. assert (Hm : 0 <= g3_mfo g) by apply Hg.
  destruct (read_ptr e F (g3_mfo g) (i3_offset s) HB HF Hm I2) as [(v & b & U & E & R & Hlt)|(E & N)]; cbv zeta in E; rewrite E; [left|right; split; [exact N|reflexivity]].
  rewrite R. fold (sptr g v). destruct (sptr g v) as (nx & value & auth) eqn:Sp. assert (Hv : 0 <= v < 2 ^ 64) by (destruct U as (Hv & _); exact Hv). apply (ptr3_iff g v nx value auth Hv) in Sp. pose proof (ptr3_next _ _ _ _ _ Sp) as Bn. change (2 ^ 11) with 2048 in Bn.
  exists nx, {| sr_offset := i3_offset s; sr_value := value; sr_auth := auth |}. split; [exists v; cbn [sr_value sr_auth sr_offset]; auto|]. split; [lia|]. split; [right; lia|]. split; [exact Hlt|].
  destruct (Z.eqb_spec nx 0) as [->|Nz]; [reflexivity|]. unfold pmul, cadd. destruct (Z.ltb_spec (nx * 8) (2 ^ 64)); [|lia]. cbn [bind]. destruct (Z.ltb_spec (i3_offset s + nx * 8) (2 ^ 64)); [|lia]. cbn [of_opt bind]. rewrite (Z.mul_comm nx 8). reflexivity.
Qed.
Lemma bound3 s : inv3 s -> 0 <= r3_bound g s.
Proof. intros _. unfold r3_bound. destruct (i3_page s); lia. Qed.
Lemma step3_down s s' : inv3 s -> r3_step e F g s = inr s' -> inv3 s' /\ r3_bound g s' < r3_bound g s.
Proof.
  intros I E. destruct (i3_page s) eqn:Es.
  - destruct (step3_page s Es I) as [(nx & r & _ & _ & _ & _ & E')|(_ & E')]; congruence.
  - destruct (zget (g3_starts g) (i3_start s)) as [x|] eqn:Ex; [|unfold r3_step in E; rewrite Es, Ex in E; discriminate].
    rewrite (step3_start s x Es Ex) in E. injection E as <-. destruct (start3 _ _ Ex) as (H1 & H2 & H3 & H4). unfold u16_ok in H2. destruct I as (I1 & I2). unfold inv3, r3_bound. rewrite Es.
    destruct (x =? 65535); cbn [i3_page i3_start i3_offset]; lia.
Qed.
Lemma next3 s : inv3 s -> next s = match r3_step e F g s with inl r => r | inr s' => next s' end.
Proof. intro I. exact (loop_next (r3_step e F g) (r3_bound g) inv3 bound3 step3_down s I). Qed.
Lemma next3_np s : inv3 s -> fst (next s) <> Panic.
Proof.
  intro I. unfold r3_next. apply (loop_no_panic (r3_step e F g) (r3_bound g) inv3 bound3 step3_down (Datatypes.S (Z.to_nat (r3_bound g s)))); [|exact I|pose proof (bound3 s I); lia|lia].
  intros t s' It E. destruct (i3_page t) eqn:Es.
  - destruct (step3_page t Es It) as [(nx & r & _ & _ & _ & _ & E')|(_ & E')]; congruence.
  - destruct (zget (g3_starts g) (i3_start t)) as [x|] eqn:Ex; [rewrite (step3_start t x Es Ex) in E; discriminate|]. unfold r3_step in E. rewrite Es, Ex in E. discriminate.
Qed.
(** after an error, the same error again *)
Definition stuck3 (s : it3) : Prop := next s = (Err, s).
Lemma chain3_gives off l err : chain3 e F g off l err -> forall s, i3_page s = true -> inv3 s -> i3_offset s = off ->
  if err then exists s', runs next s l true s' /\ stuck3 s' else exists o, 0 <= o /\ forall l2 e2 s2, runs next {| i3_page := false; i3_start := i3_start s; i3_offset := o |} l2 e2 s2 -> runs next s (l ++ l2) e2 s2.
Proof.
  assert (Uq : forall o nx r nx' r', ptr3_at e F g o nx r -> ptr3_at e F g o nx' r' -> nx = nx' /\ r = r').
  { intros o nx r nx' r' (v & U & P & Q) (v' & U' & P' & Q'). pose proof (u_at_fun _ _ _ _ _ _ U U') as <-. apply ptr3_ok in P. apply ptr3_ok in P'. rewrite P in P'. injection P' as -> E1 E2. split; [reflexivity|]. destruct r, r'. cbn in *. congruence. }
  intro C. induction C as [off r P|off nx r l err P Nz C IH|off N]; intros s Es I <-; pose proof (next3 s I) as Nx; destruct (step3_page s Es I) as [(nx' & r' & P' & H0 & Hb & _ & E')|(N' & E')]; rewrite E' in Nx.
  - destruct (Uq _ _ _ _ _ P P') as (<- & <-). cbn [Z.eqb] in Nx. exists (i3_offset s). split; [apply I|]. intros l2 e2 s2 R. eapply runs_more; [exact Nx|exact R].
  - destruct P as (v & U & _). destruct (N' v U).
  - destruct (Uq _ _ _ _ _ P P') as (<- & <-). destruct (Z.eqb_spec nx 0); [lia|].
    match type of Nx with _ = (_, ?s1) => specialize (IH s1 eq_refl ltac:(destruct I; split; cbn [i3_start i3_offset]; lia) eq_refl) end. destruct err.
    + destruct IH as (s' & R & St). exists s'. split; [eapply runs_more; [exact Nx|exact R]|exact St].
    + destruct IH as (o & Ho & IH). exists o. split; [exact Ho|]. intros l2 e2 s2 R. cbn [app]. eapply runs_more; [exact Nx|]. apply IH. exact R.
  - destruct P as (v & U & _). destruct (N' v U).
  - destruct P' as (v & U & _). destruct (N v U).
  - exists s. split; [apply runs_err; exact Nx|exact Nx].
Qed.
Definition ended3 (err : bool) (s : it3) : Prop := if err then stuck3 s else next s = (Ok None, s).
Lemma pages3_run p xs l err : pages3 e F g p xs l err -> forall s, i3_page s = false -> inv3 s -> i3_start s = p -> zdrop p (g3_starts g) = xs -> exists s', runs next s l err s' /\ ended3 err s'.
Proof.
  intro P. induction P as [p|p xs l err P IH|p x xs l1 l2 err Nx C P IH|p x xs l Nx C]; intros s Es I <- Ed; pose proof (next3 s I) as N.
  - assert (E : next s = (Ok None, s)) by (rewrite N; unfold r3_step; rewrite Es, (zget_drop_nil _ _ (proj1 I) Ed); reflexivity). exists s. split; [apply runs_done; exact E|exact E].
  - destruct (zget_drop _ _ _ _ (proj1 I) Ed) as (Ex & Ed'). rewrite (step3_start s _ Es Ex) in N. cbn [Z.eqb Pos.eqb] in N.
    match type of N with _ = next ?s1 => destruct (IH s1 eq_refl ltac:(destruct I; split; cbn [i3_start i3_offset]; lia) eq_refl Ed') as (s' & R & En) end. exists s'. split; [eapply runs_same; [exact N|exact R]|exact En].
  - destruct (zget_drop _ _ _ _ (proj1 I) Ed) as (Ex & Ed'). destruct (start3 _ _ Ex) as (H1 & H2 & H3 & H4). unfold u16_ok in H2. rewrite (step3_start s _ Es Ex) in N. destruct (Z.eqb_spec x 65535); [lia|].
    match type of N with _ = next ?s1 => destruct (chain3_gives _ l1 false C s1 eq_refl ltac:(destruct I; split; cbn [i3_start i3_offset]; lia) eq_refl) as (o & Ho & Gv) end. cbn [i3_start] in Gv.
    match type of Gv with context [runs next ?s1] => destruct (IH s1 eq_refl ltac:(destruct I; split; cbn [i3_start i3_offset]; lia) eq_refl Ed') as (s' & R & En) end. exists s'. split; [eapply runs_same; [exact N|]; apply Gv; exact R|exact En].
  - destruct (zget_drop _ _ _ _ (proj1 I) Ed) as (Ex & Ed'). destruct (start3 _ _ Ex) as (H1 & H2 & H3 & H4). unfold u16_ok in H2. rewrite (step3_start s _ Es Ex) in N. destruct (Z.eqb_spec x 65535); [lia|].
    match type of N with _ = next ?s1 => destruct (chain3_gives _ l true C s1 eq_refl ltac:(destruct I; split; cbn [i3_start i3_offset]; lia) eq_refl) as (s' & R & En) end. exists s'. split; [eapply runs_same; [exact N|exact R]|exact En].
Qed.
(** every chain and every table have relocations *)
Lemma chain3_total n : forall off, 0 <= off -> zlen F - off < Z.of_nat n -> exists l err, chain3 e F g off l err.
Proof.
  induction n as [|n IH]; intros off Ho Hn.
  - exists [], true. apply c3_bad. intros v (_ & H). apply holds_bounds in H. rewrite zlen_write_u in H. destruct Hg as ((Hm & _) & _). lia.
  - destruct (step3_page {| i3_page := true; i3_start := 0; i3_offset := off |} eq_refl) as [(nx & r & P & H0 & _)|(N & _)]; [split; cbn [i3_start i3_offset]; lia| |exists [], true; apply c3_bad; exact N].
    cbn [i3_offset] in P. destruct (Z.eq_dec nx 0) as [->|Nz]; [exists [r], false; apply c3_last; exact P|].
    destruct (IH (off + 8 * nx) ltac:(lia) ltac:(lia)) as (l & err & C). exists (r :: l), err. eapply c3_next; eassumption.
Qed.
Lemma pages3_total xs : forall p, 0 <= p -> zdrop p (g3_starts g) = xs -> exists l err, pages3 e F g p xs l err.
Proof.
  induction xs as [|x xs IH]; intros p Hp Ed; [exists [], false; apply q3_end|]. destruct (zget_drop _ _ _ _ Hp Ed) as (Ex & Ed'). destruct (start3 _ _ Ex) as (H1 & H2 & H3 & H4). unfold u16_ok in H2.
  destruct (IH (p + 1) ltac:(lia) Ed') as (l2 & err & P). destruct (Z.eq_dec x 65535) as [->|Nx]; [exists l2, err; apply q3_none; exact P|].
  destruct (chain3_total (Z.to_nat (zlen F + 1)) (p * g3_page_size g + x) ltac:(lia)) as (l & [|] & C); [pose proof (zlen_nonneg F); lia|exists l, true; eapply q3_stop; eassumption|]. exists (l ++ l2), err. eapply q3_more; eassumption.
Qed.
Lemma relocs3_total : exists l err s, pages3 e F g 0 (g3_starts g) l err /\ runs next it3_new l err s /\ ended3 err s.
Proof.
  destruct (pages3_total (g3_starts g) 0 ltac:(lia) eq_refl) as (l & err & P). destruct (pages3_run 0 _ l err P it3_new eq_refl ltac:(split; cbn; lia) eq_refl eq_refl) as (s & R & En). exists l, err, s. auto.
Qed.
Lemma relocs3_iff l err : (exists s, runs next it3_new l err s) <-> pages3 e F g 0 (g3_starts g) l err.
Proof.
  split.
  - intros (s & R). destruct relocs3_total as (l' & err' & s' & P & R' & _). destruct (runs_det next _ _ _ _ R _ _ _ R') as (-> & -> & _). exact P.
  - intro P. destruct (pages3_run 0 _ l err P it3_new eq_refl ltac:(split; cbn; lia) eq_refl eq_refl) as (s & R & _). exists s. exact R.
Qed.
End R3.
