(** Chained fixups: pages, imports and segments. *)
From Verif Require Import Core_proofs Util_proofs File_proofs Iter_proofs Rel_proofs.
From Verif Require ElfR_proofs.
From Verif Require Import Fix_spec Fix_proofs.

Lemma start_bit x : u16_ok x -> Z.land x 32767 = x mod 2 ^ 15 /\ (Z.land x 32768 =? 0) = (x <? 2 ^ 15).
Proof.
  intros H. unfold u16_ok in H. split; [change 32767 with (Z.ones 15); apply Z.land_ones; lia|].
  change 32768 with (2 ^ 15 * 1). 
  assert (E : Z.land x (2 ^ 15 * 1) = Z.land (Z.shiftr x 15) 1 * 2 ^ 15).
  { rewrite (Z.mul_comm (2 ^ 15)), <- !Z.shiftl_mul_pow2 by lia. apply Z.bits_inj'. intros n Hn. rewrite Z.land_spec. destruct (Z_lt_dec n 15).
    - rewrite !Z.shiftl_spec_low by lia. apply andb_false_r.
    - rewrite !Z.shiftl_spec by lia. rewrite Z.land_spec, Z.shiftr_spec by lia. replace (n - 15 + 15) with n by lia. reflexivity. }
  rewrite E, Z.shiftr_div_pow2 by lia. change 1 with (Z.ones 1) at 1. rewrite Z.land_ones by lia. change (2 ^ 1) with 2.
  destruct (Z.ltb_spec x (2 ^ 15)); [destruct (Z.eqb_spec (x / 2 ^ 15 mod 2 * 2 ^ 15) 0)|destruct (Z.eqb_spec (x / 2 ^ 15 mod 2 * 2 ^ 15) 0)]; try reflexivity; exfalso; change (2 ^ 15) with 32768 in *; change (2 ^ 16) with 65536 in *; Z.to_euclidean_division_equations; lia.
Qed.
Section Pages.
Context (e : endian) (g : cseg) (vm : Z) (D : bytes) (HD : bytes_ok D) (HL : zlen D < 2 ^ 63) (Hg : cseg_ok g) (Hst : zlen (cs_starts g) < 2 ^ 63).
Notation next := (fx_next e g vm D).
Notation gives := (gives e g vm D).
Notation ended := (ended e g vm D).
Lemma start_u16 i x : zget (cs_starts g) i = Some x -> u16_ok x.
Proof. intro E. destruct Hg as (_ & _ & _ & _ & _ & _ & F). rewrite Forall_forall in F. apply F. eapply zget_In. exact E. Qed.
Lemma runs_same {S A} (nx : S -> out (option A) * S) a b l er st : nx a = nx b -> runs nx b l er st -> runs nx a l er st.
Proof. intros E R. destruct R as [? ? H|? ? H|? ? ? ? ? ? H R]; [apply runs_done|apply runs_err|eapply runs_more; [|exact R]]; congruence. Qed.
(** a chain, in a list of chains or the only one in its page *)
Definition chst (s : fxit) (c o : Z) : fxit := {| fx_state := FxStart; fx_page := fx_page s; fx_chain := c; fx_page_offset := fx_page_offset s; fx_offset := o |}.
Lemma chain_step s x : fx_state s = FxChain -> 0 <= fx_page s -> 0 <= fx_page_offset s < 2 ^ 63 -> 0 <= fx_chain s -> zget (cs_starts g) (fx_chain s) = Some x ->
  next s = next {| fx_state := if x <? 2 ^ 15 then FxPageChain else FxPage; fx_page := fx_page s; fx_chain := fx_chain s + 1; fx_page_offset := fx_page_offset s; fx_offset := fx_page_offset s + x mod 2 ^ 15 |}.
Proof.
  intros Es Hp Ho Hc Ex. pose proof (start_u16 _ _ Ex) as Ux. destruct (start_bit x Ux) as (B1 & B2). apply next_step; [exact Hp|exact Hp|]. intro f. cbn [fx_loop]. rewrite Es, Ex, B1, B2.
  apply zget_Some_lt in Ex. assert (M : 0 <= x mod 2 ^ 15 < 2 ^ 15) by (apply Z.mod_pos_bound; lia).
  unfold padd. destruct (Z.ltb_spec (fx_chain s + 1) (2 ^ 64)); [|lia]. cbn [bind]. destruct (Z.ltb_spec (fx_page_offset s + x mod 2 ^ 15) (2 ^ 64)); [|lia]. cbn [bind]. destruct (x <? 2 ^ 15); reflexivity.
Qed.
Lemma chains_gives po i l err : chains e g vm D po i l err -> forall s, fx_state s = FxChain -> 0 <= fx_page s -> fx_page_offset s = po -> 0 <= po < 2 ^ 63 -> 0 <= i -> fx_chain s = i ->
  if err then exists s', runs next s l true s' /\ ended s' else exists c o, forall l2 e2 s2, runs next (chst s c o) l2 e2 s2 -> runs next s (l ++ l2) e2 s2.
Proof.
  intro C. induction C as [i x l err Ex Hx C|i x l1 l2 err Ex Hx C1 C2 IH|i x l Ex Hx C|i Ex]; intros s Es Hp Epo Hpo Hi Ei; subst po i.
  - pose proof (start_u16 _ _ Ex) as Ux. pose proof (chain_step s x Es Hp Hpo Hi Ex) as N. destruct (Z.ltb_spec x (2 ^ 15)); [lia|]. unfold u16_ok in Ux. assert (M : x mod 2 ^ 15 = x - 0x8000) by (Z.to_euclidean_division_equations; lia). rewrite M in N.
    match type of N with _ = next ?s1 => pose proof (chain_gives e g vm D HD HL Hg _ l err C s1 (or_introl eq_refl) Hp ltac:(lia) eq_refl) as Gv end. unfold Fix_proofs.gives in Gv. destruct err.
    + destruct Gv as (s' & R & En). exists s'. split; [eapply runs_same; [exact N|exact R]|exact En].
    + destruct Gv as (o & Gv). exists (fx_chain s + 1), o. intros l2 e2 s2 R. eapply runs_same; [exact N|]. apply Gv. exact R.
  - pose proof (start_u16 _ _ Ex) as Ux. pose proof (chain_step s x Es Hp Hpo Hi Ex) as N. destruct (Z.ltb_spec x (2 ^ 15)); [|lia]. unfold u16_ok in Ux. rewrite (Z.mod_small x) in N by lia.
    match type of N with _ = next ?s1 => pose proof (chain_gives e g vm D HD HL Hg _ l1 false C1 s1 (or_intror eq_refl) Hp ltac:(lia) eq_refl) as Gv end. destruct Gv as (o & Gv). cbn [after fx_state] in Gv.
    match type of Gv with context [upd ?s1 FxChain o] => specialize (IH (upd s1 FxChain o) eq_refl Hp eq_refl Hpo ltac:(lia) eq_refl) end. destruct err.
    + destruct IH as (s' & R & En). exists s'. split; [|exact En]. eapply runs_same; [exact N|]. apply Gv. exact R.
    + destruct IH as (c & o' & IH). exists c, o'. intros l3 e3 s3 R. rewrite <- app_assoc. eapply runs_same; [exact N|]. apply Gv. apply IH. exact R.
  - pose proof (start_u16 _ _ Ex) as Ux. pose proof (chain_step s x Es Hp Hpo Hi Ex) as N. destruct (Z.ltb_spec x (2 ^ 15)); [|lia]. unfold u16_ok in Ux. rewrite (Z.mod_small x) in N by lia.
    match type of N with _ = next ?s1 => pose proof (chain_gives e g vm D HD HL Hg _ l true C s1 (or_intror eq_refl) Hp ltac:(lia) eq_refl) as Gv end.
    destruct Gv as (s' & R & En). exists s'. split; [eapply runs_same; [exact N|exact R]|exact En].
  - eexists. split; [apply runs_err|apply (ended_err e g vm D Hg s)]. rewrite (next_eq e g vm D s 2 Hp) by (unfold need; rewrite Es; lia). cbn [fx_loop]. rewrite Es, Ex. reflexivity.
Qed.
Lemma page_bound p : 0 <= p < cs_page_count g -> 0 <= p * cs_page_size g < 2 ^ 32.
Proof. intro H. destruct Hg as (_ & H1 & _ & _ & _ & H2 & _). unfold u16_ok in *. change (2 ^ 16) with 65536 in *. change (2 ^ 32) with 4294967296. nia. Qed.
Definition at_page (s : fxit) (p : Z) : Prop := fx_state s = FxStart /\ fx_page s = p.
Definition pstart (p c o po : Z) (st : fstate) : fxit := {| fx_state := st; fx_page := p; fx_chain := c; fx_page_offset := po; fx_offset := o |}.
Lemma page_step s x : fx_state s = FxStart -> 0 <= fx_page s < cs_page_count g -> zget (cs_starts g) (fx_page s) = Some x -> 
  next s = next (let p := fx_page s in let po := p * cs_page_size g in
                 if x =? 0xffff then pstart (p + 1) (fx_chain s) (fx_offset s) po FxStart
                 else if x <? 2 ^ 15 then pstart (p + 1) (fx_chain s) (po + x) po FxPage else pstart (p + 1) (x mod 2 ^ 15) (fx_offset s) po FxChain).
Proof.
  intros Es Hp Ex. pose proof (start_u16 _ _ Ex) as Ux. destruct (start_bit x Ux) as (B1 & B2). unfold u16_ok in Ux. pose proof (page_bound _ Hp) as B. assert (Hc : cs_page_count g < 2 ^ 16) by apply Hg. cbv zeta.
  apply next_step; [lia|destruct (x =? 65535); [|destruct (x <? 2 ^ 15)]; cbn; lia|]. intro f. cbn [fx_loop]. rewrite Es. destruct (Z.leb_spec (cs_page_count g) (fx_page s)); [lia|]. rewrite Ex.
  unfold padd, pmul. destruct (Z.ltb_spec (fx_page s * cs_page_size g) (2 ^ 64)); [|lia]. cbn [bind]. destruct (Z.ltb_spec (fx_page s + 1) (2 ^ 64)); [|lia]. cbn [bind]. destruct (x =? 65535); [reflexivity|]. rewrite B2, B1. destruct (Z.ltb_spec x (2 ^ 15)); cbn [negb]; [|reflexivity].
  destruct (Z.ltb_spec (fx_page s * cs_page_size g + x) (2 ^ 64)); [reflexivity|lia].
Qed.
Lemma page_gives p l err : page e g vm D p l err -> forall s, at_page s p -> 0 <= p < cs_page_count g ->
  if err then exists s', runs next s l true s' /\ ended s' else exists s1, at_page s1 (p + 1) /\ forall l2 e2 s2, runs next s1 l2 e2 s2 -> runs next s (l ++ l2) e2 s2.
Proof.
  intros P s (Es & Ep) Hp. subst p. pose proof (page_bound _ Hp) as B. destruct P as [Ex|x l err Ex Hx C|x l err Ex Hx C|Ex].
  - pose proof (page_step s _ Es Hp Ex) as N. cbv zeta in N. cbn [Z.eqb Pos.eqb] in N. eexists. split; [|intros l2 e2 s2 R; eapply runs_same; [exact N|exact R]]. split; reflexivity.
  - pose proof (start_u16 _ _ Ex) as Ux. unfold u16_ok in Ux. pose proof (page_step s _ Es Hp Ex) as N. cbv zeta in N. destruct (Z.eqb_spec x 65535); [lia|]. destruct (Z.ltb_spec x (2 ^ 15)); [|lia].
    match type of N with _ = next ?s1 => pose proof (chain_gives e g vm D HD HL Hg _ l err C s1 (or_introl eq_refl) ltac:(cbn; lia) ltac:(lia) eq_refl) as Gv end. unfold Fix_proofs.gives in Gv. destruct err.
    + destruct Gv as (s' & R & En). exists s'. split; [eapply runs_same; [exact N|exact R]|exact En].
    + destruct Gv as (o & Gv). eexists. split; [|intros l2 e2 s2 R; eapply runs_same; [exact N|]; apply Gv; exact R]. split; reflexivity.
  - pose proof (page_step s _ Es Hp Ex) as N. cbv zeta in N. destruct (Z.eqb_spec x 65535); [lia|]. destruct (Z.ltb_spec x (2 ^ 15)); [lia|]. assert (M : x mod 2 ^ 15 = x - 0x8000) by (Z.to_euclidean_division_equations; lia). rewrite M in N.
    match type of N with _ = next ?s1 => pose proof (chains_gives _ _ l err C s1 eq_refl ltac:(cbn; lia) eq_refl ltac:(lia) ltac:(lia) eq_refl) as Gv end. destruct err.
    + destruct Gv as (s' & R & En). exists s'. split; [eapply runs_same; [exact N|exact R]|exact En].
    + destruct Gv as (c & o & Gv). eexists. split; [|intros l2 e2 s2 R; eapply runs_same; [exact N|]; apply Gv; exact R]. split; reflexivity.
  - eexists. split; [apply runs_err|apply (ended_err e g vm D Hg s)]. rewrite (next_eq e g vm D s (S (need g s))) by lia. cbn [fx_loop]. rewrite Es, Ex. destruct (Z.leb_spec (cs_page_count g) (fx_page s)); [lia|reflexivity].
Qed.
Lemma pages_run p l err : pages e g vm D p l err -> forall s, 0 <= p -> at_page s p -> exists s', runs next s l err s' /\ ended s'.
Proof.
  intro P. induction P as [p Hp|p l1 l2 err Hp P1 P IH|p l Hp P1]; intros s H0 A.
  - destruct A as (A1 & A2). assert (E : ended s) by (apply ended_page; [exact Hg|exact A1|lia]). exists s. split; [apply runs_done; exact E|exact E].
  - destruct (page_gives p l1 false P1 s A ltac:(lia)) as (s1 & A1 & Gv). destruct (IH s1 ltac:(lia) A1) as (s' & R & En). exists s'. split; [apply Gv; exact R|exact En].
  - exact (page_gives p l true P1 s A ltac:(lia)).
Qed.
(** every segment has fixups or an error *)
Lemma chain_total n : forall off, 0 <= off -> zlen D - off < Z.of_nat n -> exists l err, chain e g vm D off l err.
Proof.
  induction n as [|n IH]; intros off Ho Hn.
  - exists [], true. apply ch_bad. intros d fx (b & H & L & _). apply holds_bounds in H. pose proof (zlen_nonneg b). lia.
  - destruct (ptr_cases e g vm D HD HL off Ho) as [(d & fx & P & Hd & _)|N]; [|exists [], true; apply ch_bad; exact N].
    destruct (Z.eq_dec d 0) as [->|Nz]; [exists [(off, fx)], false; apply ch_last; exact P|].
    destruct (IH (off + d) ltac:(lia) ltac:(lia)) as (l & err & C). exists ((off, fx) :: l), err. eapply ch_next; eassumption.
Qed.
Lemma chain_any off : 0 <= off -> exists l err, chain e g vm D off l err.
Proof. intro Ho. apply (chain_total (Z.to_nat (zlen D + 1))); [exact Ho|]. pose proof (zlen_nonneg D). lia. Qed.
Lemma chains_total po n : 0 <= po -> forall i, 0 <= i -> zlen (cs_starts g) - i < Z.of_nat n -> exists l err, chains e g vm D po i l err.
Proof.
  intros Hpo. induction n as [|n IH]; intros i Hi Hn; (destruct (zget (cs_starts g) i) as [x|] eqn:Ex; [|exists [], true; apply cs_bad; exact Ex]).
  - apply zget_Some_lt in Ex. lia.
  - pose proof (start_u16 _ _ Ex) as Ux. unfold u16_ok in Ux. destruct (Z_lt_dec x 0x8000) as [Hlt|Hlt].
    + destruct (chain_any (po + x) ltac:(lia)) as (l & err & C). destruct err; [exists l, true; eapply cs_stop; eassumption|]. destruct (IH (i + 1) ltac:(lia) ltac:(lia)) as (l2 & err & C2). exists (l ++ l2), err. eapply cs_more; eassumption.
    + destruct (chain_any (po + (x - 0x8000)) ltac:(lia)) as (l & err & C). exists l, err. eapply cs_last; [exact Ex|lia|exact C].
Qed.
Lemma page_total p : 0 <= p < cs_page_count g -> exists l err, page e g vm D p l err.
Proof.
  intro Hp. pose proof (page_bound p Hp). destruct (zget (cs_starts g) p) as [x|] eqn:Ex; [|exists [], true; apply pg_bad; exact Ex].
  pose proof (start_u16 _ _ Ex) as Ux. unfold u16_ok in Ux. destruct (Z_lt_dec x 0x8000) as [Hlt|Hlt].
  - destruct (chain_any (p * cs_page_size g + x) ltac:(lia)) as (l & err & C). exists l, err. eapply pg_one; eassumption.
  - destruct (Z.eq_dec x 0xffff) as [->|N]; [exists [], false; apply pg_none; exact Ex|].
    destruct (chains_total (p * cs_page_size g) (Z.to_nat (zlen (cs_starts g) + 1)) ltac:(lia) (x - 0x8000) ltac:(lia)) as (l & err & C); [pose proof (zlen_nonneg (cs_starts g)); lia|]. exists l, err. eapply pg_multi; [exact Ex|lia|exact C].
Qed.
Lemma pages_total n : forall p, 0 <= p -> cs_page_count g - p < Z.of_nat n -> exists l err, pages e g vm D p l err.
Proof.
  induction n as [|n IH]; intros p Hp Hn; (destruct (Z_lt_dec p (cs_page_count g)) as [Hlt|Hlt]; [|exists [], false; apply ps_end; lia]); [lia|].
  destruct (page_total p ltac:(lia)) as (l & err & P). destruct err; [exists l, true; apply ps_stop; assumption|]. destruct (IH (p + 1) ltac:(lia) ltac:(lia)) as (l2 & err & P2). exists (l ++ l2), err. eapply ps_more; eassumption.
Qed.
Lemma fixups_total : exists l err s, pages e g vm D 0 l err /\ runs next fx_new l err s /\ ended s.
Proof.
  assert (H : 0 <= cs_page_count g < 2 ^ 16) by apply Hg. destruct (pages_total (Z.to_nat (cs_page_count g + 1)) 0 ltac:(lia) ltac:(lia)) as (l & err & P).
  destruct (pages_run 0 l err P fx_new ltac:(lia)) as (s & R & En); [split; reflexivity|]. exists l, err, s. auto.
Qed.
Lemma fixups_iff l err : (exists s, runs next fx_new l err s) <-> pages e g vm D 0 l err.
Proof.
  split.
  - intros (s & R). destruct fixups_total as (l' & err' & s' & P & R' & _). destruct (runs_det next _ _ _ _ R _ _ _ R') as (-> & -> & _). exact P.
  - intro P. destruct (pages_run 0 l err P fx_new ltac:(lia)) as (s & R & _); [split; reflexivity|]. exists s. exact R.
Qed.
End Pages.
