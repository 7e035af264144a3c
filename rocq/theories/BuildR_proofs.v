(** Proofs about [recalculate_ranges] and the address/offset queries of a segment (src/build/elf.rs). *)
From Verif Require Import Core_proofs Str_proofs Tab_proofs Build_proofs BuildD_proofs BuildL_proofs.
From Verif Require Import Build_spec.

Lemma file_size_bound s : 0 <= s_size s -> 0 <= file_size s <= s_size s.
Proof. unfold file_size. destruct (Z.eqb_spec (s_type s) SHT_NOBITS); lia. Qed.
Definition range_step (g : bseg) (s : bsec) : bseg :=
  if g_memsz g =? 0 then seg_ranged g (s_offset s) (s_addr s) (s_addr s) (file_size s) (s_size s)
  else seg_ranged g (Z.min (s_offset s) (g_offset g)) (Z.min (s_addr s) (g_vaddr g))
         (if s_addr s <? g_vaddr g then s_addr s else g_paddr g)
         (Z.max (g_filesz g) (s_offset s + file_size s - Z.min (s_offset s) (g_offset g)))
         (Z.max (g_memsz g) (s_addr s + s_size s - Z.min (s_addr s) (g_vaddr g))).
Lemma append_range_eq g s : sec_fits s -> append_section_range g s = Ok (range_step g s).
Proof.
  intros (A & B & C & D & E). pose proof (file_size_bound s C) as F. unfold append_section_range, range_step.
  fold (file_size s). destruct (Z.eqb_spec (g_memsz g) 0); [reflexivity|].
  unfold padd, psub. destruct (Z.ltb_spec (s_offset s + file_size s) (2 ^ 64)); [|lia]. cbn [bind].
  assert ((if s_offset s <? g_offset g then s_offset s else g_offset g) = Z.min (s_offset s) (g_offset g)) as ->
    by (destruct (Z.ltb_spec (s_offset s) (g_offset g)); lia).
  destruct (Z.leb_spec (Z.min (s_offset s) (g_offset g)) (s_offset s + file_size s)); [|lia]. cbn [bind].
  destruct (Z.ltb_spec (s_addr s) (g_vaddr g)).
  - destruct (Z.ltb_spec (s_addr s + s_size s) (2 ^ 64)); [|lia]. cbn [bind].
    destruct (Z.leb_spec (s_addr s) (s_addr s + s_size s)); [|lia]. cbn [bind]. do 2 f_equal.
    + lia.
    + destruct (Z.ltb_spec (g_filesz g) (s_offset s + file_size s - Z.min (s_offset s) (g_offset g))); lia.
    + destruct (Z.ltb_spec (g_memsz g) (s_addr s + s_size s - s_addr s)); lia.
  - destruct (Z.ltb_spec (s_addr s + s_size s) (2 ^ 64)); [|lia]. cbn [bind].
    destruct (Z.leb_spec (g_vaddr g) (s_addr s + s_size s)); [|lia]. cbn [bind]. do 2 f_equal.
    + lia.
    + destruct (Z.ltb_spec (g_filesz g) (s_offset s + file_size s - Z.min (s_offset s) (g_offset g))); lia.
    + destruct (Z.ltb_spec (g_memsz g) (s_addr s + s_size s - g_vaddr g)); lia.
Qed.
Lemma append_ranges_eq secs : forall ids ss g, Forall2 (fun id s => zget secs id = Some s) ids ss -> Forall sec_fits ss ->
  append_ranges g secs ids = Ok (fold_left range_step ss g).
Proof.
  intros ids ss g H. revert g. induction H as [|id s ids ss A H IH]; intros g F; [reflexivity|]. inversion F as [|? ? F1 F2]; subst.
  cbn [append_ranges fold_left]. unfold tab_get. rewrite A. cbn [unwrap bind]. rewrite append_range_eq by exact F1. cbn [bind]. apply IH, F2.
Qed.
Lemma range_step_same g s : same_but_ranges g (range_step g s).
Proof. unfold same_but_ranges, range_step. destruct (g_memsz g =? 0); cbn; tauto. Qed.
Lemma fold_same ss : forall g, same_but_ranges g (fold_left range_step ss g).
Proof.
  induction ss as [|s ss IH]; intros g; cbn; [unfold same_but_ranges; tauto|]. specialize (IH (range_step g s)).
  pose proof (range_step_same g s) as W. unfold same_but_ranges in *. intuition congruence.
Qed.
(** sections in order: the ranges never start later than they did, and grow *)
Lemma fold_started : forall ss g, g_memsz g > 0 -> 0 <= g_filesz g -> g_paddr g = g_vaddr g -> Forall sec_fits ss ->
  Forall (fun s => g_offset g <= s_offset s /\ g_vaddr g <= s_addr s) ss ->
  let g' := fold_left range_step ss g in
  g_offset g' = g_offset g /\ g_vaddr g' = g_vaddr g /\ g_paddr g' = g_vaddr g' /\ g_filesz g <= g_filesz g' /\ g_memsz g <= g_memsz g' /\
  Forall (covers g') ss /\
  (g_filesz g' = g_filesz g \/ exists s, In s ss /\ s_offset s + file_size s = g_offset g' + g_filesz g') /\
  (g_memsz g' = g_memsz g \/ exists s, In s ss /\ s_addr s + s_size s = g_vaddr g' + g_memsz g').
Proof.
  induction ss as [|s ss IH]; intros g M Fz Pa F O; cbn [fold_left].
  - cbv zeta. split; [reflexivity|]. split; [reflexivity|]. split; [exact Pa|]. split; [lia|]. split; [lia|]. split; [constructor|]. tauto.
  - inversion F as [|? ? F1 F2]; subst. inversion O as [|? ? [O1 O2] O3]; subst.
    assert (range_step g s = seg_ranged g (g_offset g) (g_vaddr g) (g_paddr g)
       (Z.max (g_filesz g) (s_offset s + file_size s - g_offset g)) (Z.max (g_memsz g) (s_addr s + s_size s - g_vaddr g))) as ->.
    { unfold range_step. destruct (Z.eqb_spec (g_memsz g) 0); [lia|]. rewrite !Z.min_r by lia. destruct (Z.ltb_spec (s_addr s) (g_vaddr g)); [lia|reflexivity]. }
    set (g1 := seg_ranged _ _ _ _ _ _). specialize (IH g1). 
    destruct IH as (A & B & C & D & E & G1 & H1 & H2); [cbn; lia|cbn; lia|exact Pa|exact F2|exact O3|].
    cbn [g_offset g_vaddr g_filesz g_memsz g1 seg_ranged] in A, B, D, E, H1, H2. cbv zeta. set (g' := fold_left range_step ss g1) in *. clearbody g'.
    split; [exact A|]. split; [exact B|]. split; [exact C|]. split; [lia|]. split; [lia|]. split; [|split].
    + constructor; [unfold covers; lia|exact G1].
    + destruct H1 as [H1|(x & P & Q)]; [|right; exists x; cbn; tauto].
      destruct (Z.max_spec (g_filesz g) (s_offset s + file_size s - g_offset g)) as [[W1 W2]|[W1 W2]]; [right; exists s; cbn; split; [tauto|lia]|left; lia].
    + destruct H2 as [H2|(x & P & Q)]; [|right; exists x; cbn; tauto].
      destruct (Z.max_spec (g_memsz g) (s_addr s + s_size s - g_vaddr g)) as [[W1 W2]|[W1 W2]]; [right; exists s; cbn; split; [tauto|lia]|left; lia].
Qed.
Lemma fold_ranges : forall ss g, g_memsz g = 0 -> Forall sec_fits ss -> StronglySorted in_order ss ->
  let g' := fold_left range_step ss g in
  Forall (fun s => 0 < s_size s -> covers g' s) ss /\
  (ss <> [] -> g_paddr g' = g_vaddr g' /\ tight g' ss).
Proof.
  induction ss as [|s ss IH]; intros g M F O; cbn [fold_left]; cbv zeta; [split; [constructor|congruence]|].
  inversion F as [|? ? F1 F2]; subst. inversion O as [|? ? O1 O2]; subst. destruct F1 as (A & B & C & D & E).
  pose proof (file_size_bound s C) as Fs.
  assert (range_step g s = seg_ranged g (s_offset s) (s_addr s) (s_addr s) (file_size s) (s_size s)) as -> by (unfold range_step; rewrite M; reflexivity).
  set (g1 := seg_ranged _ _ _ _ _ _).
  destruct (Z.eq_dec (s_size s) 0) as [Z0|Z0].
  - destruct (IH g1 Z0 F2 O1) as [P Q]. split; [constructor; [lia|exact P]|]. intros _.
    destruct ss as [|t ss].
    + cbn [fold_left]. unfold tight. cbn. split; [reflexivity|]. split; [exists s; tauto|]. split; exists s; tauto.
    + destruct (Q ltac:(discriminate)) as [Q1 ((x & X1 & X2) & (y & Y1 & Y2) & (z & Z1 & Z2))].
      split; [exact Q1|]. split; [exists x; cbn in *; tauto|]. split; [exists y; cbn in *; tauto|exists z; cbn in *; tauto].
  - destruct (fold_started ss g1) as (P1 & P2 & P3 & P4 & P5 & P6 & P7 & P8); [cbn; lia|cbn; lia|reflexivity|exact F2|exact O2|].
    cbn [g_offset g_vaddr g_filesz g_memsz g1 seg_ranged] in P1, P2, P4, P5, P7, P8. set (g' := fold_left range_step ss g1) in *. clearbody g'.
    split.
    + constructor; [intros _; unfold covers; lia|]. eapply Forall_impl; [|exact P6]. auto.
    + intros _. split; [exact P3|]. split; [exists s; cbn; split; [tauto|lia]|]. split.
      * destruct P7 as [P7|(x & X1 & X2)]; [exists s; cbn; split; [tauto|lia]|exists x; cbn; tauto].
      * destruct P8 as [P8|(x & X1 & X2)]; [exists s; cbn; split; [tauto|lia]|exists x; cbn; tauto].
Qed.
Lemma recalculate_ok g secs ss : Forall2 (fun id s => zget secs id = Some s) (g_secs g) ss -> Forall sec_fits ss ->
  exists g', recalculate_ranges g secs = Ok g' /\ same_but_ranges g g' /\
    (StronglySorted in_order ss ->
       Forall (fun s => 0 < s_size s -> covers g' s) ss /\ (ss <> [] -> g_paddr g' = g_vaddr g' /\ tight g' ss)).
Proof.
  intros H F. unfold recalculate_ranges. rewrite (append_ranges_eq secs (g_secs g) ss) by assumption. cbn [bind].
  set (g0 := seg_with (seg_ranged g 0 0 0 0 0) (g_del g) []). pose proof (fold_same ss g0) as W.
  eexists. split; [reflexivity|]. split; [unfold same_but_ranges in *; cbn in *; intuition congruence|].
  intros O. pose proof (fold_ranges ss g0 eq_refl F O) as [P Q]. split; [exact P|exact Q].
Qed.
