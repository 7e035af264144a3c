(** Evaluation of rebase streams: proofs. *)
From Verif Require Import Core_proofs Util_proofs Iter_proofs Trie_proofs Rel_proofs.
From Verif Require Import Dyld_spec Dyld_proofs.

Lemma runs_same {S A} (next : S -> out (option A) * S) a b l e st : next a = next b -> runs next b l e st -> runs next a l e st.
Proof. intros E R. destruct R as [? ? H|? ? H|? ? ? ? ? ? H R]; [apply runs_done|apply runs_err|eapply runs_more; [|exact R]]; congruence. Qed.
Definition rop_ok (op : rop) : Prop :=
  match op with
  | RSetSegment _ o => 0 <= o < 2 ^ 64 | RTimes n => 0 <= n | RSkipping n _ => 0 <= n | RAddScaled n => 0 <= n < 16 | _ => True
  end.
Lemma uleb_range x v : uleb_bytes x v -> 0 <= v < 2 ^ 64.
Proof. intros (D & _ & H). split; [exact (uleb_denotes_nonneg _ _ D)|exact H]. Qed.
Lemma rop_enc_fit c op b : rop_enc (c, op) b -> rop_ok op /\ b <> [].
Proof.
  intro E. remember (c, op) as x. destruct E; injection Heqx as <- <-; (split; [|discriminate]); unfold imm in *; cbn [rop_ok]; try exact I; try lia;
  match goal with H : uleb_bytes _ ?v |- _ <= ?v => apply uleb_range in H; lia | H : uleb_bytes _ ?v |- _ <= ?v < _ => apply uleb_range in H; lia end.
Qed.
Lemma rop_step d c op d' : bytes_ok d -> rop_next d = (Ok (Some (c, op)), d') -> bytes_ok d' /\ (length d' < length d)%nat /\ rop_ok op.
Proof.
  intros K E. unfold rop_next, seq_next in E. destruct d as [|z d]; [discriminate|]. destruct (rop_parse (z :: d)) as [[x| |] r] eqn:P; try discriminate. injection E as -> ->.
  destruct (rop_inv _ _ _ K P) as (b & Eb & E). destruct (rop_enc_fit _ _ _ Eb) as (H & N). rewrite E in K. apply bytes_ok_app in K. split; [apply K|]. split; [|exact H].
  rewrite E, app_length. destruct b; [congruence|cbn [length]; lia].
Qed.

Section R.
Context (ptr : Z).
Lemma ri_fuel f1 : forall f2 it, bytes_ok (ri_ops it) -> (length (ri_ops it) < f1)%nat -> (length (ri_ops it) < f2)%nat -> ri_loop ptr f1 it = ri_loop ptr f2 it.
Proof.
  induction f1 as [|f1 IH]; intros [|f2] it K H1 H2; try lia. cbn [ri_loop]. destruct (rop_next (ri_ops it)) as [[[[c op]|]| |] d] eqn:E; try reflexivity.
  destruct (rop_step _ _ _ _ K E) as (K' & L & _). destruct op; try reflexivity; try (apply IH; cbn [ri_ops ri_with_ops ri_with_offset]; assumption || lia).
  - destruct (pmul 64 count ptr); try reflexivity. apply IH; cbn [ri_ops ri_with_ops ri_with_offset]; assumption || lia.
  - destruct (count =? 0); [|reflexivity]. apply IH; cbn [ri_ops ri_with_ops ri_with_offset]; assumption || lia.
  - destruct (count =? 0); [|reflexivity]. apply IH; cbn [ri_ops ri_with_ops ri_with_offset]; assumption || lia.
Qed.
Definition fix_err (r : out (option rebase) * rbit) : out (option rebase) * rbit :=
  match r with (Err, it) => (Err, ri_with_count (ri_with_ops it []) 0 (ri_advance it)) | r => r end.
Lemma rn_loop it : ri_remaining it = 0 -> rbit_next ptr it = fix_err (ri_loop ptr (S (length (ri_ops it))) it).
Proof. intro E. unfold rbit_next. rewrite E. reflexivity. Qed.
Lemma rn_emits it : ri_remaining it <> 0 -> rbit_next ptr it = fix_err (ri_emit it).
Proof. intro E. unfold rbit_next. destruct (Z.eqb_spec (ri_remaining it) 0); [contradiction|]. reflexivity. Qed.
Lemma rn_step it it' : ri_remaining it = 0 -> ri_remaining it' = 0 -> ri_loop ptr (S (length (ri_ops it))) it = ri_loop ptr (length (ri_ops it)) it' ->
  (length (ri_ops it') < length (ri_ops it))%nat -> bytes_ok (ri_ops it') -> rbit_next ptr it = rbit_next ptr it'.
Proof. intros E1 E2 L Hl K. rewrite !rn_loop by assumption. rewrite L. f_equal. apply ri_fuel; [exact K|lia|lia]. Qed.
Lemma rn_emit it it' : ri_remaining it = 0 -> ri_remaining it' <> 0 -> ri_loop ptr (S (length (ri_ops it))) it = ri_emit it' -> rbit_next ptr it = rbit_next ptr it'.
Proof. intros E1 E2 L. rewrite rn_loop, rn_emits by assumption. rewrite L. reflexivity. Qed.

Definition mk i k o : rebase := {| rb_segment := i; rb_offset := o; rb_kind := k |}.
Lemma emit_runs i k a l e st (m : nat) : forall it o, ri_set_segment it = true -> ri_set_type it = true -> ri_remaining it = Z.of_nat m -> ri_rebase it = mk i k (o mod 2 ^ 64) ->
  ri_advance it mod 2 ^ 64 = a mod 2 ^ 64 -> runs (rbit_next ptr) (ri_with_count (ri_with_offset it ((o + Z.of_nat m * a) mod 2 ^ 64)) 0 (ri_advance it)) l e st ->
  runs (rbit_next ptr) it (map (mk i k) (map (fun j => (o + Z.of_nat j * a) mod 2 ^ 64) (seq 0 m)) ++ l) e st.
Proof.
  induction m as [|m IH]; intros it o S1 S2 Hr Hb Ha R.
  - cbn [seq map app]. replace (ri_with_count _ 0 _) with it in R; [exact R|]. destruct it as [d n av s1 s2 [x y z]]. cbn in *. injection Hb as -> -> ->. subst n. unfold ri_with_count, ri_with_offset. cbn. do 2 f_equal. rewrite Z.add_0_r. reflexivity.
  - cbn [seq map app]. eapply runs_more.
    + rewrite rn_emits by lia. unfold ri_emit. rewrite S1, S2. cbn [negb]. unfold psub. cbn [ri_remaining ri_with_offset]. destruct (Z.leb_spec 1 (ri_remaining it)); [|lia]. cbn [fix_err]. rewrite Hb. cbn [rb_offset mk]. rewrite Z.add_0_r. reflexivity.
    + assert (Es : map (fun j => (o + Z.of_nat j * a) mod 2 ^ 64) (seq 1 m) = map (fun j => ((o + a) + Z.of_nat j * a) mod 2 ^ 64) (seq 0 m)) by (rewrite <- seq_shift, map_map; apply map_ext; intro j; f_equal; lia).
      rewrite Es.
      apply IH; cbn [ri_set_segment ri_set_type ri_with_count ri_with_offset ri_remaining ri_rebase ri_advance]; [exact S1|exact S2|lia| |exact Ha|].
      * rewrite Hb. unfold mk. cbn [rb_segment rb_offset rb_kind]. f_equal. unfold wrap_u. rewrite Zplus_mod, Ha, Z.mod_mod, <- Zplus_mod by lia. reflexivity.
      * replace (o + Z.of_nat (S m) * a) with (o + a + Z.of_nat m * a) in R by lia. exact R.
Qed.
Definition inv (at_ : option (Z * Z)) (k : option Z) (it : rbit) : Prop :=
  ri_remaining it = 0 /\
  match at_ with Some (i, o) => ri_set_segment it = true /\ rb_segment (ri_rebase it) = i /\ rb_offset (ri_rebase it) = o /\ 0 <= o < 2 ^ 64 | None => ri_set_segment it = false end /\
  match k with Some k => ri_set_type it = true /\ rb_kind (ri_rebase it) = k | None => ri_set_type it = false end.
Definition moved (at_ : option (Z * Z)) (d : Z) := match at_ with Some (i, o) => Some (i, (o + d) mod 2 ^ 64) | None => None end.
Lemma inv_moved at_ k it d x : inv at_ k it -> x = (rb_offset (ri_rebase it) + d) mod 2 ^ 64 -> inv (moved at_ d) k (ri_with_offset it x).
Proof.
  intros (H1 & H2 & H3) ->. split; [exact H1|]. split; [|exact H3]. destruct at_ as [[i o]|]; [|exact H2]. destruct H2 as (A & B & C & D). unfold moved. cbn. split; [exact A|]. split; [exact B|]. split; [congruence|]. apply Z.mod_pos_bound. lia.
Qed.
Definition shows (it : rbit) (r : list rebase * bool) : Prop := exists st', runs (rbit_next ptr) it (fst r) (snd r) st' /\ (snd r = true -> rbit_next ptr st' = (Ok None, st')).
Lemma shows_same it it' r : rbit_next ptr it = rbit_next ptr it' -> shows it' r -> shows it r.
Proof. intros E (st & R & H). exists st. split; [eapply runs_same; eassumption|exact H]. Qed.
Lemma cleared it : rbit_next ptr (ri_with_count (ri_with_ops it []) 0 (ri_advance it)) = (Ok None, ri_with_count (ri_with_ops it []) 0 (ri_advance it)).
Proof. reflexivity. Qed.
Lemma shows_err it it' : rbit_next ptr it = fix_err (Err, it') -> shows it ([], true).
Proof. intro E. eexists. split; [apply runs_err; exact E|]. intros _. apply cleared. Qed.
(** [n] rebases, the rest by [IH] *)
Lemma shows_emit at_ k it n a adv (rest : option (Z * Z) -> list rebase * bool) : 0 < n -> inv at_ k it -> adv mod 2 ^ 64 = a mod 2 ^ 64 ->
  (forall it', ri_ops it' = ri_ops it -> inv (moved at_ (n * a)) k it' -> shows it' (rest (moved at_ (n * a)))) ->
  shows (ri_with_count it n adv)
    (match at_, k with
     | Some (i, o), Some k' => let '(l, e) := rest (moved at_ (n * a)) in (map (fun o => {| rb_segment := i; rb_offset := o; rb_kind := k' |}) (places n o a) ++ l, e)
     | _, _ => ([], true)
     end).
Proof.
  intros Hn I Ha IH. pose proof I as (H1 & H2 & H3). assert (N : ri_remaining (ri_with_count it n adv) <> 0) by (cbn; lia).
  destruct at_ as [[i o]|].
  2: { apply shows_err with (it' := ri_with_count it n adv). rewrite rn_emits by exact N. unfold ri_emit. cbn [ri_set_segment ri_with_count]. rewrite H2. reflexivity. }
  destruct H2 as (A & B & C & D). destruct k as [k|].
  2: { apply shows_err with (it' := ri_with_count it n adv). rewrite rn_emits by exact N. unfold ri_emit. cbn [ri_set_segment ri_set_type ri_with_count]. rewrite A, H3. reflexivity. }
  destruct H3 as (T & E). specialize (IH (ri_with_count (ri_with_offset (ri_with_count it n adv) ((o + n * a) mod 2 ^ 64)) 0 adv)). destruct IH as (st & R & Q); [reflexivity| |].
  { split; [reflexivity|]. cbn. split; [|split; [exact T|exact E]]. split; [exact A|]. split; [exact B|]. split; [reflexivity|]. apply Z.mod_pos_bound. lia. }
  destruct (rest (moved (Some (i, o)) (n * a))) as [l e]. cbn [fst snd] in *. exists st. split; [|exact Q]. unfold places.
  change (fun o0 => {| rb_segment := i; rb_offset := o0; rb_kind := k |}) with (mk i k). eapply emit_runs with (o := o); cbn [ri_set_segment ri_set_type ri_remaining ri_rebase ri_advance ri_with_count]; [exact A|exact T|lia| |exact Ha|].
  - destruct (ri_rebase it) as [x y z]. cbn in *. subst. unfold mk. rewrite Z.mod_small by lia. reflexivity.
  - rewrite Z2Nat.id by lia. exact R.
Qed.
Lemma rebases_run d ops e d' : 0 <= ptr < 256 -> runs rop_next d ops e d' -> forall it at_ k, bytes_ok d -> ri_ops it = d -> inv at_ k it -> shows it (rebases ptr at_ k (map snd ops) e).
Proof.
  intros Hp R. induction R as [d d' H|d d' H|d d1 d' [c op] ops e H R IH]; intros it at_ k K E I.
  - cbn [map rebases]. pose proof I as (I1 & _). eexists. split; [apply runs_done|discriminate]. rewrite rn_loop by exact I1. cbn [ri_loop]. rewrite E, H. reflexivity.
  - cbn [map rebases]. pose proof I as (I1 & _). apply shows_err with (it' := ri_with_ops it d'). rewrite rn_loop by exact I1. cbn [ri_loop]. rewrite E, H. reflexivity.
  - destruct (rop_step _ _ _ _ K H) as (K1 & L1 & Fo). pose proof I as (I1 & I2 & I3). cbn [map snd].
    assert (Iw : inv at_ k (ri_with_ops it d1)) by exact I.
    destruct op as [|kd|ix o|o|n|n|o|n sk]; cbn [rop_ok] in Fo; cbn [rebases]; change (match at_ with Some (i, o) => Some (i, (o + ?x) mod 2 ^ 64) | None => None end) with (moved at_ x).
    + eexists. split; [apply runs_done|discriminate]. rewrite rn_loop by exact I1. cbn [ri_loop]. rewrite E, H. reflexivity.
    + eapply shows_same; [|apply (IH {| ri_ops := d1; ri_remaining := ri_remaining it; ri_advance := ri_advance it; ri_set_segment := ri_set_segment it; ri_set_type := true; ri_rebase := {| rb_segment := rb_segment (ri_rebase it); rb_offset := rb_offset (ri_rebase it); rb_kind := kd |} |} at_ (Some kd) K1 eq_refl)].
      * apply rn_step; [exact I1| |cbn [ri_loop]; rewrite E, H; reflexivity|rewrite E; exact L1|exact K1]. exact I1.
      * split; [exact I1|]. split; [exact I2|split; reflexivity].
    + eapply shows_same; [|apply (IH {| ri_ops := d1; ri_remaining := ri_remaining it; ri_advance := ri_advance it; ri_set_segment := true; ri_set_type := ri_set_type it; ri_rebase := {| rb_segment := ix; rb_offset := o; rb_kind := rb_kind (ri_rebase it) |} |} (Some (ix, o)) k K1 eq_refl)].
      * apply rn_step; [exact I1| |cbn [ri_loop]; rewrite E, H; reflexivity|rewrite E; exact L1|exact K1]. exact I1.
      * split; [exact I1|]. split; [repeat split; lia|exact I3].
    + eapply shows_same; [|apply (IH (ri_with_offset (ri_with_ops it d1) (wrap_u 64 (rb_offset (ri_rebase it) + o))) (moved at_ o) k K1 eq_refl)].
      * apply rn_step; [exact I1|exact I1|cbn [ri_loop]; rewrite E, H; reflexivity|rewrite E; exact L1|exact K1].
      * apply inv_moved; [exact I|reflexivity].
    + assert (Em : pmul 64 n ptr = Ok (n * ptr)) by (unfold pmul; destruct (Z.ltb_spec (n * ptr) (2 ^ 64)); [reflexivity|nia]).
      eapply shows_same; [|apply (IH (ri_with_offset (ri_with_ops it d1) (wrap_u 64 (rb_offset (ri_rebase it) + n * ptr))) (moved at_ (n * ptr)) k K1 eq_refl)].
      * apply rn_step; [exact I1|exact I1|cbn [ri_loop]; rewrite E, H, Em; reflexivity|rewrite E; exact L1|exact K1].
      * apply inv_moved; [exact I|reflexivity].
    + destruct (Z.eqb_spec n 0) as [->|N0].
      * eapply shows_same; [|apply (IH (ri_with_ops it d1) at_ k K1 eq_refl Iw)]. apply rn_step; [exact I1|exact I1|cbn [ri_loop]; rewrite E, H; reflexivity|rewrite E; exact L1|exact K1].
      * eapply shows_same; [apply (rn_emit it (ri_with_count (ri_with_ops it d1) n ptr)); [exact I1|exact N0|cbn [ri_loop]; rewrite E, H; destruct (Z.eqb_spec n 0); [contradiction|reflexivity]]|].
        apply (shows_emit at_ k (ri_with_ops it d1) n ptr ptr (fun a => rebases ptr a k (map snd ops) e)); [lia|exact Iw|reflexivity|]. intros it' Ei Ii. apply (IH it' _ k K1 Ei Ii).
    + eapply shows_same; [apply (rn_emit it (ri_with_count (ri_with_ops it d1) 1 (wrap_u 64 (ptr + o)))); [exact I1|cbn; lia|cbn [ri_loop]; rewrite E, H; reflexivity]|].
      apply (shows_emit at_ k (ri_with_ops it d1) 1 (ptr + o) (wrap_u 64 (ptr + o)) (fun a => rebases ptr a k (map snd ops) e)); [lia|exact Iw|unfold wrap_u; apply Z.mod_mod; lia|]. intros it' Ei Ii. apply (IH it' _ k K1 Ei Ii).
    + destruct (Z.eqb_spec n 0) as [->|N0].
      * eapply shows_same; [|apply (IH (ri_with_ops it d1) at_ k K1 eq_refl Iw)]. apply rn_step; [exact I1|exact I1|cbn [ri_loop]; rewrite E, H; reflexivity|rewrite E; exact L1|exact K1].
      * eapply shows_same; [apply (rn_emit it (ri_with_count (ri_with_ops it d1) n (wrap_u 64 (ptr + sk)))); [exact I1|exact N0|cbn [ri_loop]; rewrite E, H; destruct (Z.eqb_spec n 0); [contradiction|reflexivity]]|].
        apply (shows_emit at_ k (ri_with_ops it d1) n (ptr + sk) (wrap_u 64 (ptr + sk)) (fun a => rebases ptr a k (map snd ops) e)); [lia|exact Iw|unfold wrap_u; apply Z.mod_mod; lia|]. intros it' Ei Ii. apply (IH it' _ k K1 Ei Ii).
Qed.
End R.
