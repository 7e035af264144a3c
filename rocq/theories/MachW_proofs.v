(** Proofs about the Mach-O writer: the loops. *)
From Coq Require Import Sorted.
From Verif Require Import Base Core_proofs Util_proofs Pod_proofs File_proofs Hash_proofs Rel_proofs Str_proofs Ar_proofs Kind_proofs Coff_spec CoffW_proofs CoffI_proofs.
From Verif Require Import MachW_spec.

(** * Layout of sections *)
Lemma padd_ok n a b c : padd n a b = Ok c -> c = a + b /\ c < 2 ^ n.
Proof. unfold padd. destruct (Z.ltb_spec (a + b) (2 ^ n)); [|discriminate]. intros Q. injection Q as <-. split; lia. Qed.
Lemma align_ok s x r : pow2 s -> 0 <= x < 2 ^ 64 -> align 64 x s = Ok r -> (s | r) /\ x <= r < 2 ^ 64.
Proof.
  intros (k & Hk & ->) Hx E. destruct (align_exact 64 k x ltac:(lia) Hx) as (_ & H). apply H in E. split; [exact (proj1 E)|lia].
Qed.
Lemma pow2_0 s : pow2 s -> 0 < s.
Proof. intros (k & Hk & ->). apply Z.pow_pos_nonneg; lia. Qed.
(** the state of the layout: pairwise disjoint intervals below [a] *)
Definition span (s : osec) (p : Z * Z) : Z * Z := (fst p, fst p + se_size s).
Definition apart (x y : Z * Z) : Prop := snd x <= fst y \/ snd y <= fst x.
Record placed (base : Z) (s : osec) (p : Z * Z) (lo hi : Z) : Prop := {
  pl_div : (se_align s | fst p);
  pl_lo : lo <= fst p;
  pl_hi : fst p + se_size s <= hi;
  pl_off : snd p = if is_bss (se_kind s) then 0 else base + fst p }.
Lemma lay_data_ok base l : forall a l1 a', Forall msec_in l -> 0 <= a < 2 ^ 64 -> map_m (lay_data base) l a = Ok (l1, a') ->
  a <= a' < 2 ^ 64 /\ zlen l1 = zlen l /\
  (forall i s, zget l i = Some s -> if is_bss (se_kind s) then zget l1 i = Some None else exists p, zget l1 i = Some (Some p) /\ placed base s p a a') /\
  (forall i j s t p q, i < j -> zget l i = Some s -> zget l j = Some t -> zget l1 i = Some (Some p) -> zget l1 j = Some (Some q) -> fst p + se_size s <= fst q).
Proof.
  induction l as [|s l IH]; intros a l1 a' HS Ha E; cbn [map_m] in E.
  - injection E as <- <-. split; [lia|]. split; [reflexivity|]. split; intros i s; intros; exfalso; match goal with H : zget [] _ = Some _ |- _ => apply zget_Some_lt in H; change (zlen (@nil osec)) with 0 in H; lia end.
  - inversion HS as [|? ? H1 H2]; subst. destruct (lay_data base s a) as [[x a1]| |] eqn:E1; cbn [bind] in E; try discriminate.
    destruct (map_m (lay_data base) l a1) as [[xs a2]| |] eqn:E2; cbn [bind] in E; try discriminate. injection E as <- <-.
    unfold lay_data in E1. destruct H1 as (_ & _ & _ & Hz & Hp & _). destruct (is_bss (se_kind s)) eqn:Eb.
    + injection E1 as <- <-. destruct (IH _ _ _ H2 Ha E2) as (R1 & R2 & R3 & R4). split; [exact R1|]. split; [rewrite !zlen_cons; lia|]. split.
      * intros i t Hi. pose proof (zget_Some_lt _ _ _ Hi) as Hl. destruct (Z.eq_dec i 0) as [->|N].
        { rewrite zget_0 in *. injection Hi as <-. rewrite Eb. reflexivity. }
        rewrite zget_S in Hi by lia. specialize (R3 _ _ Hi). rewrite zget_S by lia. exact R3.
      * intros i j s1 t1 p q Hij Hi Hj Hp1 Hq. pose proof (zget_Some_lt _ _ _ Hi) as Hl. rewrite zget_S in Hj by lia. rewrite zget_S in Hq by lia.
        destruct (Z.eq_dec i 0) as [->|N]; [rewrite zget_0 in Hp1; discriminate|]. rewrite zget_S in Hi by lia. rewrite zget_S in Hp1 by lia. apply (R4 (i - 1) (j - 1) s1 t1 p q); auto; lia.
    + destruct (align 64 a (se_align s)) as [a0| |] eqn:E3; cbn [bind] in E1; try discriminate. destruct (padd 64 base a0) as [o| |] eqn:E4; cbn [bind] in E1; try discriminate.
      destruct (padd 64 a0 (se_size s)) as [n| |] eqn:E5; cbn [bind] in E1; try discriminate. injection E1 as <- <-.
      apply align_ok in E3; [|exact Hp|exact Ha]. apply padd_ok in E4. apply padd_ok in E5. destruct E3 as (D & B). destruct E4 as (-> & _). destruct E5 as (-> & B5).
      destruct (IH (a0 + se_size s) _ _ H2 ltac:(lia) E2) as (R1 & R2 & R3 & R4). split; [lia|]. split; [rewrite !zlen_cons; lia|]. split.
      * intros i t Hi. pose proof (zget_Some_lt _ _ _ Hi) as Hl. destruct (Z.eq_dec i 0) as [->|N].
        { rewrite zget_0 in *. injection Hi as <-. rewrite Eb. exists (a0, base + a0). split; [try rewrite zget_0; reflexivity|]. constructor; cbn [fst snd]; [exact D|lia|lia|rewrite Eb; reflexivity]. }
        rewrite zget_S in Hi by lia. specialize (R3 _ _ Hi). rewrite zget_S by lia. destruct (is_bss (se_kind t)); [exact R3|]. destruct R3 as (p & Hq & [P1 P2 P3 P4]). exists p. split; [exact Hq|]. constructor; try assumption; lia.
      * intros i j s1 t1 p q Hij Hi Hj Hp1 Hq. pose proof (zget_Some_lt _ _ _ Hi) as Hl. rewrite zget_S in Hj by lia. rewrite zget_S in Hq by lia.
        destruct (Z.eq_dec i 0) as [->|N].
        { rewrite zget_0 in Hp1. injection Hp1 as <-. rewrite zget_0 in Hi. injection Hi as <-. specialize (R3 _ _ Hj). destruct (is_bss (se_kind t1)); [congruence|]. destruct R3 as (p' & Hq' & [P1 P2 P3 P4]). rewrite Hq in Hq'. injection Hq' as <-. cbn [fst]. exact P2. }
        rewrite zget_S in Hi by lia. rewrite zget_S in Hp1 by lia. apply (R4 (i - 1) (j - 1) s1 t1 p q); auto; lia.
Qed.
Lemma lay_bss_ok base l : forall a lay a', Forall (fun x => msec_in (fst x)) l -> Forall (fun x => match snd x with None => is_bss (se_kind (fst x)) = true | Some _ => True end) l ->
  0 <= a < 2 ^ 64 -> map_m lay_bss l a = Ok (lay, a') ->
  a <= a' < 2 ^ 64 /\ zlen lay = zlen l /\
  (forall i s x, zget l i = Some (s, x) -> match x with Some p => zget lay i = Some p | None => zlen (se_data s) = 0 /\ exists p, zget lay i = Some p /\ placed base s p a a' end) /\
  (forall i j s t p q, i < j -> zget l i = Some (s, None) -> zget l j = Some (t, None) -> zget lay i = Some p -> zget lay j = Some q -> fst p + se_size s <= fst q).
Proof.
  induction l as [|[s x] l IH]; intros a lay a' HS HB Ha E; cbn [map_m] in E.
  - injection E as <- <-. split; [lia|]. split; [reflexivity|]. split; intros i s; intros; exfalso; match goal with H : zget [] _ = Some _ |- _ => apply zget_Some_lt in H; change (zlen (@nil (osec * option (Z * Z)))) with 0 in H; lia end.
  - inversion HS as [|? ? H1 H2]; subst. inversion HB as [|? ? B1 B2]; subst. cbn [fst snd] in *. destruct (lay_bss (s, x) a) as [[y a1]| |] eqn:E1; cbn [bind] in E; try discriminate.
    destruct (map_m lay_bss l a1) as [[xs a2]| |] eqn:E2; cbn [bind] in E; try discriminate. injection E as <- <-.
    unfold lay_bss in E1. cbn [fst snd] in E1. destruct H1 as (_ & _ & _ & Hz & Hp & _). destruct x as [p0|].
    + injection E1 as <- <-. destruct (IH _ _ _ H2 B2 Ha E2) as (R1 & R2 & R3 & R4). split; [exact R1|]. split; [rewrite !zlen_cons; lia|]. split.
      * intros i t x Hi. pose proof (zget_Some_lt _ _ _ Hi) as Hl. destruct (Z.eq_dec i 0) as [->|N].
        { rewrite zget_0 in Hi. injection Hi as <- <-. try rewrite zget_0; reflexivity. }
        rewrite zget_S in Hi by lia. specialize (R3 _ _ _ Hi). rewrite zget_S by lia. exact R3.
      * intros i j s1 t1 p q Hij Hi Hj Hp1 Hq. pose proof (zget_Some_lt _ _ _ Hi) as Hl. rewrite zget_S in Hj by lia. rewrite zget_S in Hq by lia.
        destruct (Z.eq_dec i 0) as [->|N]; [rewrite zget_0 in Hi; discriminate|]. rewrite zget_S in Hi by lia. rewrite zget_S in Hp1 by lia. apply (R4 (i - 1) (j - 1) s1 t1 p q); auto; lia.
    + destruct (Z.eqb_spec (zlen (se_data s)) 0) as [Ez|]; cbn [negb] in E1; [|discriminate]. destruct (align 64 a (se_align s)) as [a0| |] eqn:E3; cbn [bind] in E1; try discriminate.
      destruct (padd 64 a0 (se_size s)) as [n| |] eqn:E5; cbn [bind] in E1; try discriminate. injection E1 as <- <-.
      apply align_ok in E3; [|exact Hp|exact Ha]. apply padd_ok in E5. destruct E3 as (D & B). destruct E5 as (-> & B5).
      destruct (IH (a0 + se_size s) _ _ H2 B2 ltac:(lia) E2) as (R1 & R2 & R3 & R4). split; [lia|]. split; [rewrite !zlen_cons; lia|]. split.
      * intros i t x Hi. pose proof (zget_Some_lt _ _ _ Hi) as Hl. destruct (Z.eq_dec i 0) as [->|N].
        { rewrite zget_0 in Hi. injection Hi as <- <-. split; [exact Ez|]. exists (a0, 0). split; [try rewrite zget_0; reflexivity|]. constructor; cbn [fst snd]; [exact D|lia|lia|rewrite B1; reflexivity]. }
        rewrite zget_S in Hi by lia. specialize (R3 _ _ _ Hi). rewrite zget_S by lia. destruct x; [exact R3|]. destruct R3 as (Ez' & p & Hq & [P1 P2 P3 P4]). split; [exact Ez'|]. exists p. split; [exact Hq|]. constructor; try assumption; lia.
      * intros i j s1 t1 p q Hij Hi Hj Hp1 Hq. pose proof (zget_Some_lt _ _ _ Hi) as Hl. rewrite zget_S in Hj by lia. rewrite zget_S in Hq by lia.
        destruct (Z.eq_dec i 0) as [->|N].
        { rewrite zget_0 in Hp1. injection Hp1 as <-. rewrite zget_0 in Hi. injection Hi as <-. specialize (R3 _ _ _ Hj). cbn beta iota in R3. destruct R3 as (_ & p' & Hq' & [P1 P2 P3 P4]). rewrite Hq in Hq'. injection Hq' as <-. cbn [fst]. exact P2. }
        rewrite zget_S in Hi by lia. rewrite zget_S in Hp1 by lia. apply (R4 (i - 1) (j - 1) s1 t1 p q); auto; lia.
Qed.
(** both passes *)
Lemma layout_ok base l l1 a1 lay a2 : Forall msec_in l -> map_m (lay_data base) l 0 = Ok (l1, a1) -> map_m lay_bss (combine l l1) a1 = Ok (lay, a2) ->
  0 <= a1 <= a2 /\ a2 < 2 ^ 64 /\ zlen lay = zlen l /\
  (forall i s, zget l i = Some s -> exists p, zget lay i = Some p /\ placed base s p 0 a2 /\ if is_bss (se_kind s) then zlen (se_data s) = 0 else fst p + se_size s <= a1) /\
  (forall i j s t p q, i <> j -> zget l i = Some s -> zget l j = Some t -> zget lay i = Some p -> zget lay j = Some q -> apart (span s p) (span t q)).
Proof.
  intros HS E1 E2. destruct (lay_data_ok base l 0 l1 a1 HS ltac:(lia) E1) as (A1 & A2 & A3 & A4).
  assert (HS' : Forall (fun x : osec * option (Z * Z) => msec_in (fst x)) (combine l l1)).
  { apply Forall_forall. intros [s x] Hi. apply in_combine_l in Hi. cbn [fst]. exact (proj1 (Forall_forall _ _) HS s Hi). }
  assert (HB' : Forall (fun x : osec * option (Z * Z) => match snd x with None => is_bss (se_kind (fst x)) = true | Some _ => True end) (combine l l1)).
  { apply Forall_forall. intros [s x] Hi. cbn [fst snd]. apply In_zget in Hi. destruct Hi as (i & Hi). apply combine_in_l in Hi. cbn [fst snd] in Hi. destruct Hi as (Hi & Hx). specialize (A3 _ _ Hi). destruct x; [exact I|]. destruct (is_bss (se_kind s)); [reflexivity|]. destruct A3 as (p & Q & _). congruence. }
  destruct (lay_bss_ok base _ a1 lay a2 HS' HB' ltac:(lia) E2) as (B1 & B2 & B3 & B4). rewrite zlen_combine, A2, Z.min_id in B2.
  assert (K : forall i s, zget l i = Some s -> exists p, zget lay i = Some p /\ if is_bss (se_kind s) then placed base s p a1 a2 /\ zget l1 i = Some None /\ zlen (se_data s) = 0 else placed base s p 0 a1 /\ zget l1 i = Some (Some p)).
  { intros i s Hi. specialize (A3 _ _ Hi). destruct (is_bss (se_kind s)) eqn:Eb.
    - specialize (B3 i s None (zget_combine _ _ _ _ _ Hi A3)). cbn beta iota in B3. destruct B3 as (Ez & p & Hp & P). exists p. split; [exact Hp|]. split; [exact P|]. split; assumption.
    - destruct A3 as (p & Hp & P). specialize (B3 i s (Some p) (zget_combine _ _ _ _ _ Hi Hp)). cbn beta iota in B3. exists p. split; [exact B3|]. split; [exact P|exact Hp]. }
  split; [lia|]. split; [lia|]. split; [exact B2|]. split.
  - intros i s Hi. destruct (K _ _ Hi) as (p & Hp & C). exists p. split; [exact Hp|]. destruct (is_bss (se_kind s)) eqn:Eb; [destruct C as ([P1 P2 P3 P4] & _ & Ez)|destruct C as ([P1 P2 P3 P4] & _)]; (split; [constructor; try assumption; try lia|]); assumption.
  - assert (W : forall i j s t p q, i < j -> zget l i = Some s -> zget l j = Some t -> zget lay i = Some p -> zget lay j = Some q -> apart (span s p) (span t q)).
    { intros i j s t p q Hij Hi Hj Hp Hq. destruct (K _ _ Hi) as (p' & Hp' & C). destruct (K _ _ Hj) as (q' & Hq' & D). rewrite Hp in Hp'. injection Hp' as <-. rewrite Hq in Hq'. injection Hq' as <-. unfold apart, span. cbn [fst snd].
      destruct (is_bss (se_kind s)) eqn:Es, (is_bss (se_kind t)) eqn:Et; destruct C as ([P1 P2 P3 P4] & C); destruct D as ([Q1 Q2 Q3 Q4] & D).
      - left. destruct C as (C & _). destruct D as (D & _). apply (B4 i j s t p q Hij); auto using zget_combine.
      - right. lia.
      - left. lia.
      - left. apply (A4 i j s t p q Hij); assumption. }
    intros i j s t p q N Hi Hj Hp Hq. destruct (Z.lt_trichotomy i j) as [H|[H|H]]; [exact (W _ _ _ _ _ _ H Hi Hj Hp Hq)|contradiction|]. specialize (W _ _ _ _ _ _ H Hj Hi Hq Hp). destruct W as [W|W]; [right|left]; exact W.
Qed.

(** * Loops that write *)
(** each item appends something at the place where it is *)
Lemma fold_app {X} (f : X -> bytes -> out bytes) (R : X -> bytes -> bytes -> Prop) l :
  (forall x b b', In x l -> f x b = Ok b' -> exists u, b' = b ++ u /\ R x b u) ->
  forall b b', fold_m f l b = Ok b' -> exists us, b' = b ++ concat us /\ zlen us = zlen l /\
    forall i x, zget l i = Some x -> exists p u, zget us i = Some u /\ R x p u /\ exists q, b' = p ++ u ++ q.
Proof.
  induction l as [|x l IH]; intros Hf b b' E; cbn [fold_m] in E.
  - injection E as <-. exists []. split; [symmetry; apply app_nil_r|]. split; [reflexivity|]. intros i x Hi. apply zget_Some_lt in Hi. change (zlen (@nil X)) with 0 in Hi. lia.
  - destruct (f x b) as [b1| |] eqn:E1; cbn [bind] in E; try discriminate. destruct (Hf x b b1 (or_introl eq_refl) E1) as (u & -> & Hu).
    destruct (IH (fun y c c' Hy => Hf y c c' (or_intror Hy)) _ _ E) as (us & -> & Hl & Hz). exists (u :: us). split; [cbn [concat]; rewrite <- app_assoc; reflexivity|]. split; [rewrite !zlen_cons; lia|].
    intros i y Hi. pose proof (zget_Some_lt _ _ _ Hi). destruct (Z.eq_dec i 0) as [->|N].
    + rewrite zget_0 in Hi. injection Hi as <-. exists b, u. split; [try rewrite zget_0; reflexivity|]. split; [exact Hu|]. exists (concat us). rewrite <- app_assoc. reflexivity.
    + rewrite zget_S in Hi by lia. destruct (Hz _ _ Hi) as (p & v & Hv & HR & q & Hq). exists p, v. split; [rewrite zget_S by lia; exact Hv|]. split; [exact HR|]. exists q. exact Hq.
Qed.
(** items that each write an encoded value *)
Lemma fold_enc {X Y} (g : X -> out Y) (enc : Y -> bytes) l : forall b b',
  fold_m (fun x b => y <- g x ;; Ok (b ++ enc y)) l b = Ok b' -> exists ys, Forall2 (fun x y => g x = Ok y) l ys /\ b' = b ++ concat (map enc ys).
Proof.
  induction l as [|x l IH]; intros b b' E; cbn [fold_m] in E.
  - injection E as <-. exists []. split; [constructor|symmetry; apply app_nil_r].
  - destruct (g x) as [y| |] eqn:E1; cbn [bind] in E; try discriminate. destruct (IH _ _ E) as (ys & Hy & ->). exists (y :: ys). split; [constructor; assumption|]. cbn [map concat]. rewrite <- app_assoc. reflexivity.
Qed.
Lemma fold_ext {X S} (f g : X -> S -> out S) l : (forall x s, f x s = g x s) -> forall s, fold_m f l s = fold_m g l s.
Proof. intros H. induction l as [|x l IH]; intros s; cbn [fold_m]; [reflexivity|]. rewrite H. destruct (g x s); cbn [bind]; auto. Qed.
