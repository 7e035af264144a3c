(** Rebase and bind streams: proofs. *)
From Verif Require Import Core_proofs Util_proofs Iter_proofs Trie_proofs Rel_proofs.
From Verif Require Import Dyld_spec.

Definition chk (k i : Z) : bool := (Z.land (16 * k + i) 240 =? 16 * k) && (Z.land (16 * k + i) 15 =? i).
Lemma halves k i : 0 <= k < 16 -> 0 <= i < 16 -> Z.land (16 * k + i) 240 = 16 * k /\ Z.land (16 * k + i) 15 = i.
Proof.
  intros Hk Hi. assert (C : chk k i = true); [|unfold chk in C; lia].
  assert (A : forallb (fun k => forallb (fun i => chk (Z.of_nat k) (Z.of_nat i)) (seq 0 16)) (seq 0 16) = true) by (vm_compute; reflexivity).
  rewrite forallb_forall in A. specialize (A (Z.to_nat k)). rewrite forallb_forall in A. rewrite <- (Z2Nat.id k), <- (Z2Nat.id i) by lia. apply A; apply in_seq; lia.
Qed.
Lemma read1 c s : b_read (c :: s) 1 = (Ok [c], s).
Proof. unfold b_read, from_bytes, get_from. rewrite zlen_cons. pose proof (zlen_nonneg s). destruct (Z.leb_spec 1 (1 + zlen s)); [|lia]. reflexivity. Qed.
Lemma read_b c : 0 <= c < 256 -> read_u Little [c] = c.
Proof. intro H. cbn. lia. Qed.
Lemma byte_parts c : 0 <= c < 256 -> exists k i, 0 <= k < 16 /\ 0 <= i < 16 /\ c = 16 * k + i.
Proof. intro H. exists (c / 16), (c mod 16). pose proof (Z.div_mod c 16). pose proof (Z.mod_pos_bound c 16). pose proof (Z.div_le_mono 0 c 16). pose proof (Z.div_lt_upper_bound c 16 16). change (0 / 16) with 0 in *. lia. Qed.
Lemma cases16 k : 0 <= k < 16 -> k = 0 \/ k = 1 \/ k = 2 \/ k = 3 \/ k = 4 \/ k = 5 \/ k = 6 \/ k = 7 \/ k = 8 \/ k = 9 \/ k = 10 \/ k = 11 \/ k = 12 \/ k = 13 \/ k = 14 \/ k = 15.
Proof. lia. Qed.
Lemma sleb_app x v rest : bytes_ok (x ++ rest) -> sleb_bytes x v -> read_sleb128 (x ++ rest) = (Ok v, rest).
Proof. intros H U. apply read_sleb128_iff; [exact H|]. exists x. split; [reflexivity|exact U]. Qed.
Lemma sleb_inv s v rest : bytes_ok s -> read_sleb128 s = (Ok v, rest) -> exists x, s = x ++ rest /\ sleb_bytes x v.
Proof. intros H E. apply read_sleb128_iff in E; [|exact H]. exact E. Qed.
Lemma special_b i : 1 <= i < 16 -> wrap_s 8 (Z.lor 240 i) = i - 16.
Proof.
  intro H. assert (A : forallb (fun i => wrap_s 8 (Z.lor 240 (Z.of_nat i)) =? Z.of_nat i - 16) (seq 1 15) = true) by (vm_compute; reflexivity).
  rewrite forallb_forall in A. specialize (A (Z.to_nat i)). rewrite Z2Nat.id in A by lia. apply Z.eqb_eq. apply A. apply in_seq. lia.
Qed.

(** * The operations *)
Ltac start k i := unfold rop_parse, bop_parse; cbn [app]; rewrite read1; cbn [bs]; rewrite read_b by lia;
  match goal with |- context [Z.land ?c 240] => replace c with (16 * k + i) by lia end;
  let A := fresh in let B := fresh in destruct (halves k i) as [A B]; [lia|lia|]; rewrite A, B; clear A B; cbn [Z.mul Z.eqb Pos.mul Pos.eqb].
Lemma rop_enc_ok x b rest : bytes_ok (b ++ rest) -> rop_enc x b -> rop_parse (b ++ rest) = (Ok x, rest).
Proof.
  intros K E. unfold imm in *. destruct E; unfold imm in *; cbn [app] in K; pose proof (Forall_inv_tail K) as K'.
  - start 0 i. reflexivity. - start 1 i. reflexivity.
  - start 2 i. rewrite (uleb_app x o) by assumption. reflexivity.
  - start 3 i. rewrite (uleb_app x o) by assumption. reflexivity.
  - start 4 i. reflexivity. - start 5 i. reflexivity.
  - start 6 i. rewrite (uleb_app x n) by assumption. reflexivity.
  - start 7 i. rewrite (uleb_app x o) by assumption. reflexivity.
  - start 8 i. rewrite <- app_assoc in *. rewrite (uleb_app x n) by assumption. cbn [bs]. apply bytes_ok_app in K'. rewrite (uleb_app y s) by tauto. reflexivity.
Qed.
Ltac opn K data c s Ks i Hi := destruct data as [|c s]; [let E := fresh "E" in intro E; discriminate E|]; let Kc := fresh in pose proof (Forall_inv K) as Kc; unfold byte_ok in Kc; pose proof (Forall_inv_tail K) as Ks;
  let k := fresh "k" in let Hk := fresh "Hk" in let Ec := fresh "Ec" in destruct (byte_parts c) as (k & i & Hk & Hi & Ec); [lia|]; unfold rop_parse, bop_parse; rewrite read1; cbn [bs]; rewrite read_b by lia; rewrite Ec;
  let A := fresh in let B := fresh in destruct (halves k i Hk Hi) as [A B]; rewrite A, B; clear A B; revert Ec;
  (destruct (cases16 k Hk) as [->|[->|[->|[->|[->|[->|[->|[->|[->|[->|[->|[->|[->|[->|[->| ->]]]]]]]]]]]]]]]); intro Ec; cbn [Z.mul Z.eqb Pos.mul Pos.eqb Z.add] in *.
Ltac ul Ks x r Ex Ux := match goal with |- context [read_uleb128 ?s] => let E1 := fresh in let v := fresh "v" in destruct (uleb_cases s Ks) as [(v & r & E1)|(r & E1)]; rewrite E1; cbn [bs];
  [apply uleb_iff in E1; [destruct E1 as (x & Ex & Ux)|exact Ks]|] end.
Lemma rop_inv data x rest : bytes_ok data -> rop_parse data = (Ok x, rest) -> exists b, rop_enc x b /\ data = b ++ rest.
Proof.
  intros K. opn K data c s Ks i Hi; try (intro E; discriminate E).
  all: try (intro E; injection E as <- <-; eexists; split; [constructor; exact Hi|reflexivity]).
  all: ul Ks x1 r1 Ex1 Ux1; try (intro E; discriminate E).
  all: try (intro E; injection E as <- <-; subst s; eexists; split; [constructor; [exact Hi|exact Ux1]|reflexivity]).
  subst s. pose proof (proj2 (proj1 (bytes_ok_app _ _) Ks)) as Kr. ul Kr x2 r2 Ex2 Ux2; intro E; [|discriminate E]. injection E as <- <-. subst r1. exists ((128 + i) :: x1 ++ x2). split; [constructor; assumption|]. cbn [app]. rewrite app_assoc. reflexivity.
Qed.
Lemma rop_np data : bytes_ok data -> fst (rop_parse data) <> Panic.
Proof.
  intros K. enough (rop_parse data = (Panic, snd (rop_parse data)) -> False). { destruct (rop_parse data) as [[| |] r]; cbn [fst snd] in *; try discriminate. intros _. apply H. reflexivity. }
  opn K data c s Ks i Hi; try (intro E; discriminate E).
  all: ul Ks x1 r1 Ex1 Ux1; try (intro E; discriminate E).
  subst s. pose proof (proj2 (proj1 (bytes_ok_app _ _) Ks)) as Kr. ul Kr x2 r2 Ex2 Ux2; intro E; discriminate E.
Qed.
Lemma bop_enc_ok x b rest : bytes_ok (b ++ rest) -> bop_enc x b -> bop_parse (b ++ rest) = (Ok x, rest).
Proof.
  intros K E. destruct E; unfold imm in *; cbn [app] in K; pose proof (Forall_inv_tail K) as K'.
  - start 0 i. reflexivity. - start 1 i. reflexivity.
  - start 2 i. rewrite (uleb_app x n) by assumption. reflexivity.
  - start 3 0. reflexivity.
  - start 3 (16 + n). destruct (Z.eqb_spec (16 + n) 0); [lia|]. rewrite special_b by lia. replace (16 + n - 16) with n by lia. reflexivity.
  - start 4 i. rewrite <- app_assoc. cbn [app]. rewrite b_read_string_app by assumption. reflexivity.
  - start 5 i. reflexivity.
  - start 6 i. rewrite (sleb_app x a) by assumption. reflexivity.
  - start 7 i. rewrite (uleb_app x o) by assumption. reflexivity.
  - start 8 i. rewrite (uleb_app x o) by assumption. reflexivity.
  - start 9 i. reflexivity.
  - start 10 i. rewrite (uleb_app x o) by assumption. reflexivity.
  - start 11 i. reflexivity.
  - start 12 i. rewrite <- app_assoc in *. rewrite (uleb_app x n) by assumption. cbn [bs]. apply bytes_ok_app in K'. rewrite (uleb_app y s) by tauto. reflexivity.
Qed.
Lemma bop_inv data x rest : bytes_ok data -> bop_parse data = (Ok x, rest) -> exists b, bop_enc x b /\ data = b ++ rest.
Proof.
  intros K. opn K data c s Ks i Hi; try (intro E; discriminate E).
  all: try (intro E; injection E as <- <-; eexists; split; [constructor; exact Hi|reflexivity]).
  2: { destruct (Z.eqb_spec i 0) as [->|Ni]; [intro E; injection E as <- <-; exists [48]; split; [constructor|reflexivity]|]. rewrite special_b by lia. intro E. injection E as <- <-. exists [48 + i]. split; [|reflexivity].
       replace (48 + i) with (64 + (i - 16)) by lia. constructor. lia. }
  2: { destruct (string_cases s) as [(n & r & -> & -> & Nn)|(r & -> & _)]; intro E; [|discriminate E]. injection E as <- <-. exists ((64 + i) :: n ++ [0]). split; [constructor; assumption|]. cbn [app]. rewrite <- app_assoc. reflexivity. }
  2: { destruct (read_sleb128 s) as [[v| |] r] eqn:Es; intro E; try discriminate E. apply sleb_inv in Es; [|exact Ks]. destruct Es as (x1 & -> & U). injection E as <- <-. eexists. split; [constructor; [exact Hi|exact U]|reflexivity]. }
  all: ul Ks x1 r1 Ex1 Ux1; try (intro E; discriminate E).
  all: try (intro E; injection E as <- <-; subst s; eexists; split; [constructor; [exact Hi|exact Ux1]|reflexivity]).
  subst s. pose proof (proj2 (proj1 (bytes_ok_app _ _) Ks)) as Kr. ul Kr x2 r2 Ex2 Ux2; intro E; [|discriminate E]. injection E as <- <-. subst r1. exists ((192 + i) :: x1 ++ x2). split; [constructor; assumption|]. cbn [app]. rewrite app_assoc. reflexivity.
Qed.
Lemma bop_np data : bytes_ok data -> fst (bop_parse data) <> Panic.
Proof.
  intros K. enough (bop_parse data = (Panic, snd (bop_parse data)) -> False). { destruct (bop_parse data) as [[| |] r]; cbn [fst snd] in *; try discriminate. intros _. apply H. reflexivity. }
  opn K data c s Ks i Hi; try (intro E; discriminate E).
  all: try (destruct (string_cases s) as [(n & r & -> & -> & Nn)|(r & -> & _)]; intro E; discriminate E).
  all: try (pose proof (read_sleb128_no_panic s Ks) as N; destruct (read_sleb128 s) as [[v| |] r]; cbn [fst] in N; [intro E; discriminate E|intro E; discriminate E|congruence]).
  all: ul Ks x1 r1 Ex1 Ux1; try (intro E; discriminate E).
  subst s. pose proof (proj2 (proj1 (bytes_ok_app _ _) Ks)) as Kr. ul Kr x2 r2 Ex2 Ux2; intro E; discriminate E.
Qed.
Lemma rops_ok : decodes rop_enc rop_next.
Proof. apply seq_decodes; [intros x b []; discriminate|exact rop_enc_ok|exact rop_inv|exact rop_np]. Qed.
Lemma bops_ok : decodes bop_enc bop_next.
Proof. apply seq_decodes; [intros x b []; discriminate|exact bop_enc_ok|exact bop_inv|exact bop_np]. Qed.
