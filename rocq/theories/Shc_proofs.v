(** Dyld shared caches: integers, loops and pointers. *)
From Verif Require Import Core_proofs Util_proofs File_proofs Iter_proofs Rel_proofs.
From Verif Require Import Fix_proofs.
From Verif Require ElfR_proofs Fkind_proofs FixC_proofs.
From Verif Require Import Shc_spec.

(** * Integers *)
Lemma u_at_fun e F off n v w : u_at e F off n v -> u_at e F off n w -> v = w.
Proof. intros (Hv & A) (Hw & B). apply holds_slice in A. apply holds_slice in B. rewrite zlen_write_u in A, B. rewrite A in B. rewrite <- (read_write_u_small e n v Hv), <- (read_write_u_small e n w Hw). f_equal. exact B. Qed.
Lemma u_at_iff e F off n k v : bytes_ok F -> k = Z.of_nat n -> u_at e F off n v <-> 0 <= off /\ off + k <= zlen F /\ read_u e (zslice off k F) = v.
Proof.
  intros B ->. unfold u_at. rewrite holds_iff, zlen_write_u. split.
  - intros (Hv & H0 & H1 & E). rewrite E. rewrite read_write_u_small by exact Hv. auto.
  - intros (H0 & H1 & <-). assert (L : zlen (zslice off (Z.of_nat n) F) = Z.of_nat n) by (apply zlen_zslice; lia).
    pose proof (read_u_bound e _ (bytes_ok_zslice off (Z.of_nat n) _ B)) as R. rewrite L in R. split; [exact R|]. split; [exact H0|]. split; [exact H1|].
    symmetry. apply write_read_n; [apply bytes_ok_zslice; exact B|exact L].
Qed.
Lemma read_at_u e F off n v : bytes_ok F -> zlen F < 2 ^ 63 -> 0 <= off -> (0 < n)%nat ->
  (exists b, rr_read_at F off (Z.of_nat n) = Ok b /\ read_u e b = v) <-> u_at e F off n v.
Proof.
  intros B L Ho Hn. rewrite (u_at_iff e F off n _ v B eq_refl). split.
  - intros (b & E & <-). apply Fkind_proofs.read_at_ok in E as (H & Lb); [|lia..]. pose proof (holds_bounds _ _ _ H). apply holds_slice in H. rewrite Lb in *. rewrite H. auto with zarith.
  - intros (_ & H & <-). exists (zslice off (Z.of_nat n) F). split; [|reflexivity]. apply Fkind_proofs.read_at_ok; [lia..|]. split; [|apply zlen_zslice; lia]. apply holds_iff. rewrite zlen_zslice by lia. auto.
Qed.

(** * Lists *)
Lemma zget_drop {A} (l : list A) p x xs : 0 <= p -> zdrop p l = x :: xs -> zget l p = Some x /\ zdrop (p + 1) l = xs.
Proof.
  intros Hp E. assert (L : p <= zlen l).
  { destruct (Z_le_gt_dec p (zlen l)); [assumption|]. assert (Q : zlen (zdrop p l) = 0) by (unfold zdrop, zlen in *; rewrite skipn_length; lia). rewrite E, zlen_cons in Q. pose proof (zlen_nonneg xs). lia. }
  assert (D : l = ztake p l ++ x :: xs) by (rewrite <- E; symmetry; apply ztake_zdrop). pose proof (zlen_ztake p l ltac:(lia)) as Lt.
  split.
  - rewrite D. rewrite zget_app2 by lia. rewrite Lt, Z.sub_diag. reflexivity.
  - rewrite D. replace (ztake p l ++ x :: xs) with ((ztake p l ++ [x]) ++ xs) by (rewrite <- app_assoc; reflexivity). apply zdrop_app_eq. rewrite zlen_app, Lt. reflexivity.
Qed.
Lemma zget_drop_nil {A} (l : list A) p : 0 <= p -> zdrop p l = [] -> zget l p = None.
Proof.
  intros Hp E. apply zget_None. intros (_ & Hlt). assert (Q : zlen (zdrop p l) = 0) by (rewrite E; reflexivity). rewrite zlen_zdrop in Q by lia. lia.
Qed.

(** * Loops *)
Section Loop.
Context {S A : Type} (step : S -> (out (option A) * S) + S) (bound : S -> Z) (inv : S -> Prop).
Context (Hb : forall s, inv s -> 0 <= bound s) (Hd : forall s s', inv s -> step s = inr s' -> inv s' /\ bound s' < bound s).
Notation next := (fun s => st_loop step (Datatypes.S (Z.to_nat (bound s))) s).
Lemma loop_fuel n : forall f g s, inv s -> bound s < Z.of_nat n -> (n <= f)%nat -> (n <= g)%nat -> st_loop step f s = st_loop step g s.
Proof.
  induction n as [|n IH]; intros f g s I Hn Hf Hg; [pose proof (Hb s I); lia|].
  destruct f as [|f]; [lia|]. destruct g as [|g]; [lia|]. cbn [st_loop]. destruct (step s) as [r|s'] eqn:E; [reflexivity|].
  destruct (Hd s s' I E) as (I' & D). apply IH; [exact I'|lia..].
Qed.
Lemma loop_next s : inv s -> next s = match step s with inl r => r | inr s' => next s' end.
Proof.
  intro I. cbn beta. cbn [st_loop]. destruct (step s) as [r|s'] eqn:E; [reflexivity|]. destruct (Hd s s' I E) as (I' & D). pose proof (Hb s I). pose proof (Hb s' I').
  change (st_loop step (Z.to_nat (bound s)) s' = st_loop step (Datatypes.S (Z.to_nat (bound s'))) s').
  apply (loop_fuel (Datatypes.S (Z.to_nat (bound s')))); [exact I'|lia..].
Qed.
Lemma loop_no_panic n : (forall s s', inv s -> step s <> inl (Panic, s')) -> forall f s, inv s -> bound s < Z.of_nat n -> (n <= f)%nat -> fst (st_loop step f s) <> Panic.
Proof.
  intro NP. induction n as [|n IH]; intros f s I Hn Hf; [pose proof (Hb s I); lia|].
  destruct f as [|f]; [lia|]. cbn [st_loop]. destruct (step s) as [[r s']|s'] eqn:E; [|destruct (Hd s s' I E) as (I' & D); apply IH; [exact I'|lia..]].
  cbn [fst]. intros ->. exact (NP s s' I E).
Qed.
End Loop.
Notation runs_same := FixC_proofs.runs_same.

(** * Pointers of versions 3 and 5 *)
Definition sptr (g : slide3) (v : Z) : Z * (Z * option fauth) := (if g3_v5 g then slide_ptr5 else slide_ptr3) (g3_add g) v.
Lemma ptr3_ok g v next value auth : ptr3 g v next value auth -> sptr g v = (next, (value, auth)).
Proof.
  intro H. unfold sptr, slide_ptr3, slide_ptr5, wrap_u. cbv zeta. destruct H as [target high next z Hg H|off div ad key next z Hg H|off high z next Hg H|off div ad data next Hg H];
  rewrite Hg; packs_inv H; bits_red; cbn [Z.eqb Pos.eqb]; rewrite ?b2z_eqb, ?key_id by lia; rewrite ?Z.shiftl_mul_pow2 by lia; try reflexivity.
  rewrite ElfR_proofs.lor_add' by lia. reflexivity.
Qed.
Lemma ptr3_exists g v : 0 <= v < 2 ^ 64 -> exists next value auth, ptr3 g v next value auth.
Proof.
  intro Hv. destruct (g3_v5 g) eqn:Hg; destruct (Z_lt_dec v (2 ^ 63)) as [C|C].
  - top_v [34; 8; 10; 11] [(1, 0)] 0 v P. do 3 eexists. eapply t5_plain; [exact Hg|exact P].
  - top_v [34; 16; 1; 1; 11] [(1, 1)] 1 v P. destruct (is_b2z (v / 2 ^ 34 / 2 ^ 16 mod 2 ^ 1)) as (a & Ea); [apply Z.mod_pos_bound; lia|]. destruct (is_b2z (v / 2 ^ 34 / 2 ^ 16 / 2 ^ 1 mod 2 ^ 1)) as (d & Ed); [apply Z.mod_pos_bound; lia|].
    rewrite Ea, Ed in P. do 3 eexists. eapply t5_auth; [exact Hg|exact P].
  - top_v [43; 8; 11; 1] [(1, 0)] 0 v P. do 3 eexists. eapply t3_plain; [exact Hg|exact P].
  - top_v [32; 16; 1; 2; 11; 1] [(1, 1)] 1 v P. destruct (is_b2z (v / 2 ^ 32 / 2 ^ 16 mod 2 ^ 1)) as (a & Ea); [apply Z.mod_pos_bound; lia|]. rewrite Ea in P. do 3 eexists. eapply t3_auth; [exact Hg|exact P].
Qed.
Lemma ptr3_iff g v next value auth : 0 <= v < 2 ^ 64 -> sptr g v = (next, (value, auth)) <-> ptr3 g v next value auth.
Proof.
  intro Hv. split; [|apply ptr3_ok]. intro E. destruct (ptr3_exists g v Hv) as (n & x & a & P). pose proof (ptr3_ok _ _ _ _ _ P) as E'. assert (Q : (next, (value, auth)) = (n, (x, a))) by congruence. injection Q as -> -> ->. exact P.
Qed.
Lemma ptr3_next g v next value auth : ptr3 g v next value auth -> 0 <= next < 2 ^ 11.
Proof. intros H. destruct H as [? ? ? ? ? H|? ? ? ? ? ? ? H|? ? ? ? ? H|? ? ? ? ? ? H]; packs_inv H; assumption. Qed.
