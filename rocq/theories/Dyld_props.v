(** Property theorems C67, C68 (rebase and bind streams of LC_DYLD_INFO). *)
From Verif Require Import Core_proofs Util_proofs File_proofs Iter_proofs Rel_proofs.
From Verif Require Import File_spec Dyld_spec Dyld_proofs DyldR_proofs DyldB_proofs.

(** * C67.  Operations *)
(** Stream [k] (0 rebase, 1 bind, 2 weak bind, 3 lazy bind, 4 exports) is the part of the file that the [k]-th pair of offset and size in the command gives *)
Theorem C67_stream e cmd k F d : bytes_ok cmd ->
  di_data e cmd k F = Ok d <-> zlen d = fld e (12 + 8 * k) 4 cmd /\ (d = [] \/ holds F (fld e (8 + 8 * k) 4 cmd) d).
Proof.
  intros Hc. unfold di_data, fld. pose proof (read_u_bound e (zslice (8 + 8 * k) 4 cmd) (bytes_ok_zslice _ _ _ Hc)) as B1. pose proof (read_u_bound e (zslice (12 + 8 * k) 4 cmd) (bytes_ok_zslice _ _ _ Hc)) as B2.
  rewrite (rr_read_bytes_at_Ok F _ _ d (proj1 B1) (proj1 B2)). set (o := read_u e (zslice (8 + 8 * k) 4 cmd)) in *. set (n := read_u e (zslice (12 + 8 * k) 4 cmd)) in *. clearbody o n. split.
  - intros [(-> & ->)|(A & B & ->)]; [split; [reflexivity|left; reflexivity]|]. rewrite zlen_zslice by lia. split; [reflexivity|]. right. apply holds_iff. rewrite zlen_zslice by lia. split; [lia|]. split; [lia|reflexivity].
  - intros (<- & [->|A]); [left; split; reflexivity|]. apply holds_iff in A. destruct A as (A & B & D). destruct (Z.eq_dec (zlen d) 0) as [E0|N]; [left; split; [exact E0|apply zlen_0_nil; exact E0]|].
    right. pose proof (zlen_nonneg d). split; [lia|]. split; [exact B|congruence].
Qed.
Print Assumptions C67_stream.
(** The iterators decode any sequence of operations, and for any other data they stop with an error at the first byte that does not begin an operation *)
Theorem C67_rebase_operations : decodes rop_enc rop_next.
Proof. exact rops_ok. Qed.
Print Assumptions C67_rebase_operations.
Theorem C67_bind_operations : decodes bop_enc bop_next.
Proof. exact bops_ok. Qed.
Print Assumptions C67_bind_operations.

(** * C68.  Rebases and binds *)
(** The rebases are the meaning of the operations of the stream; after an error the iterator returns [None] forever. *)
Theorem C68_rebases ptr data : bytes_ok data -> 0 <= ptr < 256 -> exists ops e d' st l err,
  runs rop_next data ops e d' /\ rebases ptr None None (map snd ops) e = (l, err) /\ runs (rbit_next ptr) (rbit_new data) l err st /\ (err = true -> rbit_next ptr st = (Ok None, st)).
Proof.
  intros K Hp. destruct (proj2 rops_ok data K) as (ops & e & post & R & _).
  destruct (rebases_run ptr data ops e [] Hp R (rbit_new data) None None K eq_refl) as (st & R' & H); [repeat split|].
  destruct (rebases ptr None None (map snd ops) e) as [l err] eqn:E. exists ops, e, [], st, l, err. auto.
Qed.
Print Assumptions C68_rebases.
Lemma binds_all lazy ptr data k dy s : bytes_ok data -> 0 <= ptr < 256 -> s = {| s_at := None; s_kind := k; s_dylib := dy; s_symbol := None; s_addend := 0 |} -> exists ops e d' st l err,
  runs bop_next data ops e d' /\ binds lazy ptr s (map snd ops) e = (l, err) /\
  runs (bdit_next lazy ptr) (bdit_internal data k dy) l err st /\ (err = true -> bdit_next lazy ptr st = (Ok None, st)).
Proof.
  intros K Hp ->. destruct (proj2 bops_ok data K) as (ops & e & post & R & _).
  destruct (binds_run lazy ptr data ops e [] Hp R (bdit_internal data k dy) {| s_at := None; s_kind := k; s_dylib := dy; s_symbol := None; s_addend := 0 |} K eq_refl) as (st & R' & H).
  { split; [reflexivity|]. split; [reflexivity|]. split; [destruct k; [split|]; reflexivity|]. split; [destruct dy; [split|]; reflexivity|]. split; reflexivity. }
  destruct (binds lazy ptr _ (map snd ops) e) as [l err] eqn:E. exists ops, e, [], st, l, err. auto.
Qed.
Theorem C68_binds ptr data : bytes_ok data -> 0 <= ptr < 256 -> exists ops e d' st l err,
  runs bop_next data ops e d' /\ binds false ptr s_plain (map snd ops) e = (l, err) /\ runs (bdit_next false ptr) (bdit_new data) l err st /\ (err = true -> bdit_next false ptr st = (Ok None, st)).
Proof. intros K Hp. exact (binds_all false ptr data None None _ K Hp eq_refl). Qed.
Print Assumptions C68_binds.
Theorem C68_weak_binds ptr data : bytes_ok data -> 0 <= ptr < 256 -> exists ops e d' st l err,
  runs bop_next data ops e d' /\ binds false ptr s_weak (map snd ops) e = (l, err) /\ runs (bdit_next false ptr) (bdit_weak data) l err st /\ (err = true -> bdit_next false ptr st = (Ok None, st)).
Proof. intros K Hp. exact (binds_all false ptr data (Some 1) (Some (-3)) _ K Hp eq_refl). Qed.
Print Assumptions C68_weak_binds.
Theorem C68_lazy_binds ptr data : bytes_ok data -> 0 <= ptr < 256 -> exists ops e d' st l err,
  runs bop_next data ops e d' /\ binds true ptr s_lazy (map snd ops) e = (l, err) /\ runs (bdit_next true ptr) (bdit_lazy data) l err st /\ (err = true -> bdit_next true ptr st = (Ok None, st)).
Proof. intros K Hp. exact (binds_all true ptr data (Some 1) None _ K Hp eq_refl). Qed.
Print Assumptions C68_lazy_binds.
(** The operations and the results are determined by the data *)
Theorem C68_unique {S A} (next : S -> out (option A) * S) st l e st1 : runs next st l e st1 -> forall l' e' st1', runs next st l' e' st1' -> l = l' /\ e = e' /\ st1 = st1'.
Proof. exact (runs_det next st l e st1). Qed.
Print Assumptions C68_unique.

(** * Examples *)
Fixpoint pull {S A} (next : S -> out (option A) * S) (n : nat) (st : S) : list A * bool :=
  match n with
  | O => ([], true)
  | S n => match next st with (Ok (Some x), st) => let '(l, e) := pull next n st in (x :: l, e) | (Ok None, _) => ([], false) | _ => ([], true) end
  end.
(** type pointer, segment 2 offset 0x10, two rebases, skip 2 pointers, one rebase, two rebases that skip 8 bytes, done *)
Definition ex_rebases : bytes := [0x11; 0x22; 0x10; 0x52; 0x42; 0x51; 0x80; 2; 8; 0].
Example C67_ex : pull rop_next 20 ex_rebases =
  ([(0x10, RSetType 1); (0x20, RSetSegment 2 16); (0x50, RTimes 2); (0x40, RAddScaled 2); (0x50, RTimes 1); (0x80, RSkipping 2 8); (0, RDone)], false).
Proof. vm_compute. reflexivity. Qed.
Example C68_ex_rebases : pull (rbit_next 8) 20 (rbit_new ex_rebases) =
  (map (fun o => {| rb_segment := 2; rb_offset := o; rb_kind := 1 |}) [16; 24; 48; 56; 72], false) /\
  rebases 8 None None [RSetType 1; RSetSegment 2 16; RTimes 2; RAddScaled 2; RTimes 1; RSkipping 2 8; RDone] false =
  (map (fun o => {| rb_segment := 2; rb_offset := o; rb_kind := 1 |}) [16; 24; 48; 56; 72], false).
Proof. split; vm_compute; reflexivity. Qed.
(** a rebase without a type *)
Example C68_ex_error : pull (rbit_next 8) 20 (rbit_new [0x22; 0x10; 0x51]) = ([], true).
Proof. vm_compute. reflexivity. Qed.
(** two lazy binds, each with its own state: segment 2 at 16, library 1, symbol _a; segment 2 at 24, main executable (-1), symbol _b, weak *)
Definition ex_lazy : bytes := [0x72; 16; 0x11; 0x40; 95; 97; 0; 0x90; 0] ++ [0x72; 24; 0x3f; 0x41; 95; 98; 0; 0x90; 0].
Example C68_ex_binds : pull (bdit_next true 8) 20 (bdit_lazy ex_lazy) =
  ([{| bd_segment := 2; bd_offset := 16; bd_kind := 1; bd_dylib := 1; bd_symbol := [95; 97]; bd_flags := 0; bd_addend := 0 |};
    {| bd_segment := 2; bd_offset := 24; bd_kind := 1; bd_dylib := -1; bd_symbol := [95; 98]; bd_flags := 1; bd_addend := 0 |}], false) /\
  pull (bdit_next false 8) 20 (bdit_new ex_lazy) = ([], true).
Proof. split; vm_compute; reflexivity. Qed.
Example C68_ex_hyps : bytes_ok ex_rebases /\ bytes_ok ex_lazy /\ 0 <= 8 < 256.
Proof. split; [|split; [|lia]]; apply bytes_ok_forallb; vm_compute; reflexivity. Qed.
