(** Property theorem C17 (src/build/table.rs). *)
From Verif Require Import Tab_spec Tab_proofs.

(** After any history of additions and (by id) changes such as deletion: [get(id)] is the item added with
    that id under exactly the changes made to that id; iteration yields exactly the items that are not
    deleted, in creation order; [count]/[is_empty] agree with iteration.  Nothing panics. *)
Theorem C17_table : forall T (deleted : T -> bool) (ops : list (tab_op T)), ids_valid 0 ops ->
  exists t, tab_run tab_new ops = Ok t /\
    (forall id, tab_get t id = unwrap (option_map (changes ops id) (zget (pushed ops) id))) /\
    tab_len t = zlen (pushed ops) /\
    tab_iter deleted t = filter (fun x => negb (deleted x))
      (map (fun p => changes ops (fst p) (snd p)) (combine (seqZ (length (pushed ops))) (pushed ops))) /\
    tab_count deleted t = zlen (tab_iter deleted t) /\
    (tab_is_empty deleted t = true <-> tab_count deleted t = 0).
Proof. exact @tab_history. Qed.
Print Assumptions C17_table.

(** The id handed out for an addition is the position of the item among all additions. *)
Theorem C17_next_id : forall T (ops : list (tab_op T)), ids_valid 0 ops ->
  exists t, tab_run tab_new ops = Ok t /\ tab_next_id t = zlen (pushed ops) /\
    forall x, tab_get (tab_push t x) (tab_next_id t) = Ok x.
Proof.
  intros T ops Hv. destruct (tab_history (fun _ => false) ops Hv) as (t & E & _ & Hl & _).
  exists t. split; [exact E|]. split; [exact Hl|]. intro x. unfold tab_get, tab_push, tab_next_id.
  rewrite zget_app2 by lia. rewrite Z.sub_diag, zget_0. reflexivity.
Qed.
Print Assumptions C17_next_id.

Definition delete (x : Z * bool) := (fst x, true).
Definition c17_ops := [TPush (10, false); TPush (11, false); TUpdate 0 delete; TPush (12, false)].
Example C17_ex :
  ids_valid 0 c17_ops /\
  match tab_run tab_new c17_ops with
  | Ok t => tab_iter snd t = [(11, false); (12, false)] /\ tab_get t 1 = Ok (11, false) /\
            tab_count snd t = 2 /\ tab_is_empty snd t = false /\ tab_get t 2 = Ok (12, false)
  | _ => False
  end.
Proof. split; [cbn; lia|]. ex. Qed.
