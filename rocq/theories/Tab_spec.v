(** Specification vocabulary for builder tables. *)
From Verif Require Export Core_spec Tab_model.

(** A history: items are added, and existing items are changed through get_mut (deleting an item is setting
    its flag). *)
Inductive tab_op (T : Type) := TPush (x : T) | TUpdate (id : Z) (f : T -> T).
Arguments TPush {T}.
Arguments TUpdate {T}.

Fixpoint tab_run {T} (t : list T) (ops : list (tab_op T)) : out (list T) :=
  match ops with
  | [] => Ok t
  | TPush x :: ops => tab_run (tab_push t x) ops
  | TUpdate id f :: ops => t <- tab_update t id f ;; tab_run t ops
  end.
(** The items added, in order. *)
Fixpoint pushed {T} (ops : list (tab_op T)) : list T :=
  match ops with [] => [] | TPush x :: ops => x :: pushed ops | _ :: ops => pushed ops end.
(** The changes made to one identifier, in order. *)
Fixpoint changes {T} (ops : list (tab_op T)) (id : Z) (x : T) : T :=
  match ops with
  | [] => x
  | TUpdate i f :: ops => changes ops id (if i =? id then f x else x)
  | _ :: ops => changes ops id x
  end.
(** Every update refers to an item that exists by then; [n] items exist at the start. *)
Fixpoint ids_valid {T} (n : Z) (ops : list (tab_op T)) : Prop :=
  match ops with
  | [] => True
  | TPush _ :: ops => ids_valid (n + 1) ops
  | TUpdate id _ :: ops => 0 <= id < n /\ ids_valid n ops
  end.
