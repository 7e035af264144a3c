(** Model of src/build/table.rs ([Table]).  Definitions only.  [T] is the item type with its [is_deleted]. *)
From Verif Require Export Core_model Str_model.

(** 33-35 [new]; a table is its vector of items *)
Definition tab_new {T} : list T := [].
(** 39-41 [next_id] *)
Definition tab_next_id {T} (t : list T) : Z := zlen t.
(** 43-46 [push]; the caller builds the item with [next_id] *)
Definition tab_push {T} (t : list T) (x : T) : list T := t ++ [x].
(** 49-51 [len] *)
Definition tab_len {T} (t : list T) : Z := zlen t.
(** 64-66 [get] *)
Definition tab_get {T} (t : list T) (id : Z) : out T := unwrap (zget t id).
(** 69-71 [get_mut] followed by the assignment of [f item] *)
Definition tab_update {T} (t : list T) (id : Z) (f : T -> T) : out (list T) :=
  x <- unwrap (zget t id) ;; Ok (zset t id (f x)).
(** 112-114 [TableIter::next] (and 125-127 [TableIterMut::next]): the state is the rest of the slice *)
Fixpoint tab_iter_next {T} (deleted : T -> bool) (it : list T) : option T * list T :=
  match it with
  | [] => (None, [])
  | x :: it => if negb (deleted x) then (Some x, it) else tab_iter_next deleted it
  end.
(** Driving the iterator to its end; [fuel]: one more than the number of items suffices. *)
Fixpoint tab_drain {T} (deleted : T -> bool) (fuel : nat) (it : list T) : list T :=
  match fuel with
  | O => []
  | S fuel => match tab_iter_next deleted it with
              | (None, _) => []
              | (Some x, it) => x :: tab_drain deleted fuel it
              end
  end.
(** 74-76 [iter], run to the end *)
Definition tab_iter {T} (deleted : T -> bool) (t : list T) : list T := tab_drain deleted (S (length t)) t.
(** 54-56 [is_empty] *)
Definition tab_is_empty {T} (deleted : T -> bool) (t : list T) : bool :=
  match fst (tab_iter_next deleted t) with None => true | Some _ => false end.
(** 59-61 [count] *)
Definition tab_count {T} (deleted : T -> bool) (t : list T) : Z := zlen (tab_iter deleted t).
