(** Shared vocabulary: sequencing of cursor operations and iteration. *)
From Verif Require Export Core_model.

(** [?] on a fallible operation that also updates a cursor or iterator: the updated state is kept on error. *)
Definition bs {A B S} (m : out A * S) (k : A -> S -> out B * S) : out B * S :=
  match m with
  | (Ok a, s) => k a s
  | (Err, s) => (Err, s)
  | (Panic, s) => (Panic, s)
  end.
Notation "'do' x , s <- m ;; k" := (bs m (fun x s => k))
  (at level 200, x name, s name, m at level 100, k at level 200, only parsing).

(** The behaviour of a caller that calls [next] until it returns [None] (last component false) or [Err]
    (last component true): [runs next st items err st'].  There is no such run if [next] panics or never ends. *)
Inductive runs {S A} (next : S -> out (option A) * S) : S -> list A -> bool -> S -> Prop :=
| runs_done st st' : next st = (Ok None, st') -> runs next st [] false st'
| runs_err st st' : next st = (Err, st') -> runs next st [] true st'
| runs_more st st1 st' x l e : next st = (Ok (Some x), st1) -> runs next st1 l e st' -> runs next st (x :: l) e st'.

(** The common shape of the iterators over a [Bytes] cursor: [next] returns [None] when no data is left, and a
    parse error empties the data.  (Each use cites the [next] method that has this shape.) *)
Definition seq_next {A} (parse : bytes -> out A * bytes) (data : bytes) : out (option A) * bytes :=
  match data with
  | [] => (Ok None, [])
  | _ => match parse data with
         | (Ok x, data) => (Ok (Some x), data)
         | (Err, _) => (Err, [])
         | (Panic, data) => (Panic, data)
         end
  end.
