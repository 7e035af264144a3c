(** Specification vocabulary: sequences of encoded items. *)
From Verif Require Export Iter_model.

(** [seq_of R post l data]: [data] is the concatenation of encodings of the items [l] (an item [x] is encoded by
    any [b] with [R x b]), followed by [post]. *)
Inductive seq_of {A} (R : A -> bytes -> Prop) (post : bytes) : list A -> bytes -> Prop :=
| so_nil : seq_of R post [] post
| so_cons x b l data : R x b -> seq_of R post l data -> seq_of R post (x :: l) (b ++ data).

(** [decodes R next]: what a user of an iterator over a byte cursor relies on.
    1. A sequence of encodings is decoded to its items, without error.
    2. On arbitrary data the iteration ends, without panic, with an empty cursor; the data was a sequence of
       encodings of what was returned, followed by nothing or, in case of an error, by something that does not
       start with an encoding of any item. *)
Definition decodes {A} (R : A -> bytes -> Prop) (next : bytes -> out (option A) * bytes) : Prop :=
  (forall l data, bytes_ok data -> seq_of R [] l data -> runs next data l false []) /\
  (forall data, bytes_ok data -> exists l e post, runs next data l e [] /\ seq_of R post l data /\
     if e then post <> [] /\ forall x b tl, post = b ++ tl -> ~ R x b else post = []).
