(** Specification vocabulary: exports tries. *)
From Verif Require Export Trie_model File_spec Core_spec.

(** an unsigned LEB128 number as it can be read: at most 10 bytes *)
Definition uleb_bytes (x : bytes) (v : Z) : Prop := uleb_denotes x v /\ zlen x <= 10 /\ v < 2 ^ 64.
(** A trie: a node has the terminal data of an export or not, and children with the strings that lead to them *)
Inductive trie := Node (e : option (Z * tdata)) (children : list (bytes * trie)).
(** Encoding of terminal data: flags (6 bits), then according to bits 3 and 4; more bytes may follow *)
Definition tdata_enc (e : Z * tdata) (b : bytes) : Prop :=
  exists x rest, b = x ++ rest /\ uleb_bytes x (fst e) /\ fst e < 64 /\
  match snd e with
  | TReexport o n => Z.testbit (fst e) 3 = true /\ exists y tl, rest = y ++ n ++ 0 :: tl /\ uleb_bytes y o /\ ~ In 0 n
  | TStub a b => Z.testbit (fst e) 3 = false /\ Z.testbit (fst e) 4 = true /\ exists y z tl, rest = y ++ z ++ tl /\ uleb_bytes y a /\ uleb_bytes z b
  | TRegular a => Z.testbit (fst e) 3 = false /\ Z.testbit (fst e) 4 = false /\ exists y tl, rest = y ++ tl /\ uleb_bytes y a
  end.
(** a node at an offset: size of the terminal data (0: none), the data, number of children, edges [d] *)
Definition node_head (D : bytes) (off : Z) (e : option (Z * tdata)) (n : Z) (d : bytes) : Prop :=
  exists pre x p, D = pre ++ x ++ p ++ n :: d /\ zlen pre = off /\ uleb_bytes x (zlen p) /\
  match e with None => p = [] | Some e => p <> [] /\ tdata_enc e p end.
(** [encodes D off t]: the data [D] has the trie [t] at offset [off].  An edge is a null terminated string and the offset of the child. *)
Inductive encodes (D : bytes) : Z -> trie -> Prop :=
| enc_node off e ch d : node_head D off e (zlen ch) d -> edges D d ch -> encodes D off (Node e ch)
with edges (D : bytes) : bytes -> list (bytes * trie) -> Prop :=
| edges_nil d : edges D d []
| edges_cons s x o t ch d : ~ In 0 s -> uleb_bytes x o -> encodes D o t -> edges D d ch -> edges D (s ++ 0 :: x ++ d) ((s, t) :: ch).
(** The exports of a trie, in pre-order: the name is the concatenation of the strings on the way *)
Fixpoint trie_exports (name : bytes) (t : trie) : list tsym :=
  let 'Node e ch := t in
  match e with Some (flags, x) => [{| ts_name := name; ts_flags := flags; ts_data := x |}] | None => [] end ++
  (fix go (l : list (bytes * trie)) : list tsym := match l with [] => [] | (s, t) :: l => trie_exports (name ++ s) t ++ go l end) ch.
