(** Exports tries: theorems *)
From Verif Require Import Core_proofs Util_proofs File_proofs Rel_proofs.
From Verif Require Import Trie_spec Trie_proofs TrieR_proofs.

(** Without an error, the iterator yields exactly the exports of the trie that the data encodes, in order, with full names: *)
Theorem C34_exports_exact D L : bytes_ok D -> zlen D < 2 ^ 63 ->
  (exists st', runs (exp_next D) node_new L false st') <-> exists t, encodes D 0 t /\ L = trie_exports [] t.
Proof.
  intros HD HL. destruct (exports_total D HD HL) as (l & e & st & R & H). split.
  - intros (st' & R'). destruct (runs_det _ _ _ _ _ R _ _ _ R') as (-> & -> & _). exact H.
  - intros (t & Ht & ->). destruct e; [destruct (H t Ht)|]. destruct H as (t' & Ht' & ->). rewrite (encodes_unique D HD HL 0 t Ht t' Ht'). exists st. exact R.
Qed.
Print Assumptions C34_exports_exact.
(** Over any data, even with cycles, the iteration ends: *)
Theorem C34_exports_terminate D : bytes_ok D -> zlen D < 2 ^ 63 -> exists L e st', runs (exp_next D) node_new L e st'.
Proof. intros HD HL. destruct (exports_total D HD HL) as (l & e & st & R & _). eauto. Qed.
Print Assumptions C34_exports_terminate.
(** and with an error exactly if there is no such trie: *)
Theorem C34_exports_error D : bytes_ok D -> zlen D < 2 ^ 63 ->
  (exists L st', runs (exp_next D) node_new L true st') <-> forall t, ~ encodes D 0 t.
Proof.
  intros HD HL. destruct (exports_total D HD HL) as (l & e & st & R & H). split.
  - intros (L & st' & R'). destruct (runs_det _ _ _ _ _ R _ _ _ R') as (_ & -> & _). exact H.
  - intro N. destruct e; [eauto|]. destruct H as (t & Ht & _). destruct (N t Ht).
Qed.
Print Assumptions C34_exports_error.
(** The data determine the trie *)
Theorem C34_trie_unique D t t' : bytes_ok D -> zlen D < 2 ^ 63 -> encodes D 0 t -> encodes D 0 t' -> t = t'.
Proof. intros HD HL H H'. exact (encodes_unique D HD HL 0 t H t' H'). Qed.
Print Assumptions C34_trie_unique.

(** An example: _a at 0x10, reexport of _ab, two paths that share a node; and a cycle *)
Definition ex_trie : bytes := [0; 2; 95; 97; 0; 12; 95; 98; 0; 27; 0; 0] ++ [2; 0; 16; 1; 98; 0; 20; 0] ++ [4; 8; 1; 120; 0; 0; 0] ++ [0; 1; 99; 0; 20].
Fixpoint texports (n : nat) (D : bytes) (st : nodeit) : list (option tsym) :=
  match n with O => [] | S n => match exp_next D st with (Ok (Some x), st) => Some x :: texports n D st | (Ok None, _) => [] | _ => [None] end end.
Example C34_ex : texports 10 ex_trie node_new =
  [Some {| ts_name := [95; 97]; ts_flags := 0; ts_data := TRegular 16 |}; Some {| ts_name := [95; 97; 98]; ts_flags := 8; ts_data := TReexport 1 [120] |};
   Some {| ts_name := [95; 98; 99]; ts_flags := 8; ts_data := TReexport 1 [120] |}].
Proof. vm_compute. reflexivity. Qed.
Example C34_ex_cycle : texports 10 [0; 1; 97; 0; 5; 2; 0; 7; 1; 98; 0; 0] node_new = [Some {| ts_name := [97]; ts_flags := 0; ts_data := TRegular 7 |}; None].
Proof. vm_compute. reflexivity. Qed.
(** and the trie that the example encodes *)
Definition ex_leaf : trie := Node (Some (8, TReexport 1 [120])) [].
Lemma uleb_byte v : 0 <= v < 128 -> uleb_bytes [v] v.
Proof. intro H. split; [|split; [vm_compute; congruence|lia]]. constructor. lia. Qed.
Example C34_ex_hyps : bytes_ok ex_trie /\ zlen ex_trie < 2 ^ 63 /\
  encodes ex_trie 0 (Node None [([95; 97], Node (Some (0, TRegular 16)) [([98], ex_leaf)]); ([95; 98], Node None [([99], ex_leaf)])]).
Proof.
  split; [apply bytes_ok_forallb; vm_compute; reflexivity|]. split; [vm_compute; reflexivity|].
  assert (leaf : encodes ex_trie 20 ex_leaf).
  { econstructor; [|constructor]. exists (ztake 20 ex_trie), [4], [8; 1; 120; 0]. split; [reflexivity|]. split; [reflexivity|]. split; [apply uleb_byte; vm_compute; split; congruence|]. split; [discriminate|].
    exists [8], [1; 120; 0]. split; [reflexivity|]. cbn [fst snd]. split; [apply uleb_byte; vm_compute; split; congruence|]. split; [lia|]. split; [reflexivity|]. exists [1], []. split; [reflexivity|]. split; [apply uleb_byte; vm_compute; split; congruence|]. intros [H|[]]; discriminate. }
  eapply enc_node with (d := zdrop 2 ex_trie).
  { exists [], [0], []. split; [reflexivity|]. split; [reflexivity|]. split; [apply uleb_byte; vm_compute; split; congruence|reflexivity]. }
  apply (edges_cons ex_trie [95; 97] [12] 12 _ _ (zdrop 6 ex_trie)); [intros [H|[H|[]]]; discriminate|apply uleb_byte; vm_compute; split; congruence| |].
  - eapply enc_node with (d := zdrop 16 ex_trie).
    { exists (ztake 12 ex_trie), [2], [0; 16]. split; [reflexivity|]. split; [reflexivity|]. split; [apply uleb_byte; vm_compute; split; congruence|]. split; [discriminate|]. exists [0], [16]. split; [reflexivity|]. cbn [fst snd]. split; [apply uleb_byte; vm_compute; split; congruence|]. split; [lia|]. split; [reflexivity|]. split; [reflexivity|]. exists [16], []. split; [reflexivity|apply uleb_byte; vm_compute; split; congruence]. }
    apply (edges_cons ex_trie [98] [20] 20 _ _ (zdrop 19 ex_trie)); [intros [H|[]]; discriminate|apply uleb_byte; vm_compute; split; congruence|exact leaf|constructor].
  - apply (edges_cons ex_trie [95; 98] [27] 27 _ _ (zdrop 10 ex_trie)); [intros [H|[H|[]]]; discriminate|apply uleb_byte; vm_compute; split; congruence| |constructor].
    eapply enc_node with (d := zdrop 29 ex_trie).
    { exists (ztake 27 ex_trie), [0], []. split; [reflexivity|]. split; [reflexivity|]. split; [apply uleb_byte; vm_compute; split; congruence|reflexivity]. }
    apply (edges_cons ex_trie [99] [20] 20 _ _ []); [intros [H|[]]; discriminate|apply uleb_byte; vm_compute; split; congruence|exact leaf|constructor].
Qed.
