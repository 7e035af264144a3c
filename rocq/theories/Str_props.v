(** Property theorems C11, C12, C13 (src/write/string.rs). *)
From Verif Require Import Str_spec Str_proofs.

(** * C11 *)
(** Suffix-merging table.  [pre] is what the caller wrote before the table (its length is [base]); it ends in
    a null byte, or the empty string is not in the table.  Whatever is added, write fails only if the table
    does not fit in u32, returns the end of the data, and every id resolves to its string. *)
Theorem C11_merging : forall l pre, Forall str_ok l -> zlen l <= 2 ^ 32 ->
  (exists d, pre = d ++ [0]) \/ ~ In [] l ->
  exists ids t res w t',
    adds st_new l = (Ok ids, t) /\ st_write t (zlen pre) = (res, w, t') /\
    res = (if zlen pre + zlen w <? 2 ^ 32 then Ok (zlen pre + zlen w) else Err) /\
    (res <> Err -> Forall2 (resolves t' (pre ++ w)) l ids).
Proof. exact merge_resolves. Qed.
Print Assumptions C11_merging.

(** In-order table: also, the offsets are the ones known before write. *)
Theorem C11_in_order : forall l pre, Forall str_ok l -> zlen l <= 2 ^ 32 ->
  exists ids t res w t',
    adds (st_new_in_order (zlen pre)) l = (Ok ids, t) /\ st_write t (zlen pre) = (res, w, t') /\
    res = (if zlen pre + zlen w <? 2 ^ 32 then Ok (zlen pre + zlen w) else Err) /\
    (forall id, st_get_offset t' id = st_get_offset t id) /\
    (res <> Err -> Forall2 (resolves t' (pre ++ w)) l ids).
Proof. exact in_order_resolves. Qed.
Print Assumptions C11_in_order.

Theorem C11_write_once : forall l pre, Forall str_ok l -> l <> [] -> zlen l <= 2 ^ 32 ->
  (exists d, pre = d ++ [0]) \/ ~ In [] l ->
  forall ids t res w t', adds st_new l = (Ok ids, t) -> st_write t (zlen pre) = (res, w, t') ->
  forall base, st_write t' base = (Err, [], t').
Proof. exact merge_write_once. Qed.
Print Assumptions C11_write_once.

(** Without the hypothesis on [pre] the claim is false: with base 0, a table holding only the empty string
    makes write underflow (a panic in debug builds); and when [pre] does not end in a null byte the empty
    string resolves to garbage.  Of the callers in this crate, the ELF and
    Mach-O writers write a null byte first and the COFF writer adds only names longer than 8 bytes; the 64-bit
    XCOFF writer (src/write/xcoff.rs 314-323, 347) does add empty names with base 4, after the big-endian length
    word: an object whose only symbol names are empty gets a name offset 3, inside the length word. *)
Theorem C11_base_zero_panics_refuted : exists l ids t,
  Forall str_ok l /\ adds st_new l = (Ok ids, t) /\ fst (fst (st_write t 0)) = Panic.
Proof. exists [[]], [0]. eexists. ex. intros []. Qed.
Print Assumptions C11_base_zero_panics_refuted.
Theorem C11_base_not_null_refuted : exists l ids t w t',
  Forall str_ok l /\ adds st_new l = (Ok ids, t) /\ st_write t 4 = (Ok 4, w, t') /\
  st_get_offset t' 0 = Ok 3 /\ strtab_get (Some ([9;9;9;9] ++ w)) 0 4 3 = Err.
Proof. exists [[]], [0]. do 3 eexists. ex. intros []. Qed.
Print Assumptions C11_base_not_null_refuted.

Definition foo := [102;111;111].
Definition bar := [98;97;114].
Definition foobar := foo ++ bar.
Example C11_ex :
  let t := snd (adds st_new [[]; foo; bar; foobar; bar]) in
  let '(res, w, t') := st_write t 1 in
  fst (adds st_new [[]; foo; bar; foobar; bar]) = Ok [0; 1; 2; 3; 2] /\
  res = Ok 12 /\ w = foobar ++ [0] ++ foo ++ [0] /\ st_offsets t' = [11; 8; 4; 1] /\
  strtab_get (Some ([0] ++ w)) 0 12 4 = Ok bar.
Proof. ex. Qed.
Example C11_hyp : Forall str_ok [[]; foo; bar; foobar] /\ (exists d, [0] = d ++ [0]).
Proof. split; [|exists []; reflexivity]. repeat constructor; try lia; intro H; cbn in H; intuition lia. Qed.

(** * C12 *)
(** The data written is the concatenation of exactly the maximal strings, each once; [size()] predicts it. *)
Theorem C12_minimal_and_size : forall l pre, Forall str_ok l -> zlen l <= 2 ^ 32 ->
  (exists d, pre = d ++ [0]) \/ ~ In [] l ->
  exists ids t res ws t',
    adds st_new l = (Ok ids, t) /\ st_write t (zlen pre) = (res, cstrings ws, t') /\
    NoDup ws /\ (forall s, In s ws <-> maximal l s) /\
    st_table_size t (zlen pre) = Ok (zlen pre + zlen (cstrings ws)) /\
    (forall n, res = Ok n -> st_table_size t (zlen pre) = Ok n).
Proof. exact merge_minimal. Qed.
Print Assumptions C12_minimal_and_size.
Example C12_ex : st_table_size (snd (adds st_new [[]; foo; bar; foobar])) 1 = Ok 12 /\
  maximal [[]; foo; bar; foobar] foobar /\ ~ maximal [[]; foo; bar; foobar] bar.
Proof.
  split; [ex|]. split.
  - split; [right; right; right; left; reflexivity|]. split; [discriminate|].
    intros t [<-|[<-|[<-|[<-|[]]]]] [p Hp]; try reflexivity; apply (f_equal (@length Z)) in Hp;
      rewrite app_length in Hp; cbn in Hp; lia.
  - intros (_ & _ & H). specialize (H foobar). assert (foobar = bar); [|discriminate].
    apply H; [right; right; right; left; reflexivity|]. exists foo. reflexivity.
Qed.

(** * C13 *)
(** For both kinds of table: ids handed out are never changed by later adds; get_string and get_id invert
    each other on every string added so far; the table holds each string once. *)
Theorem C13_ids_stable : forall t0 l l', (t0 = st_new \/ exists b, t0 = st_new_in_order b) ->
  Forall str_ok (l ++ l') -> zlen (l ++ l') <= 2 ^ 32 ->
  exists ids ids' t t',
    adds t0 l = (Ok ids, t) /\ adds t0 (l ++ l') = (Ok (ids ++ ids'), t') /\
    Forall2 (fun s id => st_get_string t' id = Ok s /\ st_get_id t' s = Ok id /\
                         0 <= id < zlen (st_strings t')) (l ++ l') (ids ++ ids') /\
    NoDup (st_strings t') /\ (forall s, In s (st_strings t') <-> In s (l ++ l')).
Proof. exact ids_stable. Qed.
Print Assumptions C13_ids_stable.

Theorem C13_same_id_iff_equal : forall t0 l i j s s' id id' t ids,
  (t0 = st_new \/ exists b, t0 = st_new_in_order b) ->
  Forall str_ok l -> zlen l <= 2 ^ 32 -> adds t0 l = (Ok ids, t) ->
  zget l i = Some s -> zget l j = Some s' -> zget ids i = Some id -> zget ids j = Some id' ->
  (id = id' <-> s = s').
Proof. exact ids_equal_iff. Qed.
Print Assumptions C13_same_id_iff_equal.
Example C13_ex : fst (adds (st_new_in_order 1) [foo; bar; foo]) = Ok [0; 1; 0].
Proof. ex. Qed.
