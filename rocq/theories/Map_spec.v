(** Specification vocabulary for symbol maps. *)
From Coq Require Export Sorting.Sorted Sorting.Permutation.
From Verif Require Export Core_spec Map_model.

(** std's documented contract of binary_search_by_key on a sorted slice. *)
Definition bs_contract (bs : list Z -> Z -> found) : Prop :=
  forall keys k, StronglySorted Z.le keys ->
  match bs keys k with
  | Found i => zget keys i = Some k
  | Missing i => 0 <= i <= zlen keys /\ Forall (fun x => x < k) (ztake i keys) /\
                 Forall (fun x => k < x) (zdrop i keys)
  end.

(** The symbols the builder considers: defined, named, text/data/unknown. *)
Definition candidate (o : mobj) (s : msym) (name : bytes) : Prop :=
  (exists t, (mo_symbols o = Some t \/ (mo_symbols o = None /\ mo_dynamic o = Some t)) /\ In s t) /\
  ms_def s = true /\ ms_name s = Some name /\ name <> [] /\
  (ms_kind s = KText \/ ms_kind s = KData \/ ms_kind s = KUnknown).

(** end address of a sized thing; stops at the top of the address space *)
Definition end_of (address size : Z) : Z := Z.min (address + size) (2 ^ 64 - 1).

(** Addresses that bound a symbol of unknown size: candidates, section ends, ends of sized XCOFF csects. *)
Definition bound (o : mobj) (x : Z) : Prop :=
  (exists s n, candidate o s n /\ x = ms_address s) \/
  (exists a sz, In (a, sz) (mo_sections o) /\ x = end_of a sz) \/
  (exists s n, candidate o s n /\ ms_xcoff_label s <> None /\ ms_size s <> 0 /\
     x = end_of (ms_address s) (ms_size s)).

(** Documented preferences, most important first; smaller is better: a known kind, an XCOFF label, a known
    size, the wider scope, the later symbol. *)
Definition rank (s : msym) : list Z :=
  [ match ms_kind s with KText | KData => 0 | _ => 1 end;
    match ms_xcoff_label s with Some false => 1 | _ => 0 end;
    if ms_size s =? 0 then 1 else 0;
    match ms_scope s with ScDynamic => 0 | ScLinkage => 1 | ScCompilation => 2 | ScUnknown => 3 end;
    - ms_index s ].
(** lexicographic comparison *)
Fixpoint lex_le (a b : list Z) : Prop :=
  match a, b with
  | x :: a, y :: b => x < y \/ (x = y /\ lex_le a b)
  | _, _ => True
  end.
Definition best (o : mobj) (s : msym) : Prop :=
  forall t n, candidate o t n -> ms_address t = ms_address s -> lex_le (rank s) (rank t).

(** The size recorded for [s]. *)
Definition guessed (o : mobj) (s : msym) (size : Z) : Prop :=
  (ms_size s <> 0 /\ size = ms_size s) \/
  (ms_size s = 0 /\ exists x, bound o x /\ ms_address s < x /\
     (forall y, bound o y -> ms_address s < y -> x <= y) /\ size = x - ms_address s) \/
  (ms_size s = 0 /\ (forall x, bound o x -> x <= ms_address s) /\ size = 0).

Definition msym_ok (s : msym) : Prop :=
  u64_ok (ms_address s) /\ u64_ok (ms_size s) /\ u64_ok (ms_index s).
Definition mobj_ok (o : mobj) : Prop :=
  (forall t, mo_symbols o = Some t \/ mo_dynamic o = Some t -> Forall msym_ok t /\ NoDup (map ms_index t)) /\
  Forall (fun s => u64_ok (fst s) /\ u64_ok (snd s)) (mo_sections o).
