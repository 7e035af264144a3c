(** Model of src/read/symbol_map.rs ([SymbolMap], [SymbolMapBuilder]).  Definitions only. *)
From Verif Require Export Core_model.

(** std slice::sort_by_key / sort_unstable on a total order: a stable insertion sort. *)
Fixpoint insert_by {T} (leb : T -> T -> bool) (x : T) (l : list T) : list T :=
  match l with
  | [] => [x]
  | y :: l => if leb x y then x :: y :: l else y :: insert_by leb x l
  end.
Fixpoint sort_by {T} (leb : T -> T -> bool) (l : list T) : list T :=
  match l with
  | [] => []
  | x :: l => insert_by leb x (sort_by leb l)
  end.

(** std [Result<usize, usize>] of slice::binary_search_by_key *)
Inductive found := Found (i : Z) | Missing (i : Z).

(** 34-37 [SymbolMap::new]; the map is its sorted vector of entries.  [address] is the entry type's method. *)
Definition sm_new {T} (address : T -> Z) (symbols : list T) : list T :=
  sort_by (fun x y => address x <=? address y) symbols.
(** 46-55 [before]; [bs keys key] is std's binary search, of which only its documented contract is assumed. *)
Definition sm_before {T} (bs : list Z -> Z -> found) (address : T -> Z) (m : list T) (a : Z) : option T :=
  match bs (map address m) a with
  | Found i => zget m i
  | Missing i => match csub i 1 with Some i => zget m i | None => None end
  end.
(** 58-62 [containing] *)
Definition sm_containing {T} (bs : list Z -> Z -> found) (address size : T -> Z) (m : list T) (a : Z) : option T :=
  match sm_before bs address m a with
  | Some e => if (size e =? 0) || (wrap_u 64 (a - address e) <? size e) then Some e else None
  | None => None
  end.

(** The methods of the abstract [Object] that the builder calls: per symbol is_definition, name (None: error),
    address, size, kind, scope, index and, for XCOFF flags, whether x_smtyp.typ() is XTY_LD. *)
Inductive skind := KText | KData | KUnknown | KOther.
Inductive sscope := ScUnknown | ScCompilation | ScLinkage | ScDynamic.
Record msym := {
  ms_def : bool; ms_name : option bytes; ms_address : Z; ms_size : Z;
  ms_kind : skind; ms_scope : sscope; ms_index : Z; ms_xcoff_label : option bool
}.
(** Sections are their (address, size). *)
Record mobj := {
  mo_symbols : option (list msym);
  mo_dynamic : option (list msym);
  mo_sections : list (Z * Z)
}.

(** 344-345: the tuple (address, priority, index, size, name) *)
Record mtuple := { mt_address : Z; mt_priority : Z; mt_index : Z; mt_size : Z; mt_name : bytes }.
Definition umax (bits : Z) := 2 ^ bits - 1.
(** 324, 351: an end marker *)
Definition mt_end (address : Z) : mtuple :=
  {| mt_address := address; mt_priority := umax 32; mt_index := umax 64; mt_size := umax 64; mt_name := [] |}.

(** 306-339: priority (None: [continue]) *)
Definition ms_priority (s : msym) : option Z :=
  match (match ms_kind s with KText | KData => Some 0 | KUnknown => Some 1 | KOther => None end) with
  | None => None
  | Some p =>
    let p := p * 2 in
    let p := match ms_xcoff_label s with Some l => p + (if l then 0 else 1) | None => p end in
    let p := p * 2 in
    let p := p + (if ms_size s =? 0 then 1 else 0) in
    let p := p * 4 in
    Some (p + match ms_scope s with ScUnknown => 3 | ScCompilation => 2 | ScLinkage => 1 | ScDynamic => 0 end)
  end.

(** 290-346: what one symbol pushes *)
Definition ms_tuples (s : msym) : list mtuple :=
  if negb (ms_def s) then [] else
  match ms_name s with
  | None => []
  | Some [] => []
  | Some name =>
    match ms_priority s with
    | None => []
    | Some p =>
      (match ms_xcoff_label s with
       | Some _ => if ms_size s =? 0 then [] else [mt_end (sadd 64 (ms_address s) (ms_size s))]
       | None => []
       end) ++
      [{| mt_address := ms_address s; mt_priority := p; mt_index := umax 64 - ms_index s;
          mt_size := ms_size s; mt_name := name |}]
    end
  end.

(** derived Ord of [u8] strings and of tuples: lexicographic *)
Fixpoint bytes_leb (a b : bytes) : bool :=
  match a, b with
  | [], _ => true
  | _ :: _, [] => false
  | x :: a, y :: b => if x <? y then true else if y <? x then false else bytes_leb a b
  end.
Definition lex_leb (x y : Z) (rest : bool) : bool := if x <? y then true else if y <? x then false else rest.
Definition mt_leb (a b : mtuple) : bool :=
  lex_leb (mt_address a) (mt_address b)
  (lex_leb (mt_priority a) (mt_priority b)
  (lex_leb (mt_index a) (mt_index b)
  (lex_leb (mt_size a) (mt_size b) (bytes_leb (mt_name a) (mt_name b))))).

(** 73-77 [SymbolMapName] *)
Record mname := { mn_address : Z; mn_size : Z; mn_name : bytes }.

(** 357-363 *)
Fixpoint mb_dedup (l : list mtuple) (previous_address : Z) : list mname :=
  match l with
  | [] => []
  | t :: l =>
    if negb (mt_address t =? previous_address)
    then {| mn_address := mt_address t; mn_size := mt_size t; mn_name := mt_name t |} ::
         mb_dedup l (mt_address t)
    else mb_dedup l previous_address
  end.
(** 366-373: over the reversed entries *)
Fixpoint mb_guess (l : list mname) (previous_address : Z) : list mname :=
  match l with
  | [] => []
  | s :: l =>
    {| mn_address := mn_address s; mn_name := mn_name s;
       mn_size := if mn_size s =? 0 then ssub previous_address (mn_address s) else mn_size s |} ::
    mb_guess l (mn_address s)
  end.
Definition mb_sizes (l : list mname) : list mname :=
  match rev l with
  | [] => []
  | s :: r => rev (s :: mb_guess r (mn_address s))
  end.
(** 284-287: the table used *)
Definition mo_table (o : mobj) : option (list msym) :=
  match mo_symbols o with Some t => Some t | None => mo_dynamic o end.
(** 279-379 [build] *)
Definition mb_build (o : mobj) : list mname :=
  let symbols :=
    match mo_table o with
    | None => []
    | Some t =>
      let all := flat_map ms_tuples t ++ map (fun s => mt_end (sadd 64 (fst s) (snd s))) (mo_sections o) in
      let all := sort_by mt_leb all in
      filter (fun x => match mn_name x with [] => false | _ => true end) (mb_sizes (mb_dedup all (umax 64)))
    end in
  sm_new mn_address symbols.
