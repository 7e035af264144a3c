(** Model of src/write/string.rs ([StringTable]).  Definitions only. *)
From Verif Require Export Core_model.

(** 14-24 [StringTable]; the IndexSet is its list of distinct strings in insertion order. *)
Record strtab := {
  st_strings : list bytes;
  st_offsets : list Z;
  st_size : Z;
  st_in_order : bool;
  st_base : Z
}.
(** 27-30 [new] *)
Definition st_new : strtab :=
  {| st_strings := []; st_offsets := []; st_size := 0; st_in_order := false; st_base := 0 |}.
(** 36-45 [new_in_order] *)
Definition st_new_in_order (base : Z) : strtab :=
  {| st_strings := []; st_offsets := []; st_size := base; st_in_order := true; st_base := base |}.

(** IndexSet::get_index_of *)
Fixpoint index_of (s : bytes) (l : list bytes) : option Z :=
  match l with
  | [] => None
  | x :: l => if bytes_eqb s x then Some 0 else
                match index_of s l with Some i => Some (i + 1) | None => None end
  end.
(** IndexSet::insert_full: (index, newly inserted?) and the set afterwards *)
Definition insert_full (s : bytes) (l : list bytes) : Z * bool * list bytes :=
  match index_of s l with
  | Some i => (i, false, l)
  | None => (zlen l, true, l ++ [s])
  end.
Definition has_null (s : bytes) : bool := existsb (fun b => b =? 0) s.

(** 60-69 [add]; the two debug_asserts panic (debug builds). *)
Definition st_add (t : strtab) (s : bytes) : out Z * strtab :=
  if negb (st_in_order t || match st_offsets t with [] => true | _ => false end) then (Panic, t)
  else if has_null s then (Panic, t)
  else
    let '(id, new, strings) := insert_full s (st_strings t) in
    if new && st_in_order t then
      (Ok (wrap_u 32 id),
       {| st_strings := strings; st_offsets := st_offsets t ++ [wrap_u 32 (st_size t)];
          st_size := st_size t + (zlen s + 1); st_in_order := st_in_order t; st_base := st_base t |})
    else
      (Ok (wrap_u 32 id),
       {| st_strings := strings; st_offsets := st_offsets t; st_size := st_size t;
          st_in_order := st_in_order t; st_base := st_base t |}).

(** 74-77 [get_id] *)
Definition st_get_id (t : strtab) (s : bytes) : out Z :=
  match index_of s (st_strings t) with Some i => Ok (wrap_u 32 i) | None => Panic end.
(** 82-84 [get_string] *)
Definition st_get_string (t : strtab) (id : Z) : out bytes := unwrap (zget (st_strings t) id).
(** 95-97 [get_offset] *)
Definition st_get_offset (t : strtab) (id : Z) : out Z := unwrap (zget (st_offsets t) id).
(** 102-107 [maybe_get_offset] *)
Definition st_maybe_get_offset (t : strtab) (id : option Z) : out Z :=
  match id with None => Ok 0 | Some id => st_get_offset t id end.

(** 253-263 [byte] *)
Definition st_byte (strings : list bytes) (id pos : Z) : out Z :=
  string <- unwrap (zget strings id) ;;
  let len := zlen string in
  if pos <=? len then unwrap (zget string (len - pos)) else Ok 0.

(** slice::swap *)
Definition zset {A} (l : list A) (i : Z) (x : A) : list A := ztake i l ++ x :: zdrop (i + 1) l.
Definition swap {A} (l : list A) (i j : Z) : out (list A) :=
  match zget l i, zget l j with
  | Some x, Some y => Ok (zset (zset l i y) j x)
  | _, _ => Panic
  end.

(** 224-236: the partition loop; [fuel] bounds the iterations ([upper - i] of them).
    Result: (ids, lower, upper). *)
Fixpoint part_loop (fuel : nat) (strings : list bytes) (pos pivot : Z) (ids : list Z) (lower i upper : Z)
  : out (list Z * Z * Z) :=
  match fuel with
  | O => if i <? upper then Panic else Ok (ids, lower, upper)
  | S fuel =>
    if i <? upper then
      id <- unwrap (zget ids i) ;;
      b <- st_byte strings id pos ;;
      if pivot <? b then
        ids <- swap ids lower i ;;
        part_loop fuel strings pos pivot ids (lower + 1) (i + 1) upper
      else if b <? pivot then
        ids <- swap ids (upper - 1) i ;;
        part_loop fuel strings pos pivot ids lower i (upper - 1)
      else part_loop fuel strings pos pivot ids lower (i + 1) upper
    else Ok (ids, lower, upper)
  end.

(** 214-251 [sort]: the tail loop is a recursive call on [ids[lower..upper]] with [pos + 1].
    [fuel] bounds the recursion depth; running out is [Panic] (shown unreachable for the fuel used). *)
Fixpoint st_sort (fuel : nat) (strings : list bytes) (ids : list Z) (pos : Z) : out (list Z) :=
  match fuel with
  | O => Panic
  | S fuel =>
    if zlen ids <=? 1 then Ok ids else
    id0 <- unwrap (zget ids 0) ;;
    pivot <- st_byte strings id0 pos ;;
    '(ids, lower, upper) <- part_loop (length ids) strings pos pivot ids 0 1 (zlen ids) ;;
    l <- st_sort fuel strings (ztake lower ids) pos ;;
    u <- st_sort fuel strings (zdrop upper ids) pos ;;
    let mid := zslice lower (upper - lower) ids in
    if pivot =? 0 then Ok (l ++ mid ++ u)
    else
      m <- st_sort fuel strings mid (pos + 1) ;;
      Ok (l ++ m ++ u)
  end.
Definition seqZ (n : nat) : list Z := map Z.of_nat (seq 0 n).
(** total length plus two per string: enough recursion depth *)
Definition sort_fuel (strings : list bytes) : nat :=
  S (fold_right (fun s n => (length s + 2 + n)%nat) 0%nat strings).

(** slice::ends_with *)
Definition ends_with (s suffix : bytes) : bool :=
  (zlen suffix <=? zlen s) && bytes_eqb (zdrop (zlen s - zlen suffix) s) suffix.

(** 145-160: the write loop.  Accumulates the bytes written, the offsets (by id) and the offset. *)
Fixpoint write_loop (strings : list bytes) (ids : list Z) (offset : Z) (previous : bytes)
    (offsets : list Z) (w : bytes) : out (list Z * bytes * Z) :=
  match ids with
  | [] => Ok (offsets, w, offset)
  | id :: ids =>
    string <- unwrap (zget strings id) ;;
    let len := zlen string + 1 in
    if ends_with previous string then
      o <- psub offset len ;;
      write_loop strings ids offset previous (zset offsets id (wrap_u 32 o)) w
    else
      write_loop strings ids (offset + len) string (zset offsets id (wrap_u 32 offset))
        (w ++ string ++ [0])
  end.

(** 123-161 [write]: the result, the bytes appended to [w], and the table afterwards. *)
Definition st_write (t : strtab) (base : Z) : out Z * bytes * strtab :=
  if negb (st_in_order t) && match st_offsets t with [] => false | _ => true end then (Err, [], t)
  else if existsb has_null (st_strings t) then (Err, [], t)
  else if st_in_order t then
    if st_base t =? base then
      (if st_size t <? 2 ^ 32 then Ok (st_size t) else Err,
       concat (map (fun s => s ++ [0]) (st_strings t)), t)
    else (Panic, [], t)
  else
    match st_sort (sort_fuel (st_strings t)) (st_strings t) (seqZ (length (st_strings t))) 1 with
    | Ok ids =>
      match write_loop (st_strings t) ids base [] (zeros (zlen ids)) [] with
      | Ok (offsets, w, offset) =>
        (if offset <? 2 ^ 32 then Ok offset else Err, w,
         {| st_strings := st_strings t; st_offsets := offsets; st_size := st_size t;
            st_in_order := st_in_order t; st_base := st_base t |})
      | _ => (Panic, [], t)
      end
    | _ => (Panic, [], t)
    end.

(** 190-200: the loop of [size] *)
Fixpoint size_loop (strings : list bytes) (ids : list Z) (size : Z) (previous : bytes) : out Z :=
  match ids with
  | [] => Ok size
  | id :: ids =>
    string <- unwrap (zget strings id) ;;
    if ends_with previous string then size_loop strings ids size previous
    else size_loop strings ids (size + (zlen string + 1)) string
  end.
(** 169-202 [size] *)
Definition st_table_size (t : strtab) (base : Z) : out Z :=
  if st_in_order t then (if st_base t =? base then Ok (st_size t) else Panic)
  else
    ids <- st_sort (sort_fuel (st_strings t)) (st_strings t) (seqZ (length (st_strings t))) 1 ;;
    size_loop (st_strings t) ids base [].
