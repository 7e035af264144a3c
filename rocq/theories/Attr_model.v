(** Model of the ELF attributes section: writer src/write/elf/encoder.rs 1355-1477, reader
    src/read/elf/attributes.rs.  Definitions only.  [debug_assert!] failures are [Panic]; [usize] is 64 bits. *)
From Verif Require Export Iter_model Hash_model.

(** * Writer *)
(** src/write/elf/encoder.rs 1355-1360 [AttributesWriter] (the endianness is a parameter) *)
Record aw := { aw_data : bytes; aw_sub : Z; aw_subsub : Z }.
(** 1364-1371 [new] *)
Definition aw_new : aw := {| aw_data := [65]; aw_sub := 0; aw_subsub := 0 |}.
(** 1373-1375 [offset]: [len as u32] *)
Definition aw_offset (w : aw) : Z := wrap_u 32 (zlen (aw_data w)).
Definition aw_assert (b : bool) : out unit := if b then Ok tt else Panic.
Definition aw_in_sub (w : aw) : bool := negb (aw_sub w =? 0).
Definition aw_in_subsub (w : aw) : bool := negb (aw_subsub w =? 0).
(** [data[off..][..b.len()].copy_from_slice(b)] *)
Definition aw_patch (data : bytes) (off : Z) (b : bytes) : out bytes :=
  if off + zlen b <=? zlen data then Ok (ztake off data ++ b ++ zdrop (off + zlen b) data) else Panic.
(** [write::write_uleb128(&mut self.data, v)] *)
Definition aw_uleb (data : bytes) (v : Z) : out bytes :=
  match write_uleb128 data v with Some (d, _) => Ok d | None => Panic end.

(** The public operations, as data. *)
Inductive aop :=
| OStartSub (vendor : bytes) | OEndSub | OStartSubsub (tag : Z) | OEndSubsub
| OIndex (i : Z) | OIndices (raw : bytes) | OTag (t : Z) | OInt (v : Z) | OStr (s : bytes) | ORaw (raw : bytes).
(** appends inside of a sub-subsection: 1411-1416, 1420-1425, 1428-1432, 1435-1439, 1444-1449, 1452-1456 *)
Definition aw_append (w : aw) (f : bytes -> out bytes) : out aw :=
  _u <- aw_assert (aw_in_sub w) ;;
  _u <- aw_assert (aw_in_subsub w) ;;
  d <- f (aw_data w) ;;
  Ok {| aw_data := d; aw_sub := aw_sub w; aw_subsub := aw_subsub w |}.
Definition aw_op (e : endian) (w : aw) (op : aop) : out aw :=
  match op with
  (* 1378-1385 start_subsection *)
  | OStartSub vendor =>
    _u <- aw_assert (aw_sub w =? 0) ;;
    _u <- aw_assert (aw_subsub w =? 0) ;;
    Ok {| aw_data := aw_data w ++ zeros 4 ++ vendor ++ [0]; aw_sub := aw_offset w; aw_subsub := aw_subsub w |}
  (* 1390-1397 end_subsection *)
  | OEndSub =>
    _u <- aw_assert (aw_in_sub w) ;;
    _u <- aw_assert (aw_subsub w =? 0) ;;
    length <- psub (aw_offset w) (aw_sub w) ;;
    d <- aw_patch (aw_data w) (aw_sub w) (write_u e 4 length) ;;
    Ok {| aw_data := d; aw_sub := 0; aw_subsub := aw_subsub w |}
  (* 1400-1406 start_subsubsection *)
  | OStartSubsub tag =>
    _u <- aw_assert (aw_in_sub w) ;;
    _u <- aw_assert (aw_subsub w =? 0) ;;
    Ok {| aw_data := aw_data w ++ [tag] ++ zeros 4; aw_sub := aw_sub w; aw_subsub := aw_offset w |}
  (* 1461-1468 end_subsubsection *)
  | OEndSubsub =>
    _u <- aw_assert (aw_in_sub w) ;;
    _u <- aw_assert (aw_in_subsub w) ;;
    length <- psub (aw_offset w) (aw_subsub w) ;;
    d <- aw_patch (aw_data w) (aw_subsub w + 1) (write_u e 4 length) ;;
    Ok {| aw_data := d; aw_sub := aw_sub w; aw_subsub := 0 |}
  | OIndex i => aw_append w (fun d => aw_uleb d i)
  | OIndices raw => aw_append w (fun d => Ok (d ++ raw ++ [0]))
  | OTag t => aw_append w (fun d => aw_uleb d t)
  | OInt v => aw_append w (fun d => aw_uleb d v)
  | OStr s => aw_append w (fun d => Ok (d ++ s ++ [0]))
  | ORaw raw => aw_append w (fun d => Ok (d ++ raw))
  end.
Fixpoint aw_run (e : endian) (ops : list aop) (w : aw) : out aw :=
  match ops with [] => Ok w | op :: ops => w <- aw_op e w op ;; aw_run e ops w end.
(** 1471-1476 [data] *)
Definition aw_finish (w : aw) : out bytes :=
  _u <- aw_assert (aw_sub w =? 0) ;;
  _u <- aw_assert (aw_subsub w =? 0) ;;
  _u <- aw_assert (zlen (aw_data w) <? 2 ^ 32 - 1) ;;
  Ok (aw_data w).
Definition aw_write (e : endian) (ops : list aop) : out bytes := w <- aw_run e ops aw_new ;; aw_finish w.

(** * Reader *)
(** src/read/elf/attributes.rs 26-38 [AttributesSection::new]: (version, data) *)
Definition attr_new (data : bytes) : Z * bytes :=
  match b_read data 1 with
  | (Ok b, d) => (read_u Little b, d)
  | (_, d) => (65, d)
  end.
(** 46-56 [subsections] *)
Definition attr_subsections (s : Z * bytes) : out bytes := if negb (fst s =? 65) then Err else Ok (snd s).
(** 124-129 [AttributesSubsection] *)
Record asub := { sb_length : Z; sb_vendor : bytes; sb_data : bytes }.
(** 80-108 [AttributesSubsectionIterator::parse] *)
Definition sub_parse (e : endian) (self : bytes) : out asub * bytes :=
  match b_read self 4 with
  | (Ok l, _) =>
    let length := read_u e l in
    do data, self <- b_read_bytes self length ;;
    match b_skip data 4 with
    | (Ok _, data) =>
      match b_read_string data with
      | (Ok vendor, data) => (Ok {| sb_length := length; sb_vendor := vendor; sb_data := data |}, self)
      | (Err, _) => (Err, self)
      | (Panic, _) => (Panic, self)
      end
    | (Err, _) => (Err, self)
    | (Panic, _) => (Panic, self)
    end
  | (Err, _) => (Err, self)
  | (Panic, _) => (Panic, self)
  end.
(** 68-78 [next]; the iterator starts at the data of [attr_subsections] *)
Definition sub_next (e : endian) := seq_next (sub_parse e).
(** 231-236 [AttributesSubsubsection] *)
Record asubsub := { ss_tag : Z; ss_length : Z; ss_indices : bytes; ss_data : bytes }.
(** 172-215 [AttributesSubsubsectionIterator::parse]; Tag_File, Tag_Section, Tag_Symbol are 1, 2, 3
    (src/elf.rs 7763-7767) *)
Definition subsub_parse (e : endian) (self : bytes) : out asubsub * bytes :=
  match b_read self 1 with
  | (Ok t, data) =>
    let tag := read_u Little t in
    match b_read data 4 with
    | (Ok l, _) =>
      let length := read_u e l in
      do data, self <- b_read_bytes self length ;;
      match b_skip data (1 + 4) with
      | (Ok _, data) =>
        if (tag =? 2) || (tag =? 3) then
          match b_read_string data with
          | (Ok ind, data) => (Ok {| ss_tag := tag; ss_length := length; ss_indices := ind; ss_data := data |}, self)
          | (Err, _) => (Err, self)
          | (Panic, _) => (Panic, self)
          end
        else if tag =? 1 then (Ok {| ss_tag := tag; ss_length := length; ss_indices := []; ss_data := data |}, self)
        else (Err, self)
      | (Err, _) => (Err, self)
      | (Panic, _) => (Panic, self)
      end
    | (Err, _) => (Err, self)
    | (Panic, _) => (Panic, self)
    end
  | (Err, _) => (Err, self)
  | (Panic, _) => (Panic, self)
  end.
(** 160-170 [next]; the iterator starts at [sb_data] (143-148) *)
Definition subsub_next (e : endian) := seq_next (subsub_parse e).
(** 294-302 [AttributeIndexIterator::parse] ([try_into] to u32), 282-292 [next]; starts at [ss_indices] (259-261) *)
Definition index_parse (self : bytes) : out Z * bytes :=
  do v, self <- read_uleb128 self ;; if v <? 2 ^ 32 then (Ok v, self) else (Err, self).
Definition index_next := seq_next index_parse.
(** 323-341 [AttributeReader]; starts at [ss_data] (269-271) *)
Definition ar_read_tag (self : bytes) : out (option Z) * bytes :=
  match self with [] => (Ok None, []) | _ => do v, self <- read_uleb128 self ;; (Ok (Some v), self) end.
Definition ar_read_integer (self : bytes) : out Z * bytes := read_uleb128 self.
Definition ar_read_string (self : bytes) : out bytes * bytes := b_read_string self.
