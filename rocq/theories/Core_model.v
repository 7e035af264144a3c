(** Model of the byte-level core: endian conversion, alignment, [ReadRef] for slices,
    the [Bytes] cursor, LEB128.  Definitions only. *)
From Verif Require Export Base.

(** * Endian: src/endian.rs 14-157 (trait Endian), 166-202 (Endianness) *)

(** src/endian.rs 166-172 [enum Endianness] (LittleEndian/BigEndian, 204-249, are its two values). *)
Inductive endian := Little | Big.
(** src/endian.rs 199-201 [is_big_endian] *)
Definition is_big (e : endian) : bool := match e with Little => false | Big => true end.
(** src/endian.rs 190-197 [Endianness::from_big_endian] *)
Definition from_big_endian (b : bool) : endian := if b then Big else Little.

(** Rust std [uN::to_le_bytes], used by src/endian.rs 104-130. *)
Fixpoint le_bytes (n : nat) (v : Z) : bytes :=
  match n with O => [] | S n => v mod 256 :: le_bytes n (v / 256) end.
(** Rust std [uN::from_le_bytes], used by src/endian.rs 42-70. *)
Fixpoint le_val (l : bytes) : Z :=
  match l with [] => 0 | b :: l => b + 256 * le_val l end.
(** Rust std [uN::to_be_bytes] / [uN::from_be_bytes]. *)
Definition be_bytes (n : nat) (v : Z) : bytes := rev (le_bytes n v).
Definition be_val (l : bytes) : Z := le_val (rev l).

(** src/endian.rs 102-130 [write_u16/u32/u64] (n = 2, 4, 8), also [U16::new] etc. *)
Definition write_u (e : endian) (n : nat) (v : Z) : bytes :=
  if is_big e then be_bytes n v else le_bytes n v.
(** src/endian.rs 40-70 [read_u16/u32/u64], also [U16::get] etc. *)
Definition read_u (e : endian) (l : bytes) : Z :=
  if is_big e then be_val l else le_val l.
(** src/endian.rs 132-156 [write_i16/i32/i64]: two's complement of width n bytes *)
Definition write_i (e : endian) (n : nat) (v : Z) : bytes :=
  write_u e n (wrap_u (8 * Z.of_nat n) v).
(** src/endian.rs 72-100 [read_i16/i32/i64] *)
Definition read_i (e : endian) (l : bytes) : Z :=
  wrap_s (8 * zlen l) (read_u e l).

(** * Alignment *)
(** src/write/util.rs 353-355 [align] (bits=64), 348-350 [align_u32] (bits=32),
    src/read/util.rs 255-257 [align] (usize, bits=64).  [size - 1] panics for size 0 and
    [offset + ..] on overflow (debug builds); [!x] is the bitwise complement. *)
Definition align (bits offset size : Z) : out Z :=
  s <- psub size 1 ;;
  x <- padd bits offset s ;;
  Ok (Z.land x (2 ^ bits - 1 - s)).

(** * ReadRef for &[u8] : src/read/read_ref.rs 127-154 (usize is 64 bits, so the
    [try_into] conversions u64 -> usize never fail) *)
(** 132-140 *)
Definition rr_read_bytes_at (data : bytes) (offset size : Z) : out bytes :=
  if size =? 0 then Ok [] else
  tl <- of_opt (get_from data offset) ;;
  of_opt (get_to tl size).
(** 142-153 *)
Definition rr_read_bytes_at_until (data : bytes) (start fin : Z) (delim : Z) : out bytes :=
  bs <- of_opt (get_range data start fin) ;;
  match memchr delim bs with
  | Some n => of_opt (get_to bs n)
  | None => Err
  end.
(** 69-73 [read_bytes]: the second component is the updated [*offset]. *)
Definition rr_read_bytes (data : bytes) (offset size : Z) : out bytes * Z :=
  match rr_read_bytes_at data offset size with
  | Ok b => (Ok b, wrap_u 64 (offset + size))
  | e => (e, offset)
  end.
(** src/pod.rs 33-45 [from_bytes] for a type of [size] bytes and alignment 1
    (true of every Pod type defined by this crate); a value is represented by its bytes. *)
Definition from_bytes (data : bytes) (size : Z) : out (bytes * bytes) :=
  tl <- of_opt (get_from data size) ;;
  Ok (ztake size data, tl).
(** The value of a Rust slice [&[T]] is represented by the list of the elements' bytes. *)
Fixpoint chunks (size : Z) (count : nat) (l : bytes) : list bytes :=
  match count with
  | O => []
  | S n => ztake size l :: chunks size n (zdrop size l)
  end.
(** src/pod.rs 76-89 [slice_from_bytes] *)
Definition slice_from_bytes (data : bytes) (size count : Z) : out (list bytes * bytes) :=
  n <- of_opt (cmul 64 count size) ;;
  tl <- of_opt (get_from data n) ;;
  Ok (chunks size (Z.to_nat count) data, tl).
(** src/pod.rs 128-135 [slice_from_all_bytes]; [size] is nonzero (a const assertion). *)
Definition slice_from_all_bytes (data : bytes) (size : Z) : out (list bytes) :=
  '(s, tl) <- slice_from_bytes data size (zlen data / size) ;;
  match tl with [] => Ok s | _ => Err end.
(** src/read/read_ref.rs 85-90 [read] *)
Definition rr_read (data : bytes) (offset size : Z) : out bytes * Z :=
  match rr_read_bytes data offset size with
  | (Ok b, o) => (match from_bytes b size with Ok (t, _) => Ok t | Err => Err | Panic => Panic end, o)
  | r => r
  end.
(** 97-99 [read_at] *)
Definition rr_read_at (data : bytes) (offset size : Z) : out bytes := fst (rr_read data offset size).
(** 106-115 [read_slice] *)
Definition rr_read_slice (data : bytes) (offset size count : Z) : out (list bytes) * Z :=
  match cmul 64 count size with
  | None => (Err, offset)
  | Some n =>
    match rr_read_bytes data offset n with
    | (Ok b, o) => (match slice_from_bytes b size count with Ok (t, _) => Ok t | Err => Err | Panic => Panic end, o)
    | (Err, o) => (Err, o)
    | (Panic, o) => (Panic, o)
    end
  end.
(** 122-124 [read_slice_at] *)
Definition rr_read_slice_at (data : bytes) (offset size count : Z) : out (list bytes) :=
  fst (rr_read_slice data offset size count).

(** * StringTable (read side): src/read/util.rs 273-319 *)
(** 297-305 [get] *)
Definition strtab_get (data : option bytes) (start fin : Z) (offset : Z) : out bytes :=
  match data with
  | Some data =>
    r_start <- of_opt (cadd 64 start offset) ;;
    rr_read_bytes_at_until data r_start fin 0
  | None => Err
  end.

(** src/read/util.rs 260-269 [data_range] *)
Definition data_range (data : bytes) (data_address range_address size : Z) : option bytes :=
  match csub range_address data_address with
  | None => None
  | Some off =>
    match get_from data off with
    | None => None
    | Some tl => get_to tl size
    end
  end.

(** * The Bytes cursor: src/read/util.rs 25-213.
    A [&mut self] method maps the remaining bytes to a result and the new remaining bytes. *)
(** 44-55 *)
Definition b_skip (s : bytes) (offset : Z) : out unit * bytes :=
  match get_from s offset with
  | Some tl => (Ok tt, tl)
  | None => (Err, [])
  end.
(** 63-74 *)
Definition b_read_bytes (s : bytes) (count : Z) : out bytes * bytes :=
  match get_to s count, get_from s count with
  | Some hd, Some tl => (Ok hd, tl)
  | _, _ => (Err, [])
  end.
(** 80-83 (takes self by value) *)
Definition b_read_bytes_at (s : bytes) (offset count : Z) : out bytes :=
  match b_skip s offset with
  | (Ok _, s) => fst (b_read_bytes s count)
  | (Err, _) => Err
  | (Panic, _) => Panic
  end.
(** 91-102; the value is represented by its bytes *)
Definition b_read (s : bytes) (size : Z) : out bytes * bytes :=
  match from_bytes s size with
  | Ok (v, tl) => (Ok v, tl)
  | _ => (Err, [])
  end.
(** 108-111 *)
Definition b_read_at (s : bytes) (offset size : Z) : out bytes :=
  match b_skip s offset with
  | (Ok _, s) => fst (b_read s size)
  | (Err, _) => Err
  | (Panic, _) => Panic
  end.
(** 119-130 *)
Definition b_read_slice (s : bytes) (size count : Z) : out (list bytes) * bytes :=
  match slice_from_bytes s size count with
  | Ok (v, tl) => (Ok v, tl)
  | _ => (Err, [])
  end.
(** 136-139 *)
Definition b_read_slice_at (s : bytes) (offset size count : Z) : out (list bytes) :=
  match b_skip s offset with
  | (Ok _, s) => fst (b_read_slice s size count)
  | (Err, _) => Err
  | (Panic, _) => Panic
  end.
(** 146-159 *)
Definition b_read_string (s : bytes) : out bytes * bytes :=
  match memchr 0 s with
  | Some null =>
    match b_read_bytes s null with
    | (Ok bs, s1) =>
      match b_skip s1 1 with
      | (Ok _, s2) => (Ok bs, s2)
      | (_, s2) => (Err, s2)
      end
    | (_, s1) => (Err, s1)
    end
  | None => (Err, [])
  end.
(** 165-168 *)
Definition b_read_string_at (s : bytes) (offset : Z) : out bytes :=
  match b_skip s offset with
  | (Ok _, s) => fst (b_read_string s)
  | (Err, _) => Err
  | (Panic, _) => Panic
  end.

(** * LEB128 *)
(** src/read/util.rs 171-187 [read_uleb128].  The loop consumes one byte per iteration,
    so it is structural in the remaining bytes.  [<<] by 64 or more panics in debug builds. *)
Fixpoint read_uleb128_loop (s : bytes) (result shift : Z) : out Z * bytes :=
  match s with
  | [] => (Err, [])
  | byte :: tl =>
    if (shift =? 63) && negb (byte =? 0) && negb (byte =? 1) then (Err, tl)
    else if 64 <=? shift then (Panic, tl)
    else
      let result := Z.lor result (wrap_u 64 (Z.shiftl (Z.land byte 127) shift)) in
      if Z.land byte 128 =? 0 then (Ok result, tl)
      else read_uleb128_loop tl result (shift + 7)
  end.
Definition read_uleb128 (s : bytes) : out Z * bytes := read_uleb128_loop s 0 0.

(** src/read/util.rs 190-212 [read_sleb128]; i64 arithmetic. *)
Fixpoint read_sleb128_loop (s : bytes) (result shift : Z) : out Z * bytes :=
  match s with
  | [] => (Err, [])
  | byte :: tl =>
    if (shift =? 63) && negb (byte =? 0) && negb (byte =? 127) then (Err, tl)
    else if 64 <=? shift then (Panic, tl)
    else
      let result := Z.lor result (wrap_s 64 (Z.shiftl (Z.land byte 127) shift)) in
      let shift := shift + 7 in
      if Z.land byte 128 =? 0 then
        if (shift <? 64) && negb (Z.land byte 64 =? 0)
        then (Ok (Z.lor result (wrap_s 64 (Z.shiftl (-1) shift))), tl)
        else (Ok result, tl)
      else read_sleb128_loop tl result shift
  end.
Definition read_sleb128 (s : bytes) : out Z * bytes := read_sleb128_loop s 0 0.

(** src/write/util.rs 300-317 [write_uleb128]: returns the bytes pushed; the returned length is
    their number.  [fuel] bounds the loop; running out of fuel is [None] (shown impossible
    with fuel 10). *)
Fixpoint write_uleb128_loop (fuel : nat) (val : Z) : option bytes :=
  match fuel with
  | O => None
  | S fuel =>
    let byte := Z.land val 127 in
    let val := Z.shiftr val 7 in
    let done := val =? 0 in
    if done then Some [byte]
    else match write_uleb128_loop fuel val with
         | Some r => Some (Z.lor byte 128 :: r)
         | None => None
         end
  end.
Definition write_uleb128 (buf : bytes) (val : Z) : option (bytes * Z) :=
  match write_uleb128_loop 10 val with
  | Some e => Some (buf ++ e, zlen e)
  | None => None
  end.

(** src/write/util.rs 323-345 [write_sleb128]; [val as u8] is the low byte, [>>] on i64 is
    arithmetic, [byte &= !0x80] clears the top bit. *)
Fixpoint write_sleb128_loop (fuel : nat) (val : Z) : option bytes :=
  match fuel with
  | O => None
  | S fuel =>
    let byte := wrap_u 8 val in
    let val := Z.shiftr val 6 in
    let done := (val =? 0) || (val =? -1) in
    if done then Some [Z.land byte 127]
    else match write_sleb128_loop fuel (Z.shiftr val 1) with
         | Some r => Some (Z.lor byte 128 :: r)
         | None => None
         end
  end.
Definition write_sleb128 (buf : bytes) (val : Z) : option (bytes * Z) :=
  match write_sleb128_loop 10 val with
  | Some e => Some (buf ++ e, zlen e)
  | None => None
  end.
