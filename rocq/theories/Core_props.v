(** Property theorems C01, C02, C03, C07, C08, C09, C10. *)
From Verif Require Import Core_spec Core_proofs.

(** * C01 *)
(** [read_bytes_at(offset, size)] succeeds with [b] iff either size is 0 (empty result) or
    [b] is exactly the [size] bytes stored at [offset] (no wrap-around: [is_slice] is about
    the mathematical offset).  It never panics. *)
Theorem C01_read_bytes_at : forall data off size b, u64_ok off -> u64_ok size ->
  rr_read_bytes_at data off size = Ok b <->
  (size = 0 /\ b = []) \/ (0 < size /\ is_slice data off b /\ zlen b = size).
Proof. exact read_bytes_at_exact. Qed.
Print Assumptions C01_read_bytes_at.

Theorem C01_no_panic : forall data off size, rr_read_bytes_at data off size <> Panic.
Proof. exact rr_read_bytes_at_no_panic. Qed.
Print Assumptions C01_no_panic.

(** The cursor variant: same result; the offset advances by [size] (mod 2^64) exactly on success. *)
Theorem C01_cursor : forall data off size r off', u64_ok off -> u64_ok size ->
  rr_read_bytes data off size = (r, off') ->
  r = rr_read_bytes_at data off size /\
  off' = match r with Ok _ => (off + size) mod 2 ^ 64 | _ => off end.
Proof. exact read_bytes_cursor. Qed.
Print Assumptions C01_cursor.

(** Typed slices: [count] items of [size] bytes that are consecutive in the file. *)
Theorem C01_read_slice_at : forall data off size count cs,
  u64_ok off -> 0 < size -> 0 <= count -> count * size < 2 ^ 64 ->
  rr_read_slice_at data off size count = Ok cs <->
  (zlen cs = count /\ Forall (fun c => zlen c = size) cs /\
   (count = 0 \/ is_slice data off (concat cs))).
Proof. exact rr_read_slice_exact. Qed.
Print Assumptions C01_read_slice_at.

(** Address based sub-range ([ObjectSection::data_range] and friends). *)
Theorem C01_data_range : forall data base addr size b, 0 <= base -> 0 <= addr -> 0 <= size ->
  data_range data base addr size = Some b <->
  (is_slice data (addr - base) b /\ zlen b = size).
Proof. exact data_range_exact. Qed.
Print Assumptions C01_data_range.

Example C01_ex :
  rr_read_bytes_at [1;2;3;4] 1 2 = Ok [2;3] /\ rr_read_bytes_at [1;2;3;4] (2^64-1) 2 = Err /\
  rr_read_bytes_at [1;2;3;4] (2^64-1) 0 = Ok [] /\ rr_read_bytes [1;2;3;4] 2 2 = (Ok [3;4], 4) /\
  rr_read_slice_at [1;2;3;4;5] 1 2 2 = Ok [[2;3];[4;5]] /\ rr_read_slice_at [1;2] 0 8 (2^61) = Err /\
  data_range [1;2;3] 100 101 2 = Some [2;3].
Proof. vm_compute. repeat split. Qed.

(** * C02 *)
Theorem C02_read_bytes_at_until : forall data start fin d b, u64_ok start ->
  rr_read_bytes_at_until data start fin d = Ok b <->
  (exists post, is_slice data start (b ++ d :: post) /\
     start + zlen b < fin <= zlen data /\ ~ In d b).
Proof. exact until_exact. Qed.
Print Assumptions C02_read_bytes_at_until.

Theorem C02_string_table_get : forall data start fin off b, u64_ok start -> u32_ok off ->
  strtab_get (Some data) start fin off = Ok b <->
  start + off < 2 ^ 64 /\
  (exists post, is_slice data (start + off) (b ++ 0 :: post) /\
     start + off + zlen b < fin <= zlen data /\ ~ In 0 b).
Proof. exact strtab_get_exact. Qed.
Print Assumptions C02_string_table_get.

Theorem C02_no_panic : forall data dopt start fin d off,
  rr_read_bytes_at_until data start fin d <> Panic /\ strtab_get dopt start fin off <> Panic.
Proof. intros; split; [exact (rr_until_no_panic _ _ _ _)|exact (strtab_get_no_panic _ _ _ _)]. Qed.
Print Assumptions C02_no_panic.

Example C02_ex :
  rr_read_bytes_at_until [9;97;98;0;0] 1 4 0 = Ok [97;98] /\
  rr_read_bytes_at_until [9;97;98;0;0] 1 3 0 = Err /\
  rr_read_bytes_at_until [9;97;98;0;0] 3 6 0 = Err /\
  strtab_get (Some [9;0;97;0]) 1 4 1 = Ok [97] /\ strtab_get (Some [9;0;97;0]) 1 4 0 = Ok [].
Proof. vm_compute. repeat split. Qed.

(** * C03 *)
(** Any sequence of successful cursor operations partitions the data: operation i consumed
    [pieces_i], and the cursor is left at exactly the rest. *)
Theorem C03_partition : forall ops, Forall bop_ok ops -> forall s vs rest,
  bytes_ok s -> run_bops ops s = (Ok vs, rest) ->
  exists pieces, s = concat pieces ++ rest /\ Forall3 piece_of ops vs pieces.
Proof. exact run_bops_ok. Qed.
Print Assumptions C03_partition.

(** A failed operation leaves the cursor empty; the LEB128 readers may instead stop
    just after the byte that overflowed, never going backwards. *)
Theorem C03_failure : forall op s s', bytes_ok s -> bop_ok op -> run_bop op s = (Err, s') ->
  match op with BUleb | BSleb => exists pre, s = pre ++ s' | _ => s' = [] end.
Proof. exact run_bop_fail. Qed.
Print Assumptions C03_failure.

Theorem C03_no_panic : forall ops, Forall bop_ok ops -> forall s, bytes_ok s ->
  fst (run_bops ops s) <> Panic.
Proof. exact run_bops_no_panic. Qed.
Print Assumptions C03_no_panic.

(** When each operation fails (with usize arguments). *)
Theorem C03_fails_only_when_short : forall s n size count,
  0 <= n -> 0 <= size -> 0 <= count ->
  (fst (b_skip s n) = Err <-> zlen s < n) /\
  (fst (b_read_bytes s n) = Err <-> zlen s < n) /\
  (fst (b_read s n) = Err <-> zlen s < n) /\
  (fst (b_read_slice s size count) = Err <-> zlen s < count * size \/ 2 ^ 64 <= count * size) /\
  (fst (b_read_string s) = Err <-> ~ In 0 s).
Proof. exact b_fail_iff. Qed.
Print Assumptions C03_fails_only_when_short.

Example C03_ex :
  run_bops [BReadString; BUleb; BRead 2; BReadSlice 2 1; BSkip 1] [65;0;229;142;38;1;2;3;4;5;6]
    = (Ok [VBytes [65]; VNum 624485; VBytes [1;2]; VSlice [[3;4]]; VUnit], [6]) /\
  run_bop (BRead 4) [1;2] = (Err, []) /\
  run_bop BUleb [255;255;255;255;255;255;255;255;255;2;7] = (Err, [7]).
Proof. vm_compute. repeat split. Qed.

(** * C07 *)
(** The decoder accepts exactly the terminated encodings of at most 10 bytes whose value
    fits in u64, returns the mathematical value and leaves exactly what follows. *)
Theorem C07_decode_exact : forall s v rest, bytes_ok s ->
  read_uleb128 s = (Ok v, rest) <->
  exists enc, s = enc ++ rest /\ uleb_denotes enc v /\ zlen enc <= 10 /\ v < 2 ^ 64.
Proof. exact read_uleb128_iff. Qed.
Print Assumptions C07_decode_exact.

Theorem C07_no_panic : forall s, bytes_ok s -> fst (read_uleb128 s) <> Panic.
Proof. exact read_uleb128_no_panic. Qed.
Print Assumptions C07_no_panic.

(** The writer appends one encoding, returns its length, the decoder inverts it whatever follows,
    and no encoding of the value is shorter. *)
Theorem C07_roundtrip : forall v, 0 <= v < 2 ^ 64 -> exists enc,
  (forall buf, write_uleb128 buf v = Some (buf ++ enc, zlen enc)) /\
  bytes_ok enc /\ 1 <= zlen enc <= 10 /\
  (forall rest, bytes_ok rest -> read_uleb128 (enc ++ rest) = (Ok v, rest)) /\
  (forall enc', uleb_denotes enc' v -> zlen enc <= zlen enc').
Proof. exact uleb_roundtrip. Qed.
Print Assumptions C07_roundtrip.

Example C07_ex :
  write_uleb128 [7] 624485 = Some ([7;229;142;38], 3) /\
  read_uleb128 [229;142;38;9] = (Ok 624485, [9]) /\
  read_uleb128 [255;255;255;255;255;255;255;255;255;1] = (Ok (2^64-1), []) /\
  fst (read_uleb128 [255;255;255;255;255;255;255;255;255;2]) = Err /\
  fst (read_uleb128 [128;128]) = Err.
Proof. vm_compute. repeat split. Qed.

(** * C08 *)
Theorem C08_decode_exact : forall s v rest, bytes_ok s ->
  read_sleb128 s = (Ok v, rest) <->
  exists enc, s = enc ++ rest /\ sleb_denotes enc v /\ zlen enc <= 10 /\ - 2 ^ 63 <= v < 2 ^ 63.
Proof. exact read_sleb128_iff. Qed.
Print Assumptions C08_decode_exact.

Theorem C08_no_panic : forall s, bytes_ok s -> fst (read_sleb128 s) <> Panic.
Proof. exact read_sleb128_no_panic. Qed.
Print Assumptions C08_no_panic.

Theorem C08_roundtrip : forall v, - 2 ^ 63 <= v < 2 ^ 63 -> exists enc,
  (forall buf, write_sleb128 buf v = Some (buf ++ enc, zlen enc)) /\
  bytes_ok enc /\ 1 <= zlen enc <= 10 /\
  (forall rest, bytes_ok rest -> read_sleb128 (enc ++ rest) = (Ok v, rest)).
Proof. exact sleb_roundtrip. Qed.
Print Assumptions C08_roundtrip.

Example C08_ex :
  write_sleb128 [] (-123456) = Some ([192;187;120], 3) /\
  read_sleb128 [192;187;120;5] = (Ok (-123456), [5]) /\
  write_sleb128 [] (-2^63) = Some ([128;128;128;128;128;128;128;128;128;127], 10) /\
  fst (read_sleb128 [255;255;255;255;255;255;255;255;255;1]) = Err.
Proof. vm_compute. repeat split. Qed.

(** * C09  (n = 1, 2, 4, 8 bytes in the code; proved for every width) *)
Theorem C09_roundtrip : forall e n,
  (forall v, 0 <= v < 2 ^ (8 * Z.of_nat n) -> read_u e (write_u e n v) = v) /\
  (forall l, length l = n -> bytes_ok l -> write_u e n (read_u e l) = l) /\
  (forall v, (0 < n)%nat -> - 2 ^ (8 * Z.of_nat n - 1) <= v < 2 ^ (8 * Z.of_nat n - 1) ->
     read_i e (write_i e n v) = v) /\
  (forall l, (0 < n)%nat -> length l = n -> bytes_ok l -> write_i e n (read_i e l) = l).
Proof. exact endian_roundtrip. Qed.
Print Assumptions C09_roundtrip.

(** Byte i of a little endian number is its i-th base-256 digit; big endian counts from the other end. *)
Theorem C09_byte_order : forall n v i, 0 <= i < Z.of_nat n ->
  zget (write_u Little n v) i = Some (v / 256 ^ i mod 256) /\
  zget (write_u Big n v) i = Some (v / 256 ^ (Z.of_nat n - 1 - i) mod 256).
Proof. exact endian_order. Qed.
Print Assumptions C09_byte_order.

Theorem C09_reverse : forall n v l,
  write_u Big n v = rev (write_u Little n v) /\ read_u Big l = read_u Little (rev l).
Proof. exact endian_reverse. Qed.
Print Assumptions C09_reverse.

Example C09_ex : write_u Big 4 0x12345678 = [0x12;0x34;0x56;0x78] /\
  read_i Little (write_i Little 2 (-2)) = -2 /\ write_i Little 2 (-2) = [254;255].
Proof. vm_compute. repeat split. Qed.

(** * C10 *)
(** For a power of two [2^k] and any representable offset, [align] returns [r] iff [r] is the
    least multiple of [2^k] at or above [offset] and is representable; otherwise it panics. *)
Theorem C10_align : forall bits k offset, 0 <= k < bits -> 0 <= offset < 2 ^ bits ->
  align bits offset (2 ^ k) <> Err /\
  (forall r, align bits offset (2 ^ k) = Ok r <->
     ((2 ^ k | r) /\ offset <= r < offset + 2 ^ k /\ r < 2 ^ bits)).
Proof. exact align_exact. Qed.
Print Assumptions C10_align.

Example C10_ex : align 64 13 (2^3) = Ok 16 /\ align 64 16 8 = Ok 16 /\ align 32 (2^32-1) 4 = Panic.
Proof. vm_compute. repeat split. Qed.
