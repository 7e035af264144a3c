(** Model of src/write/util.rs 1-294 (writable buffers).  Definitions only. *)
From Verif Require Export Core_model.

(** 14-34 trait WritableBuffer, as the record of its methods over the state of the implementing type.
    A method returns its result (unit for write_*, which can only panic) and the new state. *)
Record wbuf (S : Type) := {
  w_reserve : S -> Z -> out unit * S;
  w_write_bytes : S -> bytes -> out unit * S;
  w_write_zeros : S -> Z -> out unit * S
}.
Arguments w_reserve {S}.
Arguments w_write_bytes {S}.
Arguments w_write_zeros {S}.

(** 27-33 default [write_zeros]: chunks of at most 1024; [fuel] bounds the loop (out of fuel: Panic). *)
Fixpoint default_write_zeros {S} (wb : S -> bytes -> out unit * S) (fuel : nat) (s : S) (additional : Z)
  : out unit * S :=
  if 0 <? additional then
    match fuel with
    | O => (Panic, s)
    | Datatypes.S fuel =>
      let amt := Z.min additional 1024 in
      match wb s (zeros amt) with
      | (Ok _, s) => default_write_zeros wb fuel s (additional - amt)
      | r => r
      end
    end
  else (Ok tt, s).

(** 180-199 impl for Vec<u8>.  A length of 2^63 or more is a capacity overflow panic (std). *)
Definition vec_write_bytes (s : bytes) (val : bytes) : out unit * bytes :=
  if zlen s + zlen val <? 2 ^ 63 then (Ok tt, s ++ val) else (Panic, s).
Definition vec_wbuf : wbuf bytes := {|
  w_reserve := fun s size =>
    match s with
    | [] => if size <? 2 ^ 63 then (Ok tt, s) else (Panic, s)
    | _ => (Panic, s)  (* debug_assert!(self.is_empty()) *)
    end;
  w_write_bytes := vec_write_bytes;
  w_write_zeros := fun s n => if zlen s + n <? 2 ^ 63 then (Ok tt, s ++ zeros n) else (Panic, s)
|}.

(** 206-228 impl for &mut [u8]: the state is (bytes of the array already passed, remaining slice). *)
Definition slice_write (s : bytes * bytes) (val : bytes) : out unit * (bytes * bytes) :=
  let '(hd, tl) := s in
  if zlen val <=? zlen tl then (Ok tt, (hd ++ val, zdrop (zlen val) tl))
  else (Panic, (hd ++ tl, [])).
Definition slice_wbuf : wbuf (bytes * bytes) := {|
  w_reserve := fun s size => if zlen (snd s) <? size then (Err, s) else (Ok tt, s);
  w_write_bytes := slice_write;
  w_write_zeros := fun s n =>
    let '(hd, tl) := s in
    if n <=? zlen tl then (Ok tt, (hd ++ zeros n, zdrop n tl)) else (Panic, (hd ++ tl, []))
|}.

(** std::io::Write::write_all of an arbitrary writer: [sched] says for each call whether it fails (with
    which error code) and how many bytes got written before that; an exhausted schedule means success. *)
Record writer := { wr_out : bytes; wr_calls : list bytes; wr_sched : list (option (Z * Z)) }.
Definition write_all (w : writer) (val : bytes) : option Z * writer :=
  match wr_sched w with
  | [] => (None, {| wr_out := wr_out w ++ val; wr_calls := wr_calls w ++ [val]; wr_sched := [] |})
  | None :: l => (None, {| wr_out := wr_out w ++ val; wr_calls := wr_calls w ++ [val]; wr_sched := l |})
  | Some (e, k) :: l =>
    (Some e, {| wr_out := wr_out w ++ ztake k val; wr_calls := wr_calls w ++ [val]; wr_sched := l |})
  end.
(** 239-242 [StreamingBuffer]; [result] is [None] for Ok(()) and [Some e] for Err(e). *)
Record streaming := { s_writer : writer; s_result : option Z }.
(** 247-252 [new] *)
Definition streaming_new (w : writer) : streaming := {| s_writer := w; s_result := None |}.
(** 260-262 [result] *)
Definition streaming_result (s : streaming) : option Z * streaming :=
  (s_result s, {| s_writer := s_writer s; s_result := None |}).
(** 289-293 [write_bytes] *)
Definition streaming_write (s : streaming) (val : bytes) : out unit * streaming :=
  match s_result s with
  | None => let '(r, w) := write_all (s_writer s) val in (Ok tt, {| s_writer := w; s_result := r |})
  | Some _ => (Ok tt, s)
  end.
(** 282-294 impl WritableBuffer *)
Definition streaming_wbuf : wbuf streaming := {|
  w_reserve := fun s _ => (Ok tt, s);
  w_write_bytes := streaming_write;
  w_write_zeros := fun s n => default_write_zeros streaming_write (Z.to_nat n) s n
|}.

(** 112-115 [CountingBuffer<W>]: (buffer, count). *)
(** 127-129 [new] *)
Definition counting_new {S} (s : S) : S * Z := (s, 0).
(** 155-172 impl WritableBuffer for CountingBuffer *)
Definition counting_wbuf {S} (W : wbuf S) : wbuf (S * Z) := {|
  w_reserve := fun s size => let '(r, b) := w_reserve W (fst s) size in (r, (b, snd s));
  w_write_bytes := fun s val =>
    match w_write_bytes W (fst s) val with
    | (Ok _, b) => match padd 64 (snd s) (zlen val) with
                   | Ok c => (Ok tt, (b, c)) | _ => (Panic, (b, snd s)) end
    | (r, b) => (r, (b, snd s))
    end;
  w_write_zeros := fun s n =>
    match w_write_zeros W (fst s) n with
    | (Ok _, b) => match padd 64 (snd s) n with
                   | Ok c => (Ok tt, (b, c)) | _ => (Panic, (b, snd s)) end
    | (r, b) => (r, (b, snd s))
    end
|}.
(** 144-147 [resize] *)
Definition counting_resize {S} (W : wbuf S) (s : S * Z) (new_len : Z) : out unit * (S * Z) :=
  if new_len <? snd s then (Panic, s)  (* debug_assert!(new_len >= self.count) *)
  else w_write_zeros (counting_wbuf W) s (ssub new_len (snd s)).
(** 150-152 [write_align] *)
Definition counting_write_align {S} (W : wbuf S) (s : S * Z) (size : Z) : out unit * (S * Z) :=
  match align 64 (snd s) size with
  | Ok n => counting_resize W s n
  | Err => (Err, s)
  | Panic => (Panic, s)
  end.
