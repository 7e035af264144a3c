(** Model of src/read/read_cache.rs: [ReadCache], [ReadCacheRange] over a [ReadCacheOps] reader.
    Definitions only. *)
From Verif Require Export Core_model.

(** The environment's answer to one I/O step (seek, read, read_exact, len, or the fallible
    allocation): it fails, or goes on; a successful [read] of a nonempty buffer before the end of the
    stream returns at least one byte and at most what fits ([n] is the number it would like to
    return).  Contract of std::io::Read::read as used by 222-239. *)
Inductive io := IoErr | IoRead (n : Z).

(** One I/O step consumes one answer of the schedule; an exhausted schedule is error free. *)
Definition next_io (sched : list io) : io * list io :=
  match sched with [] => (IoRead (2 ^ 64), []) | d :: sched => (d, sched) end.

(** 36-41 [ReadCacheInternal]; [contents] is what the stream holds (never modified), [sched] the
    remaining answers of the environment.  The stream position is not kept: every use seeks first. *)
Record cache := {
  contents : bytes;
  sched : list io;
  bufs : list (Z * Z * bytes);
  strings : list (Z * Z * bytes);
  clen : option Z
}.

Fixpoint lookup (k : Z * Z) (m : list (Z * Z * bytes)) : option bytes :=
  match m with
  | [] => None
  | (k', v) :: m =>
    if (fst k =? fst k') && (snd k =? snd k') then Some v else lookup k m
  end.

(** 67-77 [new] *)
Definition cache_new (c : bytes) (s : list io) : cache :=
  {| contents := c; sched := s; bufs := []; strings := []; clen := None |}.
Definition with_sched (c : cache) s :=
  {| contents := contents c; sched := s; bufs := bufs c; strings := strings c; clen := clen c |}.

(** 53-63 [ReadCacheInternal::len] (also 100-102) *)
Definition cache_len (c : cache) : out Z * cache :=
  match clen c with
  | Some l => (Ok l, c)
  | None =>
    match next_io (sched c) with
    | (IoErr, s) => (Err, with_sched c s)
    | (IoRead _, s) =>
      let l := zlen (contents c) in
      (Ok l, {| contents := contents c; sched := s; bufs := bufs c; strings := strings c; clen := Some l |})
    end
  end.
(** 44-51 [range_in_bounds]; [&&] is lazy, so [len] is only called when start <= end *)
Definition range_in_bounds (c : cache) (start fin : Z) : out unit * cache :=
  if start <=? fin then
    match cache_len c with
    | (Ok l, c) => if fin <=? l then (Ok tt, c) else (Err, c)
    | (Err, c) => (Err, c)
    | (Panic, c) => (Panic, c)
    end
  else (Err, c).

(** 89-91 [clear] *)
Definition cache_clear (c : cache) : cache :=
  {| contents := contents c; sched := sched c; bufs := []; strings := strings c; clen := clen c |}.

(** read_exact of [size] bytes at [pos] (228-231): fails if the environment says so or if the stream is
    too short. *)
Definition io_read_exact (c : bytes) (pos size : Z) : option bytes :=
  if pos + size <=? zlen c then Some (zslice pos size c) else None.

(** 104-127 [read_bytes_at]; three I/O steps: seek, allocation, read_exact. *)
Definition cache_read_bytes_at (c : cache) (offset size : Z) : out bytes * cache :=
  if size =? 0 then (Ok [], c) else
  match range_in_bounds c offset (sadd 64 offset size) with
  | (Ok _, c) =>
    match lookup (offset, size) (bufs c) with
    | Some b => (Ok b, c)
    | None =>
      match next_io (sched c) with
      | (IoErr, s) => (Err, with_sched c s)
      | (IoRead _, s) =>
        match next_io s with
        | (IoErr, s) => (Err, with_sched c s)
        | (IoRead _, s) =>
          match next_io s with
          | (IoErr, s) => (Err, with_sched c s)
          | (IoRead _, s) =>
            match io_read_exact (contents c) offset size with
            | Some b => (Ok b, {| contents := contents c; sched := s;
                                  bufs := ((offset, size), b) :: bufs c;
                                  strings := strings c; clen := clen c |})
            | None => (Err, with_sched c s)
            end
          end
        end
      end
    end
  | (Err, c) => (Err, c)
  | (Panic, c) => (Panic, c)
  end.

(** [read] of at most [want] bytes at [pos] (222-226): the number of bytes returned. *)
Definition io_read_count (c : bytes) (pos want n : Z) : Z :=
  let avail := Z.max 0 (Z.min want (zlen c - pos)) in
  if avail =? 0 then 0 else Z.max 1 (Z.min n avail).

(** 143-159: the read loop.  [acc] is [bytes[..checked]]; the part of [bytes] after what was read
    is never looked at (it is zeroed or stale), so it is not modelled. Fuel: one unit per iteration; out of
    fuel gives [Panic] (shown unreachable).  The stream position is [start + checked]. *)
Fixpoint until_loop (fuel : nat) (c : bytes) (s : list io) (start max_check delim : Z) (acc : bytes)
  : out bytes * list io :=
  match fuel with
  | O => (Panic, s)
  | S fuel =>
    let checked := zlen acc in
    let want := Z.min (checked + 256) max_check - checked in
    match next_io s with
    | (IoErr, s) => (Err, s)
    | (IoRead n, s) =>
      let read := io_read_count c (start + checked) want n in
      if read =? 0 then (Err, s) else
      let chunk := zslice (start + checked) read c in
      match memchr delim chunk with
      | Some len => (Ok (acc ++ ztake len chunk), s)
      | None =>
        if max_check <=? checked + read then (Err, s)
        else until_loop fuel c s start max_check delim (acc ++ chunk)
      end
    end
  end.

(** 129-166 [read_bytes_at_until] *)
Definition cache_read_until (c : cache) (start fin delim : Z) : out bytes * cache :=
  match range_in_bounds c start fin with
  | (Ok _, c) =>
    match lookup (start, delim) (strings c) with
    | Some b => (Ok b, c)
    | None =>
      match next_io (sched c) with
      | (IoErr, s) => (Err, with_sched c s)
      | (IoRead _, s) =>
        let max_check := Z.min (fin - start) 4096 in
        match until_loop (S (Z.to_nat max_check)) (contents c) s start max_check delim [] with
        | (Ok b, s) => (Ok b, {| contents := contents c; sched := s; bufs := bufs c;
                                 strings := ((start, delim), b) :: strings c; clen := clen c |})
        | (Err, s) => (Err, with_sched c s)
        | (Panic, s) => (Panic, with_sched c s)
        end
      end
    end
  | (Err, c) => (Err, c)
  | (Panic, c) => (Panic, c)
  end.

(** * ReadCacheRange: 173-220; [ro], [rs] are its offset and size *)
(** 193-203 *)
Definition range_read_bytes_at (c : cache) (ro rs : Z) (offset size : Z) : out bytes * cache :=
  if size =? 0 then (Ok [], c) else
  match cadd 64 offset size with
  | None => (Err, c)
  | Some fin =>
    if rs <? fin then (Err, c) else
    match cadd 64 ro offset with
    | None => (Err, c)
    | Some r_offset => cache_read_bytes_at c r_offset size
    end
  end.
(** 205-215 *)
Definition range_read_until (c : cache) (ro rs : Z) (start fin delim : Z) : out bytes * cache :=
  match cadd 64 ro start, cadd 64 ro fin with
  | Some r_start, Some r_end =>
    match cache_read_until c r_start r_end delim with
    | (Ok b, c) =>
      match cadd 64 start (zlen b) with
      | None => (Err, c)
      | Some e => if rs <? e then (Err, c) else (Ok b, c)
      end
    | r => r
    end
  | _, _ => (Err, c)
  end.

(** Every public operation, for histories. *)
Inductive cop :=
| CLen
| CRead (offset size : Z)
| CUntil (start fin delim : Z)
| CRange (ro rs offset size : Z)
| CRangeUntil (ro rs start fin delim : Z)
| CClear.
Definition run_cop (op : cop) (c : cache) : cache :=
  match op with
  | CLen => snd (cache_len c)
  | CRead o s => snd (cache_read_bytes_at c o s)
  | CUntil s f d => snd (cache_read_until c s f d)
  | CRange ro rs o s => snd (range_read_bytes_at c ro rs o s)
  | CRangeUntil ro rs s f d => snd (range_read_until c ro rs s f d)
  | CClear => cache_clear c
  end.
Definition run_cops (ops : list cop) (c : cache) : cache := fold_left (fun c op => run_cop op c) ops c.
