(** Property theorems C04, C05, C06 (src/read/read_cache.rs). *)
From Verif Require Import Cache_spec Cache_proofs.

(** * C04 *)
(** After any history of operations [ops] over any environment answers [io] (short reads,
    I/O errors, allocation failures), a range read gives the answer of the in-memory slice, except
    that it may report an error when the environment reported one during this very call. *)
Theorem C04_read_agrees : forall data io ops o s,
  Forall cop_ok ops -> zlen data < 2 ^ 64 -> u64_ok o -> u64_ok s ->
  let c := after data io ops in
  let '(res, c') := cache_read_bytes_at c o s in
  res = rr_read_bytes_at data o s \/ (res = Err /\ io_error_between c c').
Proof. exact cache_read_agrees. Qed.
Print Assumptions C04_read_agrees.

(** Buffers handed out (the cache entries, whose lifetime the code extends with [transmute]) are never
    changed or dropped by later operations other than [clear], which needs exclusive access. *)
Theorem C04_entries_stable : forall data io ops later,
  Forall cop_ok (ops ++ later) -> zlen data < 2 ^ 64 ->
  forallb (fun op => negb (is_clear op)) later = true ->
  let c := after data io ops in let c' := after data io (ops ++ later) in
  (forall k b, lookup k (bufs c) = Some b -> lookup k (bufs c') = Some b) /\
  (forall k b, lookup k (strings c) = Some b -> lookup k (strings c') = Some b).
Proof. exact cache_entries_stable. Qed.
Print Assumptions C04_entries_stable.

Example C04_ex :
  let ops := [CRead 1 2; CUntil 0 5 0; CClear; CRange 1 3 0 2] in
  let c := after [10;20;30;0;5] [IoRead 1; IoErr; IoRead 1; IoRead 1; IoRead 1] ops in
  Forall cop_ok ops /\ fst (cache_read_bytes_at c 1 2) = Ok [20;30] /\
  lookup (1, 2) (bufs c) = Some [20;30] /\
  fst (cache_read_bytes_at c 4 2) = Err /\ fst (cache_read_bytes_at c (2^64-1) 5) = Err.
Proof. ex. Qed.

(** * C05 *)
(** The full claim, "same answer as the in-memory slice for strings below the 4096 byte limit", is
    false of the code: cached strings are keyed by start and delimiter only, so a request whose range
    ends before the delimiter succeeds after an earlier request with a larger range. *)
Theorem C05_until_agrees_refuted : exists data ops s f d b,
  Forall cop_ok ops /\ u64_ok s /\ u64_ok f /\ zlen data < 2 ^ 64 /\
  fst (cache_read_until (after data [] ops) s f d) = Ok b /\ zlen b < 4096 /\
  rr_read_bytes_at_until data s f d = Err /\
  fst (cache_read_until (after data [] []) s f d) = Err.
Proof.
  exists [97;98;99;0], [CUntil 0 4 0], 0, 2, 0, [97;98;99].
  ex.
Qed.
Print Assumptions C05_until_agrees_refuted.

(** What does hold for every history.  Soundness: an answer is always the delimiter-terminated string at
    [start] of the file, shorter than 4096 bytes, and the range was inside of the file.
    Completeness: if the slice answers with a string below the limit, so does the cache (or the
    environment reported an error during the call). *)
Theorem C05_until_partial : forall data io ops s f d,
  Forall cop_ok ops -> zlen data < 2 ^ 64 -> u64_ok s ->
  let c := after data io ops in
  let '(res, c') := cache_read_until c s f d in
  (forall b, res = Ok b -> s <= f <= zlen data /\ delimited_at data s d b /\ zlen b < 4096) /\
  (forall b, rr_read_bytes_at_until data s f d = Ok b -> zlen b < 4096 ->
      res = Ok b \/ (res = Err /\ io_error_between c c')) /\
  res <> Panic.
Proof. exact cache_until_agrees. Qed.
Print Assumptions C05_until_partial.

(** Exact agreement (including errors) when no earlier request with the same start and delimiter had a
    larger range end; in particular whenever callers use one end per start, as string tables do. *)
Theorem C05_until_agrees_exact : forall data io ops s f d,
  Forall cop_ok ops -> zlen data < 2 ^ 64 -> u64_ok s ->
  (forall op f', In op ops -> until_request op = Some (s, f', d) -> f' <= f) ->
  let c := after data io ops in
  let '(res, c') := cache_read_until c s f d in
  res = (match rr_read_bytes_at_until data s f d with
         | Ok b => if zlen b <? 4096 then Ok b else Err
         | r => r end) \/
  (res = Err /\ io_error_between c c').
Proof. exact cache_until_agrees_exact. Qed.
Print Assumptions C05_until_agrees_exact.

Example C05_ex :
  let ops := [CUntil 0 3 0; CUntil 1 4 0; CUntil 0 4 0] in
  Forall cop_ok ops /\
  (forall op f', In op ops -> until_request op = Some (0, f', 0) -> f' <= 4) /\
  fst (cache_read_until (after [97;98;99;0] [IoRead 1; IoRead 1; IoRead 1] ops) 0 4 0) = Ok [97;98;99] /\
  rr_read_bytes_at_until [97;98;99;0] 0 4 0 = Ok [97;98;99].
Proof.
  ex.
  intros op f' [<-|[<-|[<-|[]]]] H; inversion H; discriminate.
Qed.

(** * C06 *)
(** Range reads: exact agreement with the sub-slice. *)
Theorem C06_range_read_agrees : forall data io ops ro rs o s,
  Forall cop_ok ops -> zlen data < 2 ^ 64 ->
  u64_ok ro -> u64_ok rs -> u64_ok o -> u64_ok s -> ro + rs <= zlen data ->
  let c := after data io ops in
  let '(res, c') := range_read_bytes_at c ro rs o s in
  res = rr_read_bytes_at (zslice ro rs data) o s \/ (res = Err /\ io_error_between c c').
Proof. exact range_read_agrees. Qed.
Print Assumptions C06_range_read_agrees.

(** Even when the range itself reaches past the file: nothing outside of the range is returned. *)
Theorem C06_range_read_sound : forall data io ops ro rs o s b c',
  Forall cop_ok ops -> zlen data < 2 ^ 64 ->
  u64_ok ro -> u64_ok rs -> u64_ok o -> u64_ok s ->
  range_read_bytes_at (after data io ops) ro rs o s = (Ok b, c') ->
  zlen b = s /\ (b = [] \/ (o + zlen b <= rs /\ is_slice data (ro + o) b)).
Proof. exact range_read_sound. Qed.
Print Assumptions C06_range_read_sound.

(** Delimited reads: agreement with the sub-slice is false of the code.  The delimiter may be the byte
    just after the range, so its presence there is observable. *)
Theorem C06_range_until_refuted : exists data ro rs s f d b,
  u64_ok ro /\ u64_ok rs /\ u64_ok s /\ u64_ok f /\ ro + rs <= zlen data /\ zlen data < 2 ^ 64 /\
  fst (range_read_until (after data [] []) ro rs s f d) = Ok b /\
  rr_read_bytes_at_until (zslice ro rs data) s f d = Err.
Proof.
  exists [97;98;99;0], 0, 3, 0, 4, 0, [97;98;99].
  ex.
Qed.
Print Assumptions C06_range_until_refuted.

(** What does hold: the returned bytes are inside the range and of the file. *)
Theorem C06_range_until_sound_partial : forall data io ops ro rs s f d b c',
  Forall cop_ok ops -> zlen data < 2 ^ 64 ->
  u64_ok ro -> u64_ok rs -> u64_ok s -> u64_ok f ->
  range_read_until (after data io ops) ro rs s f d = (Ok b, c') ->
  s + zlen b <= rs /\ is_slice data (ro + s) b /\ ~ In d b /\ ro + f <= zlen data.
Proof. exact range_until_sound. Qed.
Print Assumptions C06_range_until_sound_partial.

(** Exact agreement when the requested end is inside the range and no earlier request for the same string
    had a larger end. *)
Theorem C06_range_until_agrees_partial : forall data io ops ro rs s f d,
  Forall cop_ok ops -> zlen data < 2 ^ 64 ->
  u64_ok ro -> u64_ok rs -> u64_ok s -> u64_ok f -> ro + rs <= zlen data -> f <= rs ->
  (forall op f', In op ops -> until_request op = Some (ro + s, f', d) -> f' <= ro + f) ->
  let c := after data io ops in
  let '(res, c') := range_read_until c ro rs s f d in
  res = (match rr_read_bytes_at_until (zslice ro rs data) s f d with
         | Ok b => if zlen b <? 4096 then Ok b else Err
         | r => r end) \/
  (res = Err /\ io_error_between c c').
Proof. exact range_until_agrees. Qed.
Print Assumptions C06_range_until_agrees_partial.

Example C06_ex :
  let c := after [1;97;0;4] [] [] in
  fst (range_read_bytes_at c 1 2 0 2) = Ok [97;0] /\ fst (range_read_bytes_at c 1 2 0 3) = Err /\
  fst (range_read_until c 1 2 0 2 0) = Ok [97].
Proof. vm_compute. repeat split. Qed.
