(** Property theorem C14 (src/write/util.rs). *)
From Verif Require Import Buf_spec Buf_proofs.

(** A CountingBuffer over a Vec holding [init]: the vector ends up with exactly the requested bytes appended,
    and the count is their number. *)
Theorem C14_vec : forall ops total init, wanted_all 0 ops total -> zlen init + zlen total < 2 ^ 63 ->
  run_wops vec_wbuf (counting_new init) ops = (Ok tt, (init ++ total, zlen total)).
Proof. exact vec_run. Qed.
Print Assumptions C14_vec.

(** Over a fixed slice: the requested bytes overwrite the front of the array, the tail is untouched. *)
Theorem C14_slice : forall ops total init,
  wanted_all 0 ops total -> zlen total <= zlen init -> zlen init < 2 ^ 64 ->
  run_wops slice_wbuf (counting_new ([], init)) ops = (Ok tt, ((total, zdrop (zlen total) init), zlen total)).
Proof. exact slice_run. Qed.
Print Assumptions C14_slice.

(** Writing more than the slice holds panics; the array does not change size. *)
Theorem C14_slice_overflow : forall ops total hd tl c, wanted_all c ops total -> 0 <= c ->
  c + zlen total < 2 ^ 64 -> zlen tl < zlen total ->
  exists s, run_wops slice_wbuf ((hd, tl), c) ops = (Panic, s) /\
    zlen (fst (fst s) ++ snd (fst s)) = zlen hd + zlen tl.
Proof. exact run_wops_slice_overflow. Qed.
Print Assumptions C14_slice_overflow.
Theorem C14_slice_reserve : forall hd tl size, 
  w_reserve slice_wbuf (hd, tl) size = (if size <=? zlen tl then Ok tt else Err, (hd, tl)).
Proof.
  intros. cbn. destruct (Z.ltb_spec (zlen tl) size), (Z.leb_spec size (zlen tl)); try reflexivity; lia.
Qed.
Print Assumptions C14_slice_reserve.

(** Over a stream with an arbitrary fault schedule: the requested bytes are sent in pieces; the writer is
    called for each piece up to and including the first failing call and never after it; result() reports
    that failure once.  The count is that of the requested bytes. *)
Theorem C14_stream : forall ops total w, wanted_all 0 ops total -> zlen total < 2 ^ 64 ->
  exists s pieces calls e, run_wops streaming_wbuf (counting_new (streaming_new w)) ops = (Ok tt, (s, zlen total)) /\
    concat pieces = total /\ streamed (wr_sched w) pieces calls e /\
    wr_calls (s_writer s) = wr_calls w ++ calls /\
    wr_out (s_writer s) = wr_out w ++ sink (wr_sched w) calls e /\
    fst (streaming_result s) = e /\ fst (streaming_result (snd (streaming_result s))) = None.
Proof. exact stream_run. Qed.
Print Assumptions C14_stream.
Theorem C14_stream_complete : forall ops total w, wanted_all 0 ops total -> zlen total < 2 ^ 64 ->
  Forall (fun o => o = None) (wr_sched w) ->
  exists s, run_wops streaming_wbuf (counting_new (streaming_new w)) ops = (Ok tt, (s, zlen total)) /\
    wr_out (s_writer s) = wr_out w ++ total /\ fst (streaming_result s) = None.
Proof. exact stream_run_nofault. Qed.
Print Assumptions C14_stream_complete.
Theorem C14_stream_silent_after_error : forall s op c e, s_result s = Some e -> forall b,
  wanted c op b -> 0 <= c -> c + zlen b < 2 ^ 64 ->
  run_wop streaming_wbuf (s, c) op = (Ok tt, (s, c + zlen b)).
Proof. exact stream_silent_after_error. Qed.
Print Assumptions C14_stream_silent_after_error.

Definition c14_ops := [WBytes [1;2;3]; WZeros 2; WAlign 4; WResize 2000; WBytes [7]].
Example C14_ex_wanted : exists total, wanted_all 0 c14_ops total /\ zlen total = 2001.
Proof.
  eexists. split.
  - unfold c14_ops. econstructor; [reflexivity|]. econstructor; [split; [lia|reflexivity]|].
    econstructor; [|econstructor; [split; [|reflexivity]|econstructor; [reflexivity|constructor]]].
    + cbn. split; [exists 2; split; [lia|reflexivity]|]. exists 3. split; [lia|split; [exists 2; reflexivity|reflexivity]].
    + vm_compute; discriminate.
  - vm_compute; reflexivity.
Qed.
Example C14_ex_run :
  let w := {| wr_out := [9]; wr_calls := []; wr_sched := [None; Some (5, 1)] |} in
  let '(r, (s, c)) := run_wops streaming_wbuf (counting_new (streaming_new w)) c14_ops in
  r = Ok tt /\ c = 2001 /\ wr_out (s_writer s) = [9;1;2;3;0] /\ s_result s = Some 5 /\
  wr_calls (s_writer s) = [[1;2;3]; [0;0]].
Proof. ex. Qed.
