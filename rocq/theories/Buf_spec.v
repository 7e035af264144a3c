(** Specification vocabulary for writable buffers. *)
From Verif Require Export Core_spec Buf_model.

(** What a user can do with a CountingBuffer. *)
Inductive wop := WBytes (b : bytes) | WZeros (n : Z) | WResize (n : Z) | WAlign (size : Z).

(** The bytes an operation asks for when [c] bytes have been written so far. *)
Definition wanted (c : Z) (op : wop) (b : bytes) : Prop :=
  match op with
  | WBytes v => b = v
  | WZeros n => 0 <= n /\ b = zeros n
  | WResize n => c <= n /\ b = zeros (n - c)
  | WAlign size => (exists k, 0 <= k < 64 /\ size = 2 ^ k) /\
                   exists p, 0 <= p < size /\ (size | c + p) /\ b = zeros p
  end.
(** Same for a sequence; [total] is the concatenation. *)
Inductive wanted_all : Z -> list wop -> bytes -> Prop :=
| wanted_nil c : wanted_all c [] []
| wanted_cons c op ops b rest : wanted c op b -> wanted_all (c + zlen b) ops rest ->
    wanted_all c (op :: ops) (b ++ rest).

Definition run_wop {S} (W : wbuf S) (s : S * Z) (op : wop) : out unit * (S * Z) :=
  match op with
  | WBytes b => w_write_bytes (counting_wbuf W) s b
  | WZeros n => w_write_zeros (counting_wbuf W) s n
  | WResize n => counting_resize W s n
  | WAlign n => counting_write_align W s n
  end.
Fixpoint run_wops {S} (W : wbuf S) (s : S * Z) (ops : list wop) : out unit * (S * Z) :=
  match ops with
  | [] => (Ok tt, s)
  | op :: ops => match run_wop W s op with
                 | (Ok _, s) => run_wops W s ops
                 | r => r
                 end
  end.

(** The calls a fault-prone writer gets when a list of byte strings is streamed to it: all of them up to
    and including the first one whose call fails; [e] is that failure. *)
Inductive streamed : list (option (Z * Z)) -> list bytes -> list bytes -> option Z -> Prop :=
| streamed_nil sched : streamed sched [] [] None
| streamed_ok_end b l calls e : streamed [] l calls e -> streamed [] (b :: l) (b :: calls) e
| streamed_ok sched b l calls e : streamed sched l calls e -> streamed (None :: sched) (b :: l) (b :: calls) e
| streamed_err sched b l e k : streamed (Some (e, k) :: sched) (b :: l) [b] (Some e).

(** What the sink received for the calls made: everything for successful ones, a prefix of the failing one. *)
Definition sink (sched : list (option (Z * Z))) (calls : list bytes) (e : option Z) : bytes :=
  match e with
  | None => concat calls
  | Some _ => concat (removelast calls) ++
      match nth_error sched (length calls - 1) with
      | Some (Some (_, k)) => ztake k (last calls [])
      | _ => []
      end
  end.

