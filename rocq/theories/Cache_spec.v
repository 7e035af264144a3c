(** Specification vocabulary for the read cache. *)
From Verif Require Export Core_spec Cache_model.

(** The cache state reached from an empty cache over [data], with environment answers [io],
    by the operations [ops]. *)
Definition after (data : bytes) (answers : list io) (ops : list cop) : cache :=
  run_cops ops (cache_new data answers).

(** The I/O errors reported by the environment during a step from [c] to [c']. *)
Definition io_error_between (c c' : cache) : Prop :=
  exists used, sched c = used ++ sched c' /\ In IoErr used.

(** [b] is the delimiter-terminated string at [start] of [data]. *)
Definition delimited_at (data : bytes) (start d : Z) (b : bytes) : Prop :=
  ~ In d b /\ is_slice data start (b ++ [d]).

(** The arguments are machine integers. *)
Definition cop_ok (op : cop) : Prop :=
  match op with
  | CLen | CClear => True
  | CRead o s => u64_ok o /\ u64_ok s
  | CUntil s f d => u64_ok s /\ u64_ok f
  | CRange ro rs o s => u64_ok ro /\ u64_ok rs /\ u64_ok o /\ u64_ok s
  | CRangeUntil ro rs s f d => u64_ok ro /\ u64_ok rs /\ u64_ok s /\ u64_ok f
  end.

(** The (absolute) delimited reads an operation requests: start, end, delimiter. *)
Definition until_request (op : cop) : option (Z * Z * Z) :=
  match op with
  | CUntil s f d => Some (s, f, d)
  | CRangeUntil ro rs s f d => Some (ro + s, ro + f, d)
  | _ => None
  end.
