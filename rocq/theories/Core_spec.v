(** Independent specification vocabulary for the byte-level core. *)
From Verif Require Export Core_model.

(** [b] is what is stored in [data] at offset [off]. *)
Definition is_slice {A} (data : list A) (off : Z) (b : list A) : Prop :=
  exists pre post, data = pre ++ b ++ post /\ zlen pre = off.

(** Mathematical meaning of an unsigned LEB128 encoding (base-128 digits, least
    significant first, top bit set on all but the last byte). *)
Inductive uleb_denotes : bytes -> Z -> Prop :=
| uleb_last b : 0 <= b < 128 -> uleb_denotes [b] b
| uleb_more b l v : 128 <= b < 256 -> uleb_denotes l v -> uleb_denotes (b :: l) (b - 128 + 128 * v).

(** Mathematical meaning of a signed LEB128 encoding: as above, with the last digit
    taken as a signed 7-bit number. *)
Inductive sleb_denotes : bytes -> Z -> Prop :=
| sleb_last b : 0 <= b < 128 -> sleb_denotes [b] (if b <? 64 then b else b - 128)
| sleb_more b l v : 128 <= b < 256 -> sleb_denotes l v -> sleb_denotes (b :: l) (b - 128 + 128 * v).


Inductive Forall3 {A B C} (R : A -> B -> C -> Prop) : list A -> list B -> list C -> Prop :=
| Forall3_nil : Forall3 R [] [] []
| Forall3_cons a b c l m n : R a b c -> Forall3 R l m n -> Forall3 R (a :: l) (b :: m) (c :: n).

(** Operations of the [Bytes] cursor and what they return. *)
Inductive bop :=
| BSkip (n : Z) | BReadBytes (n : Z) | BRead (n : Z) | BReadSlice (size count : Z)
| BReadString | BUleb | BSleb.
Inductive bval := VUnit | VBytes (b : bytes) | VSlice (l : list bytes) | VNum (z : Z).

Definition bop_ok (op : bop) : Prop :=
  match op with BReadSlice size count => 0 <= size /\ 0 <= count | _ => True end.

Definition omap {A B S} (f : A -> B) (r : out A * S) : out B * S :=
  match r with (Ok a, s) => (Ok (f a), s) | (Err, s) => (Err, s) | (Panic, s) => (Panic, s) end.

Definition run_bop (op : bop) (s : bytes) : out bval * bytes :=
  match op with
  | BSkip n => omap (fun _ => VUnit) (b_skip s n)
  | BReadBytes n => omap VBytes (b_read_bytes s n)
  | BRead n => omap VBytes (b_read s n)
  | BReadSlice size count => omap VSlice (b_read_slice s size count)
  | BReadString => omap VBytes (b_read_string s)
  | BUleb => omap VNum (read_uleb128 s)
  | BSleb => omap VNum (read_sleb128 s)
  end.
(** Run a sequence of operations, stopping at the first error. *)
Fixpoint run_bops (ops : list bop) (s : bytes) : out (list bval) * bytes :=
  match ops with
  | [] => (Ok [], s)
  | op :: ops =>
    match run_bop op s with
    | (Ok v, s) => omap (fun vs => v :: vs) (run_bops ops s)
    | (Err, s) => (Err, s)
    | (Panic, s) => (Panic, s)
    end
  end.
(** Which bytes [p] were consumed by an operation that returned [v]. *)
Definition piece_of (op : bop) (v : bval) (p : bytes) : Prop :=
  match op, v with
  | BSkip n, VUnit => zlen p = n
  | BReadBytes n, VBytes b => b = p /\ zlen p = n
  | BRead n, VBytes b => b = p /\ zlen p = n
  | BReadSlice size count, VSlice l =>
      p = concat l /\ zlen l = count /\ Forall (fun c => zlen c = size) l
  | BReadString, VBytes b => p = b ++ [0] /\ ~ In 0 b
  | BUleb, VNum x => uleb_denotes p x
  | BSleb, VNum x => sleb_denotes p x
  | _, _ => False
  end.
