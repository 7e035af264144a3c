(** Specification of the rebase and bind streams (C67, C68). *)
From Verif Require Export Iter_spec Core_spec Trie_spec.
From Verif Require Export Dyld_model.

(** * Encodings of the operations: a byte with the opcode and an immediate, and operands.  An item is the opcode and the operation. *)
Definition imm (i : Z) : Prop := 0 <= i < 16.
Inductive rop_enc : Z * rop -> bytes -> Prop :=
| re_done i : imm i -> rop_enc (0x00, RDone) [i]
| re_type i : imm i -> rop_enc (0x10, RSetType i) [0x10 + i]
| re_segment i x o : imm i -> uleb_bytes x o -> rop_enc (0x20, RSetSegment i o) ((0x20 + i) :: x)
| re_add i x o : imm i -> uleb_bytes x o -> rop_enc (0x30, RAddAddr o) ((0x30 + i) :: x)
| re_scaled i : imm i -> rop_enc (0x40, RAddScaled i) [0x40 + i]
| re_times_imm i : imm i -> rop_enc (0x50, RTimes i) [0x50 + i]
| re_times i x n : imm i -> uleb_bytes x n -> rop_enc (0x60, RTimes n) ((0x60 + i) :: x)
| re_rebase_add i x o : imm i -> uleb_bytes x o -> rop_enc (0x70, RRebaseAdd o) ((0x70 + i) :: x)
| re_skipping i x n y s : imm i -> uleb_bytes x n -> uleb_bytes y s -> rop_enc (0x80, RSkipping n s) ((0x80 + i) :: x ++ y).

Definition sleb_bytes (x : bytes) (v : Z) : Prop := sleb_denotes x v /\ zlen x <= 10 /\ - 2 ^ 63 <= v < 2 ^ 63.
Inductive bop_enc : Z * bop -> bytes -> Prop :=
| be_done i : imm i -> bop_enc (0x00, BDone) [i]
| be_ordinal_imm i : imm i -> bop_enc (0x10, BSetOrdinal i) [0x10 + i]
| be_ordinal i x n : imm i -> uleb_bytes x n -> bop_enc (0x20, BSetOrdinal n) ((0x20 + i) :: x)
| be_self : bop_enc (0x30, BSetSpecial 0) [0x30]
| be_special n : -15 <= n < 0 -> bop_enc (0x30, BSetSpecial n) [0x40 + n]
| be_symbol i s : imm i -> ~ In 0 s -> bop_enc (0x40, BSetSymbol i s) ((0x40 + i) :: s ++ [0])
| be_type i : imm i -> bop_enc (0x50, BSetType i) [0x50 + i]
| be_addend i x a : imm i -> sleb_bytes x a -> bop_enc (0x60, BSetAddend a) ((0x60 + i) :: x)
| be_segment i x o : imm i -> uleb_bytes x o -> bop_enc (0x70, BSetSegment i o) ((0x70 + i) :: x)
| be_add i x o : imm i -> uleb_bytes x o -> bop_enc (0x80, BAddAddr o) ((0x80 + i) :: x)
| be_bind i : imm i -> bop_enc (0x90, BBind) [0x90 + i]
| be_bind_add i x o : imm i -> uleb_bytes x o -> bop_enc (0xa0, BBindAdd o) ((0xa0 + i) :: x)
| be_scaled i : imm i -> bop_enc (0xb0, BBindScaled i) [0xb0 + i]
| be_skipping i x n y s : imm i -> uleb_bytes x n -> uleb_bytes y s -> bop_enc (0xc0, BSkipping n s) ((0xc0 + i) :: x ++ y).

(** * Meaning of the operations *)
(** The locations of [n] pointers: the first at [o], each [a] after the one before; addresses are modulo 2^64 *)
Definition places (n o a : Z) : list Z := map (fun j => (o + Z.of_nat j * a) mod 2 ^ 64) (seq 0 (Z.to_nat n)).
(** What a stream of rebase operations means, for pointers of [ptr] bytes: the rebases, and whether there is an error ([e]: the stream is
    broken after the operations).  [at_] is the current location, if set, [k] the current type, if set. *)
Fixpoint rebases (ptr : Z) (at_ : option (Z * Z)) (k : option Z) (ops : list rop) (e : bool) : list rebase * bool :=
  let moved d := match at_ with Some (i, o) => Some (i, (o + d) mod 2 ^ 64) | None => None end in
  let go n a r := match at_, k with
                  | Some (i, o), Some k' =>
                    let '(l, e) := rebases ptr (moved (n * a)) k r e in
                    (map (fun o => {| rb_segment := i; rb_offset := o; rb_kind := k' |}) (places n o a) ++ l, e)
                  | _, _ => ([], true)
                  end in
  match ops with
  | [] => ([], e)
  | RDone :: _ => ([], false)
  | RSetType k :: r => rebases ptr at_ (Some k) r e
  | RSetSegment i o :: r => rebases ptr (Some (i, o)) k r e
  | RAddAddr d :: r => rebases ptr (moved d) k r e
  | RAddScaled n :: r => rebases ptr (moved (n * ptr)) k r e
  | RTimes n :: r => if n =? 0 then rebases ptr at_ k r e else go n ptr r
  | RRebaseAdd d :: r => go 1 (ptr + d) r
  | RSkipping n s :: r => if n =? 0 then rebases ptr at_ k r e else go n (ptr + s) r
  end.

(** The state of a bind stream: location, type, library, symbol with flags, if set; addend *)
Record bstate := { s_at : option (Z * Z); s_kind : option Z; s_dylib : option Z; s_symbol : option (Z * bytes); s_addend : Z }.
Definition s_plain : bstate := {| s_at := None; s_kind := None; s_dylib := None; s_symbol := None; s_addend := 0 |}.
(** weak binds are of pointers, found by a weak lookup; lazy binds are of pointers *)
Definition s_weak : bstate := {| s_at := None; s_kind := Some 1; s_dylib := Some (-3); s_symbol := None; s_addend := 0 |}.
Definition s_lazy : bstate := {| s_at := None; s_kind := Some 1; s_dylib := None; s_symbol := None; s_addend := 0 |}.
Definition s_moved (s : bstate) (d : Z) : bstate :=
  {| s_at := match s_at s with Some (i, o) => Some (i, (o + d) mod 2 ^ 64) | None => None end; s_kind := s_kind s; s_dylib := s_dylib s; s_symbol := s_symbol s; s_addend := s_addend s |}.
Definition s_library (s : bstate) (d : Z) : bstate := {| s_at := s_at s; s_kind := s_kind s; s_dylib := Some d; s_symbol := s_symbol s; s_addend := s_addend s |}.
(** A bind stream: in a lazy stream [BDone] separates the binds, which do not share state *)
Fixpoint binds (lazy : bool) (ptr : Z) (s : bstate) (ops : list bop) (e : bool) : list bind_ * bool :=
  let go n a r := match s_at s, s_kind s, s_dylib s, s_symbol s with
                  | Some (i, o), Some k, Some d, Some (f, name) =>
                    let '(l, e) := binds lazy ptr (s_moved s (n * a)) r e in
                    (map (fun o => {| bd_segment := i; bd_offset := o; bd_kind := k; bd_dylib := d; bd_symbol := name; bd_flags := f; bd_addend := s_addend s |}) (places n o a) ++ l, e)
                  | _, _, _, _ => ([], true)
                  end in
  match ops with
  | [] => ([], e)
  | BDone :: r => if lazy then binds lazy ptr s_lazy r e else ([], false)
  | BSetOrdinal n :: r => if n <? 2 ^ 31 then binds lazy ptr (s_library s n) r e else ([], true)
  | BSetSpecial n :: r => binds lazy ptr (s_library s n) r e
  | BSetSymbol f n :: r => binds lazy ptr {| s_at := s_at s; s_kind := s_kind s; s_dylib := s_dylib s; s_symbol := Some (f, n); s_addend := s_addend s |} r e
  | BSetType k :: r => binds lazy ptr {| s_at := s_at s; s_kind := Some k; s_dylib := s_dylib s; s_symbol := s_symbol s; s_addend := s_addend s |} r e
  | BSetAddend a :: r => binds lazy ptr {| s_at := s_at s; s_kind := s_kind s; s_dylib := s_dylib s; s_symbol := s_symbol s; s_addend := a |} r e
  | BSetSegment i o :: r => binds lazy ptr {| s_at := Some (i, o); s_kind := s_kind s; s_dylib := s_dylib s; s_symbol := s_symbol s; s_addend := s_addend s |} r e
  | BAddAddr d :: r => binds lazy ptr (s_moved s d) r e
  | BBind :: r => go 1 ptr r
  | BBindAdd d :: r => go 1 (ptr + d) r
  | BBindScaled n :: r => go 1 (ptr * (n + 1)) r
  | BSkipping n sk :: r => if n =? 0 then binds lazy ptr s r e else go n (ptr + sk) r
  end.
