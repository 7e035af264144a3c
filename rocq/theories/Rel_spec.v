(** Specification of the RELR and CREL encodings, independent of the iterators. *)
From Verif Require Export Core_spec Rel_model.

(** RELR: an even word is an address; an odd word is a bitmap for the [8w - 1] words after the last position
    ([base] is the last address seen, or the last word covered by the preceding bitmap).  Bit [k] of the
    bitmap (k = 1 .. 8w-1) stands for [base + k*w]. *)
Fixpoint relr_decode (w base : Z) (words : list Z) : list Z :=
  match words with
  | [] => []
  | x :: words =>
    if Z.even x then x :: relr_decode w x words
    else map (fun k => (base + k * w) mod 2 ^ (8 * w))
             (filter (Z.testbit x) (map Z.of_nat (seq 1 (Z.to_nat (8 * w - 1)))))
         ++ relr_decode w ((base + (8 * w - 1) * w) mod 2 ^ (8 * w)) words
  end.

(** CREL: an optional signed delta. *)
Definition opt_delta (present : bool) (b : bytes) (d : Z) : Prop :=
  if present then sleb_denotes b d /\ zlen b <= 10 /\ - 2 ^ 63 <= d < 2 ^ 63 else b = [] /\ d = 0.
(** One entry: a ULEB number [w] whose low bits are flags and whose high bits are the offset delta (scaled),
    followed by the deltas that the flags announce.  The number may be longer than 64 bits, but the part after
    the first byte may not. *)
Definition crel_entry (rela : bool) (shift : Z) (prev : crel) (b : bytes) (cur : crel) : Prop :=
  exists enc w b1 d1 b2 d2 b3 d3,
    b = enc ++ b1 ++ b2 ++ b3 /\
    uleb_denotes enc w /\ zlen enc <= 11 /\ w / 2 ^ 7 < 2 ^ 64 /\
    opt_delta (Z.testbit w 0) b1 d1 /\ opt_delta (Z.testbit w 1) b2 d2 /\ opt_delta (rela && Z.testbit w 2) b3 d3 /\
    cr_offset cur = (cr_offset prev + w / 2 ^ (if rela then 3 else 2) * 2 ^ shift) mod 2 ^ 64 /\
    cr_sym cur = (cr_sym prev + d1) mod 2 ^ 32 /\
    cr_type cur = (cr_type prev + d2) mod 2 ^ 32 /\
    cr_addend cur = wrap_s 64 (cr_addend prev + d3).
Inductive crel_entries (rela : bool) (shift : Z) : crel -> bytes -> list crel -> Prop :=
| ce_nil prev : crel_entries rela shift prev [] []
| ce_cons prev b cur bs l : crel_entry rela shift prev b cur -> crel_entries rela shift cur bs l ->
    crel_entries rela shift prev (b ++ bs) (cur :: l).
(** The section header: count*8 + (4 if there are addends) + shift. *)
Definition crel_header (enc : bytes) (count : Z) (rela : bool) (shift : Z) : Prop :=
  0 <= count /\ 0 <= shift < 4 /\ uleb_denotes enc (count * 8 + (if rela then 4 else 0) + shift) /\
  zlen enc <= 10 /\ count * 8 + (if rela then 4 else 0) + shift < 2 ^ 64.
