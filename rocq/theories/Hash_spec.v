(** Specification vocabulary for the ELF symbol hash tables. *)
From Verif Require Export Core_spec Hash_model.

(** Symbol [j] of the symbol table whose names are [nm] has the requested name and version. *)
Definition sym_matches (nm : list (out bytes)) (vm : Z -> bool) (name : bytes) (j : Z) : Prop :=
  zget nm j = Some (Ok name) /\ vm j = true.

(** [j] is the greatest index satisfying [P], if any (the answer of the SysV lookup). *)
Definition greatest_such (P : Z -> Prop) (r : option Z) : Prop :=
  match r with
  | Some j => P j /\ forall k, P k -> k <= j
  | None => forall k, ~ P k
  end.
Definition least_such (P : Z -> Prop) (r : option Z) : Prop :=
  match r with
  | Some j => P j /\ forall k, P k -> j <= k
  | None => forall k, ~ P k
  end.

(** SysV: the symbols the writer was told to hash (symbol 0 is the null symbol and is never found), whose hash
    falls in the bucket of [h]. *)
Definition sysv_member (hash : Z -> option Z) (bucket_count chain_count h j : Z) : Prop :=
  0 < j < chain_count /\ exists hj, hash j = Some hj /\ hj mod bucket_count = h mod bucket_count.

(** GNU: what the writer requires of its input. *)
Record gnu_ok (d : gnu_desc) (hash : Z -> Z) : Prop := {
  gk_bucket : 0 < gd_bucket_count d < 2 ^ 32;
  gk_bloom : 0 < gd_bloom_count d < 2 ^ 32;
  gk_shift : 0 <= gd_bloom_shift d < 32;
  gk_base : 0 < gd_symbol_base d;
  gk_count : 0 <= gd_symbol_count d;
  gk_total : gd_symbol_base d + gd_symbol_count d < 2 ^ 32;
  gk_hash : forall i, 0 <= i < gd_symbol_count d -> u32_ok (hash i);
  gk_sorted : forall i j, 0 <= i <= j -> j < gd_symbol_count d ->
    hash i mod gd_bucket_count d <= hash j mod gd_bucket_count d
}.
(** The symbols of the table whose recorded hash agrees with [h] up to the lowest bit and lies in the bucket of
    [h], by symbol table index. *)
Definition gnu_member (d : gnu_desc) (hash : Z -> Z) (h j : Z) : Prop :=
  gd_symbol_base d <= j < gd_symbol_base d + gd_symbol_count d /\
  hash (j - gd_symbol_base d) / 2 = h / 2 /\
  hash (j - gd_symbol_base d) mod gd_bucket_count d = h mod gd_bucket_count d.
