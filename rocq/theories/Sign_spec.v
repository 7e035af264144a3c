(** What Mach-O code signatures are, independent of the reader. *)
From Verif Require Export Sign_model File_spec Ar_spec.

(** the big-endian number [v] of [n] bytes is at [off] *)
Definition num (n : nat) (F : bytes) (off v : Z) : Prop := holds F off (write_u Big n v) /\ 0 <= v < 2 ^ (8 * Z.of_nat n).

(** [F] is a super blob whose index has the entries (slot, offset) *)
Definition super_blob (F : bytes) (index : list (Z * Z)) : Prop :=
  num 4 F 0 0xfade0cc0 /\ num 4 F 8 (zlen index) /\
  forall i slot off, zget index i = Some (slot, off) -> num 4 F (12 + 8 * i) slot /\ num 4 F (16 + 8 * i) off.
(** the blob [b] for an index entry: the data includes the magic number and the length *)
Definition is_blob (F : bytes) (entry : Z * Z) (b : csblob) : Prop :=
  (bl_slot b, bl_offset b) = entry /\ num 4 F (snd entry) (bl_magic b) /\ num 4 F (snd entry + 4) (zlen (bl_data b)) /\
  holds F (snd entry) (bl_data b).

(** [v] is present from version [since] on, and satisfies [P] *)
Definition since {A} (version : Z) (since : Z) (v : option A) (P : A -> Prop) : Prop :=
  match v with Some x => since <= version /\ P x | None => version < since end.
(** a code directory *)
Record directory := {
  di_version : Z; di_flags : Z; di_hash_offset : Z; di_ident_offset : Z; di_special_slots : Z; di_code_slots : Z; di_code_limit : Z;
  di_hash_size : Z; di_hash_type : Z; di_page_size : Z;
  di_scatter : option Z; di_team : option Z; di_code_limit64 : option Z; di_exec : option (Z * Z * Z) }.
Definition is_directory (D : bytes) (d : directory) : Prop :=
  num 4 D 0 0xfade0c02 /\ num 4 D 8 (di_version d) /\ num 4 D 12 (di_flags d) /\ num 4 D 16 (di_hash_offset d) /\ num 4 D 20 (di_ident_offset d) /\
  num 4 D 24 (di_special_slots d) /\ num 4 D 28 (di_code_slots d) /\ num 4 D 32 (di_code_limit d) /\
  num 1 D 36 (di_hash_size d) /\ num 1 D 37 (di_hash_type d) /\ num 1 D 39 (di_page_size d) /\ 44 <= zlen D /\
  since (di_version d) 0x20100 (di_scatter d) (num 4 D 44) /\
  since (di_version d) 0x20200 (di_team d) (num 4 D 48) /\
  since (di_version d) 0x20300 (di_code_limit64 d) (num 8 D 56) /\
  since (di_version d) 0x20400 (di_exec d) (fun '(base, limit, flags) => num 8 D 64 base /\ num 8 D 72 limit /\ num 8 D 80 flags).
(** what the accessors of the reader show *)
Definition shows (c : cdir) (d : directory) : Prop :=
  cd_version c = di_version d /\ cd_flags c = di_flags d /\ cd_hash_offset c = di_hash_offset d /\ cd_ident_offset c = di_ident_offset d /\
  cd_n_special_slots c = di_special_slots d /\ cd_n_code_slots c = di_code_slots d /\ cd_code_limit32 c = di_code_limit d /\
  cd_hash_size c = di_hash_size d /\ cd_hash_type c = di_hash_type d /\ cd_page_size c = di_page_size d /\
  cd_scatter_offset c = di_scatter d /\ cd_team_offset c = di_team d /\ cd_code_limit64 c = di_code_limit64 d /\ cd_exec_seg c = di_exec d.
(** the [k]-th hash, counted from the hash offset; the special hashes are before it *)
Definition hash_at (D : bytes) (d : directory) (k : Z) (h : bytes) : Prop :=
  zlen h = di_hash_size d /\ holds D (di_hash_offset d + k * di_hash_size d) h.
