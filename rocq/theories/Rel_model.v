(** Model of the RELR and CREL relocation iterators: src/read/elf/relocation.rs 730-1030.  Definitions only. *)
From Verif Require Export Iter_model.

(** * RELR *)
(** src/read/elf/relocation.rs 734-740 [RelrIterator]; [iter] is the list of remaining words, as read by
    [Relr::get] *)
Record relr_it := { ri_offset : Z; ri_bits : Z; ri_count : nat; ri_iter : list Z }.
(** 744-752 [new] *)
Definition relr_new (data : list Z) : relr_it := {| ri_offset := 0; ri_bits := 0; ri_count := 0; ri_iter := data |}.
(** 806, 824 [COUNT]; [w] is the word size in bytes, 4 or 8 *)
Definition relr_count (w : Z) : nat := Z.to_nat (8 * w - 1).
(** 812-816, 830-834 [Relr::next]: (result, offset, bits) *)
Definition relr_bit (w offset bits : Z) : option Z * Z * Z :=
  let offset := wrap_u (8 * w) (offset + w) in
  let bits := Z.shiftr bits 1 in
  ((if Z.land bits 1 =? 0 then None else Some offset), offset, bits).
(** 760-766: the inner [while]; returns the offset found, if any, and the new offset, bits, count *)
Fixpoint relr_while (w : Z) (count : nat) (offset bits : Z) : option Z * Z * Z * nat :=
  match count with
  | O => (None, offset, bits, O)
  | S count =>
    match relr_bit w offset bits with
    | (Some r, offset, bits) => (Some r, offset, bits, count)
    | (None, offset, bits) => relr_while w count offset bits
    end
  end.
(** 758-775 [Iterator::next]: the outer [loop] takes one word per iteration *)
Fixpoint relr_loop (w : Z) (iter : list Z) (offset bits : Z) (count : nat) : option Z * relr_it :=
  match relr_while w count offset bits with
  | (Some r, offset, bits, count) => (Some r, {| ri_offset := offset; ri_bits := bits; ri_count := count; ri_iter := iter |})
  | (None, offset, bits, count) =>
    match iter with
    | [] => (None, {| ri_offset := offset; ri_bits := bits; ri_count := count; ri_iter := [] |})
    | next :: iter =>
      if Z.land next 1 =? 0
      then (Some next, {| ri_offset := next; ri_bits := bits; ri_count := count; ri_iter := iter |})
      else relr_loop w iter offset next (relr_count w)
    end
  end.
Definition relr_next (w : Z) (it : relr_it) : out (option Z) * relr_it :=
  let '(r, it) := relr_loop w (ri_iter it) (ri_offset it) (ri_bits it) (ri_count it) in (Ok r, it).

(** * CREL *)
(** 841-852 [Crel] *)
Record crel := { cr_offset : Z; cr_sym : Z; cr_type : Z; cr_addend : Z }.
Definition crel_default := {| cr_offset := 0; cr_sym := 0; cr_type := 0; cr_addend := 0 |}.
(** 858-864 [Crel::symbol] *)
Definition crel_symbol (c : crel) : option Z := if cr_sym c =? 0 then None else Some (cr_sym c).
(** 888-908 [CrelIteratorHeader], [CrelIterator] *)
Record crel_it := { ci_data : bytes; ci_count : Z; ci_flag_bits : Z; ci_shift : Z; ci_is_rela : bool; ci_state : crel }.
(** 912-938 [CrelIterator::new] *)
Definition crel_new (data : bytes) : out crel_it :=
  match read_uleb128 data with
  | (Ok header, data) =>
    let count := Z.shiftr header 3 in
    let flag_bits := if negb (Z.land header 4 =? 0) then 3 else 2 in
    let shift := Z.land header 3 in
    let is_rela := negb (Z.land header 4 =? 0) in
    Ok {| ci_data := data; ci_count := count; ci_flag_bits := flag_bits; ci_shift := shift; ci_is_rela := is_rela; ci_state := crel_default |}
  | (Err, _) => Err
  | (Panic, _) => Panic
  end.
(** 946-948 [len] *)
Definition crel_len (it : crel_it) : Z := ci_count it.

Definition ci_with (it : crel_it) (data : bytes) (st : crel) : crel_it :=
  {| ci_data := data; ci_count := ci_count it; ci_flag_bits := ci_flag_bits it; ci_shift := ci_shift it; ci_is_rela := ci_is_rela it; ci_state := st |}.
(** lifting an operation on [self.data] to [self] *)
Definition on_data {A} (it : crel_it) (r : out A * bytes) : out A * crel_it := (fst r, ci_with it (snd r) (ci_state it)).
Definition ci_st (it : crel_it) (st : crel) : crel_it := ci_with it (ci_data it) st.
(** 954-1003 [parse]; [as u32] is [wrap_u 32] *)
Definition crel_parse (it : crel_it) : out crel * crel_it :=
  do b, it <- on_data it (b_read (ci_data it) 1) ;;
  let byte := read_u Little b in
  let flags := Z.land byte (2 ^ ci_flag_bits it - 1) in
  let delta := Z.shiftr (Z.land byte 127) (ci_flag_bits it) in
  do delta, it <- (if negb (Z.land byte 128 =? 0) then
                     do hi, it <- on_data it (read_uleb128 (ci_data it)) ;;
                     (Ok (Z.lor delta (wrap_u 64 (Z.shiftl hi (7 - ci_flag_bits it)))), it)
                   else (Ok delta, it)) ;;
  let st := ci_state it in
  let it := ci_st it {| cr_offset := wrap_u 64 (cr_offset st + wrap_u 64 (Z.shiftl delta (ci_shift it)));
                        cr_sym := cr_sym st; cr_type := cr_type st; cr_addend := cr_addend st |} in
  do _u, it <- (if negb (Z.land flags 1 =? 0) then
                 do d, it <- on_data it (read_sleb128 (ci_data it)) ;;
                 let st := ci_state it in
                 (Ok tt, ci_st it {| cr_offset := cr_offset st; cr_sym := wrap_u 32 (cr_sym st + wrap_u 32 d);
                                     cr_type := cr_type st; cr_addend := cr_addend st |})
               else (Ok tt, it)) ;;
  do _u, it <- (if negb (Z.land flags 2 =? 0) then
                 do d, it <- on_data it (read_sleb128 (ci_data it)) ;;
                 let st := ci_state it in
                 (Ok tt, ci_st it {| cr_offset := cr_offset st; cr_sym := cr_sym st;
                                     cr_type := wrap_u 32 (cr_type st + wrap_u 32 d); cr_addend := cr_addend st |})
               else (Ok tt, it)) ;;
  do _u, it <- (if ci_is_rela it && negb (Z.land flags 4 =? 0) then
                 do d, it <- on_data it (read_sleb128 (ci_data it)) ;;
                 let st := ci_state it in
                 (Ok tt, ci_st it {| cr_offset := cr_offset st; cr_sym := cr_sym st;
                                     cr_type := cr_type st; cr_addend := wrap_s 64 (cr_addend st + d) |})
               else (Ok tt, it)) ;;
  match psub (ci_count it) 1 with
  | Ok c =>
    (Ok (ci_state it), {| ci_data := ci_data it; ci_count := c; ci_flag_bits := ci_flag_bits it;
                          ci_shift := ci_shift it; ci_is_rela := ci_is_rela it; ci_state := ci_state it |})
  | _ => (Panic, it)
  end.
(** 1009-1020 [Iterator::next] *)
Definition crel_next (it : crel_it) : out (option crel) * crel_it :=
  if ci_count it =? 0 then (Ok None, it) else
  match crel_parse it with
  | (Ok c, it) => (Ok (Some c), it)
  | (Err, it) => (Err, {| ci_data := ci_data it; ci_count := 0; ci_flag_bits := ci_flag_bits it; ci_shift := ci_shift it;
                          ci_is_rela := ci_is_rela it; ci_state := ci_state it |})
  | (Panic, it) => (Panic, it)
  end.
