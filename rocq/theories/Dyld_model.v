(** Model of src/read/macho/dyld_info.rs: the rebase and bind streams of LC_DYLD_INFO.  Definitions only.
    A [Bytes] cursor is its remaining data.  The immediate and the opcode of a byte are its low and high four bits. *)
From Verif Require Export Iter_model Hash_model.

(** src/macho.rs 2801-2913 [DyldInfoCommand]; 8-56: the data of stream [k] (rebase, bind, weak bind, lazy bind, exports) *)
Definition di_data (e : endian) (cmd : bytes) (k : Z) (F : bytes) : out bytes :=
  rr_read_bytes_at F (fld e (8 + 8 * k) 4 cmd) (fld e (12 + 8 * k) 4 cmd).

(** * Rebase operations *)
(** 216-261 [RebaseOperation] *)
Inductive rop :=
| RDone | RSetType (kind : Z) | RSetSegment (index offset : Z) | RAddAddr (offset : Z) | RAddScaled (count : Z)
| RTimes (count : Z) | RRebaseAdd (offset : Z) | RSkipping (count skip : Z).
(** 264-309 [RebaseOperation::parse], with the opcode *)
Definition rop_parse (data : bytes) : out (Z * rop) * bytes :=
  do b, data <- b_read data 1 ;;
  let byte := read_u Little b in
  let opcode := Z.land byte 240 in
  let immediate := Z.land byte 15 in
  if opcode =? 0 then (Ok (opcode, RDone), data)
  else if opcode =? 16 then (Ok (opcode, RSetType immediate), data)
  else if opcode =? 32 then do offset, data <- read_uleb128 data ;; (Ok (opcode, RSetSegment immediate offset), data)
  else if opcode =? 48 then do offset, data <- read_uleb128 data ;; (Ok (opcode, RAddAddr offset), data)
  else if opcode =? 64 then (Ok (opcode, RAddScaled immediate), data)
  else if opcode =? 80 then (Ok (opcode, RTimes immediate), data)
  else if opcode =? 96 then do count, data <- read_uleb128 data ;; (Ok (opcode, RTimes count), data)
  else if opcode =? 112 then do offset, data <- read_uleb128 data ;; (Ok (opcode, RRebaseAdd offset), data)
  else if opcode =? 128 then
    do count, data <- read_uleb128 data ;; do skip, data <- read_uleb128 data ;; (Ok (opcode, RSkipping count skip), data)
  else (Err, data).
(** 191-200 [RebaseOperationIterator::next] *)
Definition rop_next : bytes -> out (option (Z * rop)) * bytes := seq_next rop_parse.

(** * Rebases *)
(** 316-323 [Rebase] *)
Record rebase := { rb_segment : Z; rb_offset : Z; rb_kind : Z }.
(** 332-343 [RebaseIterator], without the pointer size *)
Record rbit := { ri_ops : bytes; ri_remaining : Z; ri_advance : Z; ri_set_segment : bool; ri_set_type : bool; ri_rebase : rebase }.
(** 346-360 *)
Definition rbit_new (data : bytes) : rbit :=
  {| ri_ops := data; ri_remaining := 0; ri_advance := 0; ri_set_segment := false; ri_set_type := false; ri_rebase := {| rb_segment := 0; rb_offset := 0; rb_kind := 0 |} |}.
(** record updates *)
Definition ri_with_ops (it : rbit) (d : bytes) : rbit :=
  {| ri_ops := d; ri_remaining := ri_remaining it; ri_advance := ri_advance it; ri_set_segment := ri_set_segment it; ri_set_type := ri_set_type it; ri_rebase := ri_rebase it |}.
Definition ri_with_offset (it : rbit) (o : Z) : rbit :=
  {| ri_ops := ri_ops it; ri_remaining := ri_remaining it; ri_advance := ri_advance it; ri_set_segment := ri_set_segment it; ri_set_type := ri_set_type it;
     ri_rebase := {| rb_segment := rb_segment (ri_rebase it); rb_offset := o; rb_kind := rb_kind (ri_rebase it) |} |}.
Definition ri_with_count (it : rbit) (n a : Z) : rbit :=
  {| ri_ops := ri_ops it; ri_remaining := n; ri_advance := a; ri_set_segment := ri_set_segment it; ri_set_type := ri_set_type it; ri_rebase := ri_rebase it |}.
(** 373-384: [remaining != 0] *)
Definition ri_emit (it : rbit) : out (option rebase) * rbit :=
  if negb (ri_set_segment it) then (Err, it)
  else if negb (ri_set_type it) then (Err, it)
  else let r := ri_rebase it in
       let it := ri_with_offset it (wrap_u 64 (rb_offset r + ri_advance it)) in
       match psub (ri_remaining it) 1 with
       | Ok n => (Ok (Some r), ri_with_count it n (ri_advance it))
       | _ => (Panic, it)
       end.
(** 385-431: the loop; every iteration but the last consumes an operation, so that [fuel] above the length of the data suffices *)
Fixpoint ri_loop (ptr : Z) (fuel : nat) (it : rbit) : out (option rebase) * rbit :=
  match fuel with
  | O => (Panic, it)
  | S fuel =>
    match rop_next (ri_ops it) with
    | (Ok None, d) => (Ok None, ri_with_ops it d)
    | (Err, d) => (Err, ri_with_ops it d)
    | (Panic, d) => (Panic, ri_with_ops it d)
    | (Ok (Some (_, op)), d) =>
      let it := ri_with_ops it d in
      match op with
      | RDone => (Ok None, it)
      | RSetType k => ri_loop ptr fuel {| ri_ops := d; ri_remaining := ri_remaining it; ri_advance := ri_advance it; ri_set_segment := ri_set_segment it; ri_set_type := true;
                                         ri_rebase := {| rb_segment := rb_segment (ri_rebase it); rb_offset := rb_offset (ri_rebase it); rb_kind := k |} |}
      | RSetSegment i o => ri_loop ptr fuel {| ri_ops := d; ri_remaining := ri_remaining it; ri_advance := ri_advance it; ri_set_segment := true; ri_set_type := ri_set_type it;
                                              ri_rebase := {| rb_segment := i; rb_offset := o; rb_kind := rb_kind (ri_rebase it) |} |}
      | RAddAddr o => ri_loop ptr fuel (ri_with_offset it (wrap_u 64 (rb_offset (ri_rebase it) + o)))
      | RAddScaled n =>
        match pmul 64 n ptr with
        | Ok x => ri_loop ptr fuel (ri_with_offset it (wrap_u 64 (rb_offset (ri_rebase it) + x)))
        | _ => (Panic, it)
        end
      | RTimes n => if n =? 0 then ri_loop ptr fuel it else ri_emit (ri_with_count it n ptr)
      | RRebaseAdd o => ri_emit (ri_with_count it 1 (wrap_u 64 (ptr + o)))
      | RSkipping n skip => if n =? 0 then ri_loop ptr fuel it else ri_emit (ri_with_count it n (wrap_u 64 (ptr + skip)))
      end
    end
  end.
(** 363-370 [next], 372-432 [next_inner] *)
Definition rbit_next (ptr : Z) (it : rbit) : out (option rebase) * rbit :=
  let r := if negb (ri_remaining it =? 0) then ri_emit it else ri_loop ptr (S (length (ri_ops it))) it in
  match r with
  | (Err, it) => (Err, ri_with_count (ri_with_ops it []) 0 (ri_advance it))
  | r => r
  end.

(** * Bind operations *)
(** 486-549 [BindOperation] *)
Inductive bop :=
| BDone | BSetOrdinal (ordinal : Z) | BSetSpecial (ordinal : Z) | BSetSymbol (flags : Z) (name : bytes) | BSetType (kind : Z) | BSetAddend (addend : Z)
| BSetSegment (index offset : Z) | BAddAddr (offset : Z) | BBind | BBindAdd (offset : Z) | BBindScaled (count : Z) | BSkipping (count skip : Z).
(** 552-617 [BindOperation::parse]; [!MASK | immediate as i8] *)
Definition bop_parse (data : bytes) : out (Z * bop) * bytes :=
  do b, data <- b_read data 1 ;;
  let byte := read_u Little b in
  let opcode := Z.land byte 240 in
  let immediate := Z.land byte 15 in
  if opcode =? 0 then (Ok (opcode, BDone), data)
  else if opcode =? 16 then (Ok (opcode, BSetOrdinal immediate), data)
  else if opcode =? 32 then do ordinal, data <- read_uleb128 data ;; (Ok (opcode, BSetOrdinal ordinal), data)
  else if opcode =? 48 then (Ok (opcode, BSetSpecial (if immediate =? 0 then 0 else wrap_s 8 (Z.lor 240 immediate))), data)
  else if opcode =? 64 then do name, data <- b_read_string data ;; (Ok (opcode, BSetSymbol immediate name), data)
  else if opcode =? 80 then (Ok (opcode, BSetType immediate), data)
  else if opcode =? 96 then do addend, data <- read_sleb128 data ;; (Ok (opcode, BSetAddend addend), data)
  else if opcode =? 112 then do offset, data <- read_uleb128 data ;; (Ok (opcode, BSetSegment immediate offset), data)
  else if opcode =? 128 then do offset, data <- read_uleb128 data ;; (Ok (opcode, BAddAddr offset), data)
  else if opcode =? 144 then (Ok (opcode, BBind), data)
  else if opcode =? 160 then do offset, data <- read_uleb128 data ;; (Ok (opcode, BBindAdd offset), data)
  else if opcode =? 176 then (Ok (opcode, BBindScaled immediate), data)
  else if opcode =? 192 then
    do count, data <- read_uleb128 data ;; do skip, data <- read_uleb128 data ;; (Ok (opcode, BSkipping count skip), data)
  else (Err, data).
(** 459-468 [BindOperationIterator::next] *)
Definition bop_next : bytes -> out (option (Z * bop)) * bytes := seq_next bop_parse.

(** * Binds *)
(** 627-642 [Bind] *)
Record bind_ := { bd_segment : Z; bd_offset : Z; bd_kind : Z; bd_dylib : Z; bd_symbol : bytes; bd_flags : Z; bd_addend : Z }.
(** 652-666 [BindIterator], without the pointer size and [lazy] *)
Record bdit := { bi_ops : bytes; bi_remaining : Z; bi_advance : Z; bi_set_segment : bool; bi_set_type : bool; bi_set_dylib : bool; bi_set_symbol : bool; bi_bind : bind_ }.
(** 693-721 [new_internal] *)
Definition bdit_internal (data : bytes) (kind dylib : option Z) : bdit :=
  {| bi_ops := data; bi_remaining := 0; bi_advance := 0; bi_set_segment := false; bi_set_type := match kind with Some _ => true | None => false end;
     bi_set_dylib := match dylib with Some _ => true | None => false end; bi_set_symbol := false;
     bi_bind := {| bd_segment := 0; bd_offset := 0; bd_kind := match kind with Some k => k | None => 0 end; bd_dylib := match dylib with Some d => d | None => 0 end;
                   bd_symbol := []; bd_flags := 0; bd_addend := 0 |} |}.
(** 669-671 [new], 673-681 [new_weak], 683-691 [new_lazy] *)
Definition bdit_new (data : bytes) : bdit := bdit_internal data None None.
Definition bdit_weak (data : bytes) : bdit := bdit_internal data (Some 1) (Some (-3)).
Definition bdit_lazy (data : bytes) : bdit := bdit_internal data (Some 1) None.
(** record updates *)
Definition bi_with_ops (it : bdit) (d : bytes) : bdit :=
  {| bi_ops := d; bi_remaining := bi_remaining it; bi_advance := bi_advance it; bi_set_segment := bi_set_segment it; bi_set_type := bi_set_type it; bi_set_dylib := bi_set_dylib it;
     bi_set_symbol := bi_set_symbol it; bi_bind := bi_bind it |}.
Definition bi_with_count (it : bdit) (n a : Z) : bdit :=
  {| bi_ops := bi_ops it; bi_remaining := n; bi_advance := a; bi_set_segment := bi_set_segment it; bi_set_type := bi_set_type it; bi_set_dylib := bi_set_dylib it;
     bi_set_symbol := bi_set_symbol it; bi_bind := bi_bind it |}.
Definition bd_at (b : bind_) (i o : Z) : bind_ :=
  {| bd_segment := i; bd_offset := o; bd_kind := bd_kind b; bd_dylib := bd_dylib b; bd_symbol := bd_symbol b; bd_flags := bd_flags b; bd_addend := bd_addend b |}.
Definition bi_with (it : bdit) (seg ty dy sy : bool) (b : bind_) : bdit :=
  {| bi_ops := bi_ops it; bi_remaining := bi_remaining it; bi_advance := bi_advance it; bi_set_segment := seg || bi_set_segment it; bi_set_type := ty || bi_set_type it;
     bi_set_dylib := dy || bi_set_dylib it; bi_set_symbol := sy || bi_set_symbol it; bi_bind := b |}.
(** 734-751 *)
Definition bi_emit (it : bdit) : out (option bind_) * bdit :=
  if negb (bi_set_segment it) then (Err, it)
  else if negb (bi_set_type it) then (Err, it)
  else if negb (bi_set_dylib it) then (Err, it)
  else if negb (bi_set_symbol it) then (Err, it)
  else let b := bi_bind it in
       let it := bi_with it false false false false (bd_at b (bd_segment b) (wrap_u 64 (bd_offset b + bi_advance it))) in
       match psub (bi_remaining it) 1 with
       | Ok n => (Ok (Some b), bi_with_count it n (bi_advance it))
       | _ => (Panic, it)
       end.
(** 752-822 *)
Fixpoint bi_loop (lazy : bool) (ptr : Z) (fuel : nat) (it : bdit) : out (option bind_) * bdit :=
  match fuel with
  | O => (Panic, it)
  | S fuel =>
    match bop_next (bi_ops it) with
    | (Ok None, d) => (Ok None, bi_with_ops it d)
    | (Err, d) => (Err, bi_with_ops it d)
    | (Panic, d) => (Panic, bi_with_ops it d)
    | (Ok (Some (_, op)), d) =>
      let it := bi_with_ops it d in
      let b := bi_bind it in
      match op with
      | BDone => if lazy then bi_loop lazy ptr fuel (bdit_lazy d) else (Ok None, it)
      | BSetOrdinal n =>
        if n <? 2 ^ 31 then
          bi_loop lazy ptr fuel (bi_with it false false true false
            {| bd_segment := bd_segment b; bd_offset := bd_offset b; bd_kind := bd_kind b; bd_dylib := n; bd_symbol := bd_symbol b; bd_flags := bd_flags b; bd_addend := bd_addend b |})
        else (Err, it)
      | BSetSpecial n =>
        bi_loop lazy ptr fuel (bi_with it false false true false
          {| bd_segment := bd_segment b; bd_offset := bd_offset b; bd_kind := bd_kind b; bd_dylib := n; bd_symbol := bd_symbol b; bd_flags := bd_flags b; bd_addend := bd_addend b |})
      | BSetSymbol f n =>
        bi_loop lazy ptr fuel (bi_with it false false false true
          {| bd_segment := bd_segment b; bd_offset := bd_offset b; bd_kind := bd_kind b; bd_dylib := bd_dylib b; bd_symbol := n; bd_flags := f; bd_addend := bd_addend b |})
      | BSetType k =>
        bi_loop lazy ptr fuel (bi_with it false true false false
          {| bd_segment := bd_segment b; bd_offset := bd_offset b; bd_kind := k; bd_dylib := bd_dylib b; bd_symbol := bd_symbol b; bd_flags := bd_flags b; bd_addend := bd_addend b |})
      | BSetAddend a =>
        bi_loop lazy ptr fuel (bi_with it false false false false
          {| bd_segment := bd_segment b; bd_offset := bd_offset b; bd_kind := bd_kind b; bd_dylib := bd_dylib b; bd_symbol := bd_symbol b; bd_flags := bd_flags b; bd_addend := a |})
      | BSetSegment i o => bi_loop lazy ptr fuel (bi_with it true false false false (bd_at b i o))
      | BAddAddr o => bi_loop lazy ptr fuel (bi_with it false false false false (bd_at b (bd_segment b) (wrap_u 64 (bd_offset b + o))))
      | BBind => bi_emit (bi_with_count it 1 ptr)
      | BBindAdd o => bi_emit (bi_with_count it 1 (wrap_u 64 (ptr + o)))
      | BBindScaled n => match (m <- padd 64 n 1 ;; pmul 64 ptr m) with Ok x => bi_emit (bi_with_count it 1 x) | _ => (Panic, it) end
      | BSkipping n skip => if n =? 0 then bi_loop lazy ptr fuel it else bi_emit (bi_with_count it n (wrap_u 64 (ptr + skip)))
      end
    end
  end.
(** 724-731 [next], 733-823 [next_inner] *)
Definition bdit_next (lazy : bool) (ptr : Z) (it : bdit) : out (option bind_) * bdit :=
  let r := if negb (bi_remaining it =? 0) then bi_emit it else bi_loop lazy ptr (S (length (bi_ops it))) it in
  match r with
  | (Err, it) => (Err, bi_with_count (bi_with_ops it []) 0 (bi_advance it))
  | r => r
  end.
