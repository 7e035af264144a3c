(** Model of the ELF symbol hash tables: src/elf.rs (hash functions), src/write/elf/encoder.rs (writers),
    src/read/elf/hash.rs (readers).  Definitions only. *)
From Verif Require Export Core_model Str_model.

(** src/elf.rs 3004-3011 [hash] *)
Fixpoint elf_hash_loop (name : bytes) (hash : Z) : Z :=
  match name with
  | [] => hash
  | byte :: name =>
    let hash := wrap_u 32 (wrap_u 32 (hash * 16) + byte) in
    elf_hash_loop name (Z.lxor hash (Z.land (Z.shiftr hash 24) 240))
  end.
Definition elf_hash (name : bytes) : Z := Z.land (elf_hash_loop name 0) 268435455.
(** src/elf.rs 3038-3044 [gnu_hash] *)
Fixpoint gnu_hash_loop (name : bytes) (hash : Z) : Z :=
  match name with
  | [] => hash
  | byte :: name => gnu_hash_loop name (wrap_u 32 (wrap_u 32 (hash * 33) + byte))
  end.
Definition gnu_hash (name : bytes) : Z := gnu_hash_loop name 5381.

(** A field of [n] bytes at offset [off] of a Pod value. *)
Definition fld (e : endian) (off n : Z) (b : bytes) : Z := read_u e (zslice off n b).
Definition words (e : endian) (l : list Z) : bytes := concat (map (write_u e 4) l).

(** * SysV hash table *)
(** src/write/elf/encoder.rs 1106-1112: the loop over [i in 0..chain_count]; [n] iterations remain. *)
Fixpoint hw_loop (n : nat) (i bucket_count : Z) (hash : Z -> option Z) (buckets chains : list Z)
  : out (list Z * list Z) :=
  match n with
  | O => Ok (buckets, chains)
  | S n =>
    match hash i with
    | Some h =>
      if bucket_count =? 0 then Panic else
      let bucket := h mod bucket_count in
      old <- unwrap (zget buckets bucket) ;;
      _ <- unwrap (zget chains i) ;;
      hw_loop n (i + 1) bucket_count hash (zset buckets bucket i) (zset chains i old)
    | None => hw_loop n (i + 1) bucket_count hash buckets chains
    end
  end.
(** src/write/elf/encoder.rs 1099-1121 [hash_table]: the bytes written *)
Definition hash_table (e : endian) (bucket_count chain_count : Z) (hash : Z -> option Z) : out bytes :=
  '(buckets, chains) <- hw_loop (Z.to_nat chain_count) 0 bucket_count hash (zeros bucket_count) (zeros chain_count) ;;
  Ok (write_u e 4 bucket_count ++ write_u e 4 chain_count ++ words e buckets ++ words e chains).
(** src/write/elf/encoder.rs 1087-1091 [hash_size] *)
Definition hash_size (bucket_count chain_count : Z) : Z := 8 + bucket_count * 4 + chain_count * 4.

(** src/read/elf/hash.rs 25-37 [HashTable::parse]: (buckets, chains) *)
Definition ht_parse (e : endian) (data : bytes) : out (list Z * list Z) :=
  let '(r, offset) := rr_read data 0 8 in
  header <- r ;;
  let '(r, offset) := rr_read_slice data offset 4 (fld e 0 4 header) in
  buckets <- r ;;
  let '(r, offset) := rr_read_slice data offset 4 (fld e 4 4 header) in
  chains <- r ;;
  Ok (map (read_u e) buckets, map (read_u e) chains).
(** 40-42 [symbol_table_length] *)
Definition ht_symbol_table_length (t : list Z * list Z) : Z := wrap_u 32 (zlen (snd t)).
(** 44-52 [bucket]: outer [out] for the slice index panic *)
Definition ht_bucket (buckets : list Z) (hash : Z) : out (option Z) :=
  if zlen buckets =? 0 then Ok None
  else i <- unwrap (zget buckets (hash mod zlen buckets)) ;; Ok (Some i).

(** The symbol table seen by [find]: [nm] is, for each symbol, the result of its [name] method;
    [vm index] is [versions.matches(endian, index, version)].  (Symbol names: src/read/elf/symbol.rs 157-164,
    src/read/util.rs 297; versions: src/read/elf/version.rs 179-203.) *)
Definition name_is (nm : list (out bytes)) (index : Z) (name : bytes) : bool :=
  match zget nm index with Some (Ok n) => bytes_eqb n name | _ => false end.
(** 73-84: the [while] loop.  [fuel] is [chains.len() - i]. *)
Fixpoint ht_find_loop (fuel : nat) (chains : list Z) (nm : list (out bytes)) (vm : Z -> bool) (name : bytes) (index : Z)
  : option Z :=
  match fuel with
  | O => None
  | S fuel =>
    if index =? 0 then None
    else if name_is nm index name && vm index then Some index
    else match zget chains index with
         | None => None
         | Some index => ht_find_loop fuel chains nm vm name index
         end
  end.
(** 59-86 [HashTable::find]: the index of the symbol found *)
Definition ht_find (t : list Z * list Z) (nm : list (out bytes)) (vm : Z -> bool) (name : bytes) (hash : Z)
  : out (option Z) :=
  b <- ht_bucket (fst t) hash ;;
  match b with
  | None => Ok None
  | Some index => Ok (ht_find_loop (length (snd t)) (snd t) nm vm name index)
  end.

(** * GNU hash table *)
(** src/write/elf/encoder.rs 239-245 [GnuHashTable] (the description given to the writer) *)
Record gnu_desc := {
  gd_bucket_count : Z; gd_bloom_count : Z; gd_bloom_shift : Z; gd_symbol_base : Z; gd_symbol_count : Z
}.
(** src/write/elf/encoder.rs 1160-1180: the bloom filter loop for words of [wb] bits *)
Fixpoint gw_bloom (n : nat) (i wb : Z) (d : gnu_desc) (hash : Z -> Z) (filters : list Z) : out (list Z) :=
  match n with
  | O => Ok filters
  | S n =>
    let h := hash i in
    m <- psub (gd_bloom_count d) 1 ;;
    if 32 <=? gd_bloom_shift d then Panic else
    let idx := Z.land (h / wb) m in
    f <- unwrap (zget filters idx) ;;
    let bits := Z.lor (Z.shiftl 1 (h mod wb)) (Z.shiftl 1 (Z.shiftr h (gd_bloom_shift d) mod wb)) in
    gw_bloom n (i + 1) wb d hash (zset filters idx (Z.lor f bits))
  end.
(** 1185-1200: the bucket loop; [acc] are the words written so far, [bucket] the counter.
    The inner [while] that writes zero words is a [zeros]. *)
Fixpoint gw_buckets (n : nat) (i : Z) (d : gnu_desc) (hash : Z -> Z) (bucket : Z) (acc : list Z) : out (list Z * Z) :=
  match n with
  | O => Ok (acc, bucket)
  | S n =>
    if gd_bucket_count d =? 0 then Panic else
    let sb := hash i mod gd_bucket_count d in
    let '(acc, bucket) := if bucket <? sb then (acc ++ zeros (sb - bucket), sb) else (acc, bucket) in
    if bucket =? sb then
      w <- padd 32 (gd_symbol_base d) i ;;
      gw_buckets n (i + 1) d hash (bucket + 1) (acc ++ [w])
    else gw_buckets n (i + 1) d hash bucket acc
  end.
(** 1202-1211: the hash values *)
Definition gw_value (d : gnu_desc) (hash : Z -> Z) (i : Z) : Z :=
  if (i =? gd_symbol_count d - 1) ||
     negb (hash i mod gd_bucket_count d =? hash (i + 1) mod gd_bucket_count d)
  then Z.lor (hash i) 1 else Z.land (hash i) (2 ^ 32 - 1 - 1).
(** 1138-1212 [gnu_hash_table]: the bytes written *)
Definition gnu_hash_table (is64 : bool) (e : endian) (d : gnu_desc) (hash : Z -> Z) : out bytes :=
  let n := Z.to_nat (gd_symbol_count d) in
  let wb := if is64 then 64 else 32 in
  bloom <- gw_bloom n 0 wb d hash (zeros (gd_bloom_count d)) ;;
  '(buckets, bucket) <- gw_buckets n 0 d hash 0 [] ;;
  let buckets := buckets ++ zeros (gd_bucket_count d - bucket) in
  Ok (write_u e 4 (gd_bucket_count d) ++ write_u e 4 (gd_symbol_base d) ++
      write_u e 4 (gd_bloom_count d) ++ write_u e 4 (gd_bloom_shift d) ++
      concat (map (write_u e (if is64 then 8 else 4)) bloom) ++
      words e buckets ++ words e (map (gw_value d hash) (seqZ n))).
(** 1124-1130 [gnu_hash_size] *)
Definition gnu_hash_size (is64 : bool) (bloom_count bucket_count symbol_count : Z) : Z :=
  16 + bloom_count * (if is64 then 8 else 4) + bucket_count * 4 + symbol_count * 4.

(** src/read/elf/hash.rs 91-97 [GnuHashTable] *)
Record gnu_table := {
  gt_symbol_base : Z; gt_bloom_shift : Z; gt_bloom : bytes; gt_buckets : list Z; gt_values : list Z
}.
(** 112-136 [parse]; [ws] is the size of Elf::Word *)
Definition gt_parse (ws : Z) (e : endian) (data : bytes) : out gnu_table :=
  let '(r, offset) := rr_read data 0 16 in
  header <- r ;;
  let '(r, offset) := rr_read_bytes data offset (fld e 8 4 header * ws) in
  bloom <- r ;;
  let '(r, offset) := rr_read_slice data offset 4 (fld e 0 4 header) in
  buckets <- r ;;
  rest <- psub (zlen data) offset ;;
  let '(r, offset) := rr_read_slice data offset 4 (rest / 4) in
  values <- r ;;
  Ok {| gt_symbol_base := fld e 4 4 header; gt_bloom_shift := fld e 12 4 header; gt_bloom := bloom;
        gt_buckets := map (read_u e) buckets; gt_values := map (read_u e) values |}.

(** Iterator::max *)
Definition list_max (l : list Z) : option Z :=
  match l with [] => None | x :: l => Some (fold_left Z.max l x) end.
(** 155-164: the loop of [symbol_table_length]; [chain_length] is u32 *)
Fixpoint gt_length_loop (values : list Z) (max_bucket chain_length : Z) : out (option Z) :=
  match values with
  | [] => Ok None
  | v :: values =>
    chain_length <- padd 32 chain_length 1 ;;
    if negb (Z.land v 1 =? 0) then Ok (cadd 32 max_bucket chain_length)
    else gt_length_loop values max_bucket chain_length
  end.
(** 146-167 [symbol_table_length] *)
Definition gt_symbol_table_length (t : gnu_table) : out (option Z) :=
  if gt_symbol_base t =? 0 then Ok None else
  match list_max (gt_buckets t) with
  | None => Ok None
  | Some m =>
    match csub m (gt_symbol_base t) with
    | None => Ok None
    | Some s =>
      match get_from (gt_values t) s with
      | None => Ok None
      | Some vs => gt_length_loop vs m 0
      end
    end
  end.

(** 230-244: the loop over zipped symbols and values *)
Fixpoint gt_find_loop (nm : list (out bytes)) (values : list Z) (vm : Z -> bool) (name : bytes) (hash index : Z)
  : option Z :=
  match nm, values with
  | n :: nm, v :: values =>
    if (Z.lor v 1 =? Z.lor hash 1) &&
       (match n with Ok n => bytes_eqb n name | _ => false end) && vm index
    then Some index
    else if negb (Z.land v 1 =? 0) then None
    else gt_find_loop nm values vm name hash (index + 1)
  | _, _ => None
  end.
(** 181-246 [GnuHashTable::find].  [hash >> bloom_shift] panics in debug builds for a shift of 32 or more. *)
Definition gt_find (ws : Z) (e : endian) (t : gnu_table) (nm : list (out bytes)) (vm : Z -> bool) (name : bytes) (hash : Z)
  : out (option Z) :=
  let word_bits := ws * 8 in
  let bloom_count := zlen (gt_bloom t) / ws in
  if bloom_count =? 0 then Ok None else
  m <- psub (wrap_u 32 bloom_count) 1 ;;
  offset <- pmul 32 (Z.land (hash / word_bits) m) ws ;;
  match rr_read_at (gt_bloom t) offset ws with
  | Ok f =>
    let filter := read_u e f in
    if Z.land filter (Z.shiftl 1 (hash mod word_bits)) =? 0 then Ok None else
    if 32 <=? gt_bloom_shift t then Panic else
    if Z.land filter (Z.shiftl 1 (Z.shiftr hash (gt_bloom_shift t) mod word_bits)) =? 0 then Ok None else
    b <- ht_bucket (gt_buckets t) hash ;;
    match b with
    | None => Ok None
    | Some index =>
      if index =? 0 then Ok None else
      match get_from nm index with
      | None => Ok None
      | Some nms =>
        match csub index (gt_symbol_base t) with
        | None => Ok None
        | Some k =>
          match get_from (gt_values t) k with
          | None => Ok None
          | Some vs => Ok (gt_find_loop nms vs vm name hash index)
          end
        end
      end
    end
  | _ => Ok None
  end.
