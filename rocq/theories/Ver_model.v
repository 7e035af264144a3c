(** Model of the ELF symbol version sections: src/read/elf/version.rs (readers) and src/write/elf/encoder.rs,
    src/write/elf/writer.rs (writers).  Definitions only.  [usize] is 64 bits. *)
From Verif Require Export Iter_model Hash_model.

(** * Raw structs: src/elf.rs 2461-2476 [Verdef], 2617-2622 [Verdaux], 2627-2638 [Verneed], 2649-2665 [Vernaux].
    The reader returns a reference to the raw struct; the model returns its field values. *)
Record verdef := { vd_version : Z; vd_flags : Z; vd_ndx : Z; vd_cnt : Z; vd_hash : Z; vd_aux : Z; vd_next : Z }.
Record verdaux := { vda_name : Z; vda_next : Z }.
Record verneed := { vn_version : Z; vn_cnt : Z; vn_file : Z; vn_aux : Z; vn_next : Z }.
Record vernaux := { vna_hash : Z; vna_flags : Z; vna_other : Z; vna_name : Z; vna_next : Z }.
Definition verdef_of (e : endian) (b : bytes) : verdef :=
  {| vd_version := fld e 0 2 b; vd_flags := fld e 2 2 b; vd_ndx := fld e 4 2 b; vd_cnt := fld e 6 2 b;
     vd_hash := fld e 8 4 b; vd_aux := fld e 12 4 b; vd_next := fld e 16 4 b |}.
Definition verdaux_of (e : endian) (b : bytes) : verdaux := {| vda_name := fld e 0 4 b; vda_next := fld e 4 4 b |}.
Definition verneed_of (e : endian) (b : bytes) : verneed :=
  {| vn_version := fld e 0 2 b; vn_cnt := fld e 2 2 b; vn_file := fld e 4 4 b; vn_aux := fld e 8 4 b; vn_next := fld e 12 4 b |}.
Definition vernaux_of (e : endian) (b : bytes) : vernaux :=
  {| vna_hash := fld e 0 4 b; vna_flags := fld e 4 2 b; vna_other := fld e 6 2 b; vna_name := fld e 8 4 b; vna_next := fld e 12 4 b |}.

(** * Iterators: src/read/elf/version.rs *)
(** 271-275 [VerdauxIterator] and 399-403 [VernauxIterator]: remaining data and count *)
Notation aux_iter := (bytes * Z)%type.
(** 301-311 [VerdauxIterator::parse] *)
Definition verdaux_parse (e : endian) (data : bytes) : out verdaux * bytes :=
  match b_read_at data 0 8 with
  | Ok b => do _u, data <- b_skip data (vda_next (verdaux_of e b)) ;; (Ok (verdaux_of e b), data)
  | Err => (Err, data)
  | Panic => (Panic, data)
  end.
(** 287-299 [VerdauxIterator::next] *)
Definition verdaux_next (e : endian) (st : aux_iter) : out (option verdaux) * aux_iter :=
  let '(data, count) := st in
  if count =? 0 then (Ok None, st) else
  match verdaux_parse e data with
  | (Ok x, data) => match psub count 1 with
                    | Ok count => (Ok (Some x), (data, count))
                    | _ => (Panic, (data, count))
                    end
  | (Err, data) => (Err, (data, 0))
  | (Panic, data) => (Panic, (data, count))
  end.
(** 430-439 [VernauxIterator::parse] *)
Definition vernaux_parse (e : endian) (data : bytes) : out vernaux * bytes :=
  match b_read_at data 0 16 with
  | Ok b => do _u, data <- b_skip data (vna_next (vernaux_of e b)) ;; (Ok (vernaux_of e b), data)
  | Err => (Err, data)
  | Panic => (Panic, data)
  end.
(** 416-428 [VernauxIterator::next] *)
Definition vernaux_next (e : endian) (st : aux_iter) : out (option vernaux) * aux_iter :=
  let '(data, count) := st in
  if count =? 0 then (Ok None, st) else
  match vernaux_parse e data with
  | (Ok x, data) => match psub count 1 with
                    | Ok count => (Ok (Some x), (data, count))
                    | _ => (Panic, (data, count))
                    end
  | (Err, data) => (Err, (data, 0))
  | (Panic, data) => (Panic, (data, count))
  end.
(** 236-259 [VerdefIterator::parse] *)
Definition verdef_parse (e : endian) (data : bytes) : out (verdef * aux_iter) * bytes :=
  match b_read_at data 0 20 with
  | Ok b =>
    let vd := verdef_of e b in
    match b_skip data (vd_aux vd) with
    | (Ok _, aux_data) =>
      let verdaux := (aux_data, vd_cnt vd) in
      let next := vd_next vd in
      if negb (next =? 0) then do _u, data <- b_skip data next ;; (Ok (vd, verdaux), data)
      else (Ok (vd, verdaux), [])
    | (Err, _) => (Err, data)
    | (Panic, _) => (Panic, data)
    end
  | Err => (Err, data)
  | Panic => (Panic, data)
  end.
(** 222-234 [VerdefIterator::next] *)
Definition verdef_next (e : endian) : bytes -> out (option (verdef * aux_iter)) * bytes := seq_next (verdef_parse e).
(** 357-386 [VerneedIterator::parse] *)
Definition verneed_parse (e : endian) (data : bytes) : out (verneed * aux_iter) * bytes :=
  match b_read_at data 0 16 with
  | Ok b =>
    let vn := verneed_of e b in
    match b_skip data (vn_aux vn) with
    | (Ok _, aux_data) =>
      let vernaux := (aux_data, vn_cnt vn) in
      let next := vn_next vn in
      if negb (next =? 0) then do _u, data <- b_skip data next ;; (Ok (vn, vernaux), data)
      else (Ok (vn, vernaux), [])
    | (Err, _) => (Err, data)
    | (Panic, _) => (Panic, data)
    end
  | Err => (Err, data)
  | Panic => (Panic, data)
  end.
(** 338-355 [VerneedIterator::next] *)
Definition verneed_next (e : endian) : bytes -> out (option (verneed * aux_iter)) * bytes := seq_next (verneed_parse e).

(** * VersionTable *)
(** 11-18 [Version] *)
Record version := { v_name : bytes; v_hash : Z; v_valid : bool; v_file : option bytes }.
Definition version_default : version := {| v_name := []; v_hash := 0; v_valid := false; v_file := None |}.
(** [while let Some(x) = iter.next()? { body }] with the loop state [acc]; [fuel] bounds the iterations
    (running out of it is a [Panic], shown impossible). *)
Fixpoint while_let {S A B} (fuel : nat) (next : S -> out (option A) * S) (st : S) (body : B -> A -> out B) (acc : B) : out B :=
  match fuel with
  | O => Panic
  | Datatypes.S fuel =>
    match next st with
    | (Ok None, _) => Ok acc
    | (Ok (Some x), st) => acc <- body acc x ;; while_let fuel next st body acc
    | (Err, _) => Err
    | (Panic, _) => Panic
    end
  end.
(** A verdef/verneed step consumes at least one byte; an aux iterator ends after [count] steps. *)
Definition fuel_of (data : bytes) : nat := Datatypes.S (length data).
Definition aux_fuel (a : aux_iter) : nat := Datatypes.S (Z.to_nat (snd a)).
(** src/elf.rs 2484 [VER_FLG_BASE]; [contains] is [self.0 & bits == bits] (src/macros.rs) *)
Definition is_base (vd : verdef) : bool := Z.land (vd_flags vd) 1 =? 1.
(** src/elf.rs 2575-2577 [VersionIndex::is_special] *)
Definition is_special (i : Z) : bool := i <=? 1.
(** src/elf.rs 2419-2421 [VersymIndex::index], 2434-2436 [is_hidden] *)
Definition versym_index (v : Z) : Z := Z.land v 32767.
Definition versym_is_hidden (v : Z) : bool := Z.land v 32768 =? 32768.
(** src/read/elf/version.rs 49-52 [VersionTable]: [versyms] are the raw u16 values *)
Record vtable := { vt_symbols : list Z; vt_versions : list version }.
(** 72-83: the first loop over verdefs *)
Definition max_def (max_index : Z) (p : verdef * aux_iter) : out Z :=
  if is_base (fst p) then Ok max_index
  else Ok (if max_index <? vd_ndx (fst p) then vd_ndx (fst p) else max_index).
(** 84-93: the first loop over verneeds *)
Definition max_naux (max_index : Z) (a : vernaux) : out Z :=
  let index := versym_index (vna_other a) in
  Ok (if max_index <? index then index else max_index).
Definition max_need (e : endian) (max_index : Z) (p : verneed * aux_iter) : out Z :=
  while_let (aux_fuel (snd p)) (vernaux_next e) (snd p) max_naux max_index.
(** [versions[index] = v], with the bounds check *)
Definition set_version (vs : list version) (index : Z) (v : version) : out (list version) :=
  _ <- unwrap (zget vs index) ;; Ok (zset vs index v).
(** 100-117: the second loop over verdefs.  [strings] is the string table lookup. *)
Definition fill_def (e : endian) (strings : Z -> out bytes) (vs : list version) (p : verdef * aux_iter) : out (list version) :=
  let '(vd, auxs) := p in
  if is_base vd then Ok vs else
  let index := vd_ndx vd in
  if is_special index then Ok vs else
  match fst (verdaux_next e auxs) with
  | Ok (Some a) =>
    name <- strings (vda_name a) ;;
    set_version vs index {| v_name := name; v_hash := vd_hash vd; v_valid := true; v_file := None |}
  | Ok None => Ok vs
  | Err => Err
  | Panic => Panic
  end.
(** 119-135: the second loop over verneeds *)
Definition fill_naux (strings : Z -> out bytes) (vn : verneed) (vs : list version) (a : vernaux) : out (list version) :=
  let index := versym_index (vna_other a) in
  if is_special index then Ok vs else
  name <- strings (vna_name a) ;;
  file <- strings (vn_file vn) ;;
  set_version vs index {| v_name := name; v_hash := vna_hash a; v_valid := true; v_file := Some file |}.
Definition fill_need (e : endian) (strings : Z -> out bytes) (vs : list version) (p : verneed * aux_iter) : out (list version) :=
  while_let (aux_fuel (snd p)) (vernaux_next e) (snd p) (fill_naux strings (fst p)) vs.
(** [if let Some(mut iter) = data { while let ... }] *)
Definition opt_loop {A B} (next : bytes -> out (option A) * bytes) (data : option bytes) (body : B -> A -> out B) (acc : B) : out B :=
  match data with Some data => while_let (fuel_of data) next data body acc | None => Ok acc end.
(** 65-139 [VersionTable::parse]; [vec![default; max_index as usize + 1]] *)
Definition vt_parse (e : endian) (versyms : list Z) (verdefs verneeds : option bytes) (strings : Z -> out bytes) : out vtable :=
  max_index <- opt_loop (verdef_next e) verdefs max_def 0 ;;
  max_index <- opt_loop (verneed_next e) verneeds (max_need e) max_index ;;
  let versions := repeat version_default (Z.to_nat (max_index + 1)) in
  versions <- opt_loop (verdef_next e) verdefs (fill_def e strings) versions ;;
  versions <- opt_loop (verneed_next e) verneeds (fill_need e strings) versions ;;
  Ok {| vt_symbols := versyms; vt_versions := versions |}.
(** 147-154 [version_index] *)
Definition vt_version_index (t : vtable) (sym : Z) : Z :=
  match zget (vt_symbols t) sym with Some v => v | None => 1 end.
(** 160-169 [version] *)
Definition vt_version (t : vtable) (index : Z) : out (option version) :=
  if is_special index then Ok None else
  match zget (vt_versions t) index with
  | Some v => if v_valid v then Ok (Some v) else Err
  | None => Err
  end.
(** 176-203 [matches] *)
Definition vt_matches (t : vtable) (sym : Z) (need : option version) : bool :=
  let vi := vt_version_index t sym in
  match vt_version t (versym_index vi) with
  | Ok def =>
    match def, need with
    | Some def, Some need => (v_hash need =? v_hash def) && bytes_eqb (v_name need) (v_name def)
    | None, Some _ => false
    | Some _, None => negb (versym_is_hidden vi)
    | None, None => true
    end
  | _ => false
  end.

(** * Encoder: src/write/elf/encoder.rs; each function returns the bytes it appends *)
(** 271-283 [Verdef], 305-310 [Verneed], 327-334 [Vernaux] *)
Record wverdef := { wd_version : Z; wd_flags : Z; wd_index : Z; wd_aux_count : Z; wd_name : Z; wd_hash : Z }.
Record wverneed := { wn_version : Z; wn_aux_count : Z; wn_file : Z }.
Record wvernaux := { wa_flags : Z; wa_index : Z; wa_name : Z; wa_hash : Z }.
(** 1279-1290 [gnu_verdaux] *)
Definition gnu_verdaux (e : endian) (next : bool) (name : Z) : bytes :=
  write_u e 4 name ++ write_u e 4 (if next then 8 else 0).
(** 1231-1255 [gnu_verdef] ([20 + u32::from(aux_count) * 8] cannot overflow) *)
Definition verdef_bytes (e : endian) (d : wverdef) (vd_aux vd_next : Z) : bytes :=
  write_u e 2 (wd_version d) ++ write_u e 2 (wd_flags d) ++ write_u e 2 (wd_index d) ++ write_u e 2 (wd_aux_count d) ++
  write_u e 4 (wd_hash d) ++ write_u e 4 vd_aux ++ write_u e 4 vd_next.
Definition gnu_verdef (e : endian) (next : bool) (d : wverdef) : bytes :=
  verdef_bytes e d 20 (if next then 20 + wd_aux_count d * 8 else 0) ++
  gnu_verdaux e (1 <? wd_aux_count d) (wd_name d).
(** 1261-1274 [gnu_verdef_shared] *)
Definition gnu_verdef_shared (e : endian) (d : wverdef) : bytes := verdef_bytes e d (2 * 20) 20.
(** 1299-1324 [gnu_verneed] *)
Definition gnu_verneed (e : endian) (next : bool) (n : wverneed) : bytes :=
  write_u e 2 (wn_version n) ++ write_u e 2 (wn_aux_count n) ++ write_u e 4 (wn_file n) ++
  write_u e 4 (if negb (wn_aux_count n =? 0) then 16 else 0) ++
  write_u e 4 (if next then 16 + wn_aux_count n * 16 else 0).
(** 1327-1347 [gnu_vernaux] *)
Definition gnu_vernaux (e : endian) (next : bool) (a : wvernaux) : bytes :=
  write_u e 4 (wa_hash a) ++ write_u e 2 (wa_flags a) ++ write_u e 2 (wa_index a) ++ write_u e 4 (wa_name a) ++
  write_u e 4 (if next then 16 else 0).
(** 1225-1228 [gnu_verdef_size], 1293-1296 [gnu_verneed_size] *)
Definition gnu_verdef_size (verdef_count verdaux_count : Z) : Z := verdef_count * 20 + verdaux_count * 8.
Definition gnu_verneed_size (verneed_count vernaux_count : Z) : Z := verneed_count * 16 + vernaux_count * 16.

(** * Writer: src/write/elf/writer.rs, the version state of [Writer] *)
Record vwriter := { w_buf : bytes; w_def_rem : Z; w_daux_rem : Z; w_need_rem : Z; w_naux_rem : Z }.
(** 847-859 [write_gnu_verdef] (the written_verdaux_count bookkeeping is not modelled).
    Note that [gnu_verdaux_remaining] is set to [aux_count] although the encoder writes the first verdaux. *)
Definition write_gnu_verdef (e : endian) (w : vwriter) (d : wverdef) : out vwriter :=
  if w_def_rem w =? 0 then Panic else
  if wd_aux_count d =? 0 then Panic else
  Ok {| w_buf := w_buf w ++ gnu_verdef e (negb (w_def_rem w - 1 =? 0)) d;
        w_def_rem := w_def_rem w - 1; w_daux_rem := wd_aux_count d; w_need_rem := w_need_rem w; w_naux_rem := w_naux_rem w |}.
(** 866-876 [write_gnu_verdef_shared] *)
Definition write_gnu_verdef_shared (e : endian) (w : vwriter) (d : wverdef) : out vwriter :=
  if w_def_rem w =? 0 then Panic else
  if w_def_rem w - 1 =? 0 then Panic else
  if wd_aux_count d =? 0 then Panic else
  Ok {| w_buf := w_buf w ++ gnu_verdef_shared e d;
        w_def_rem := w_def_rem w - 1; w_daux_rem := 0; w_need_rem := w_need_rem w; w_naux_rem := w_naux_rem w |}.
(** 880-888 [write_gnu_verdaux] ([name] is the offset of the string) *)
Definition write_gnu_verdaux (e : endian) (w : vwriter) (name : Z) : out vwriter :=
  if w_daux_rem w =? 0 then Panic else
  Ok {| w_buf := w_buf w ++ gnu_verdaux e (negb (w_daux_rem w - 1 =? 0)) name;
        w_def_rem := w_def_rem w; w_daux_rem := w_daux_rem w - 1; w_need_rem := w_need_rem w; w_naux_rem := w_naux_rem w |}.
(** 933-945 [write_gnu_verneed] *)
Definition write_gnu_verneed (e : endian) (w : vwriter) (n : wverneed) : out vwriter :=
  if w_need_rem w =? 0 then Panic else
  Ok {| w_buf := w_buf w ++ gnu_verneed e (negb (w_need_rem w - 1 =? 0)) n;
        w_def_rem := w_def_rem w; w_daux_rem := w_daux_rem w; w_need_rem := w_need_rem w - 1;
        w_naux_rem := if negb (wn_aux_count n =? 0) then wn_aux_count n else w_naux_rem w |}.
(** 950-955 [write_gnu_vernaux] *)
Definition write_gnu_vernaux (e : endian) (w : vwriter) (a : wvernaux) : out vwriter :=
  if w_naux_rem w =? 0 then Panic else
  Ok {| w_buf := w_buf w ++ gnu_vernaux e (negb (w_naux_rem w - 1 =? 0)) a;
        w_def_rem := w_def_rem w; w_daux_rem := w_daux_rem w; w_need_rem := w_need_rem w; w_naux_rem := w_naux_rem w - 1 |}.
