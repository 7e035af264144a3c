(** Model of the PE reader: src/read/pe/{file,section,data_directory,relocation,rich,export,import,resource}.rs.  Definitions only.
    [is64] selects PE32+.  All fields are little-endian. *)
From Verif Require Export Coff_model.

(** * Addresses: src/read/pe/section.rs *)
(** Iterator::find_map *)
Fixpoint find_map {A B} (f : A -> option B) (l : list A) : option B :=
  match l with [] => None | x :: l => match f x with Some y => Some y | None => find_map f l end end.
(** 388-393 [pe_file_range] *)
Definition pe_file_range (s : csec) : Z * Z := (c_rawptr s, Z.min (c_vsize s) (c_rawsize s)).
(** 399-409 [pe_file_range_at] *)
Definition pe_file_range_at (s : csec) (va : Z) : option (Z * Z) :=
  match csub va (c_vaddr s) with
  | None => None
  | Some offset =>
    let '(section_offset, section_size) := pe_file_range s in
    if offset <? section_size then option_map (fun o => (o, section_size - offset)) (cadd 32 section_offset offset) else None
  end.
(** 419-423 [pe_data] *)
Definition pe_data (data : bytes) (s : csec) : out bytes := let '(offset, size) := pe_file_range s in rr_read_bytes_at data offset size.
(** Result::ok; a panic is kept *)
Definition ok_opt {A} (m : out A) : option A := match m with Ok x => Some x | _ => None end.
(** 431-434 [pe_data_at] *)
Definition pe_data_at (data : bytes) (s : csec) (va : Z) : option bytes :=
  match pe_file_range_at s va with Some (offset, size) => ok_opt (rr_read_bytes_at data offset size) | None => None end.
(** 437-446 [contains_rva] *)
Definition contains_rva (s : csec) (va : Z) : bool := match csub va (c_vaddr s) with None => false | Some offset => offset <? c_vsize s end.
(** 453-471 [pe_data_containing] *)
Definition pe_data_containing (data : bytes) (s : csec) (va : Z) : option (bytes * Z) :=
  match csub va (c_vaddr s) with
  | None => None
  | Some offset =>
    let '(section_offset, section_size) := pe_file_range s in
    if offset <? section_size then option_map (fun d => (d, c_vaddr s)) (ok_opt (rr_read_bytes_at data section_offset section_size)) else None
  end.
(** 345-382: the same over the section table *)
Definition t_file_range_at (t : list csec) (va : Z) : option (Z * Z) := find_map (fun s => pe_file_range_at s va) t.
Definition t_data_at (data : bytes) (t : list csec) (va : Z) : option bytes := find_map (fun s => pe_data_at data s va) t.
Definition t_data_containing (data : bytes) (t : list csec) (va : Z) : option (bytes * Z) := find_map (fun s => pe_data_containing data s va) t.
Definition t_section_containing (t : list csec) (va : Z) : option csec := find (fun s => contains_rva s va) t.

(** * Data directories: src/read/pe/data_directory.rs, as pairs of address and size (src/pe.rs 460-463) *)
Definition dir_of (b : bytes) : Z * Z := (fld Little 0 4 b, fld Little 4 4 b).
(** 27-32 [parse] *)
Definition dirs_parse (data : bytes) (number : Z) : out (list (Z * Z)) := l <- rr_read_slice_at data 0 8 number ;; Ok (map dir_of l).
(** 56-60 [get] *)
Definition dir_get (l : list (Z * Z)) (index : Z) : option (Z * Z) :=
  match zget l index with Some d => if negb (fst d =? 0) then Some d else None | None => None end.
(** 181-190 [file_range] *)
Definition dir_file_range (d : Z * Z) (t : list csec) : out (Z * Z) :=
  ' (offset, section_size) <- of_opt (t_file_range_at t (fst d)) ;;
  if section_size <? snd d then Err else Ok (offset, snd d).
(** 200-210 [data] *)
Definition dir_data (data : bytes) (d : Z * Z) (t : list csec) : out bytes := b <- of_opt (t_data_at data t (fst d)) ;; of_opt (get_to b (snd d)).

(** * Base relocations: src/read/pe/relocation.rs *)
(** 68-72 [RelocationIterator]: address, size, entries *)
Record rblock := { rb_va : Z; rb_size : Z; rb_relocs : list Z }.
(** 34-55 [parse] *)
Definition block_parse (data : bytes) : out rblock * bytes :=
  do h, data <- b_read data 8 ;;
  let size := fld Little 4 4 h in
  if (size <=? 8) || negb (Z.land size 3 =? 0) then (Err, data) else
  do l, data <- b_read_slice data 2 ((size - 8) / 2) ;;
  (Ok {| rb_va := fld Little 0 4 h; rb_size := size; rb_relocs := map (read_u Little) l |}, data).
(** 22-32 [next] *)
Definition block_next : bytes -> out (option rblock) * bytes := seq_next block_parse.
(** 89-99 [RelocationIterator::next] on the entries that are left: address and type *)
Fixpoint breloc_next (va : Z) (l : list Z) : out (option (Z * Z)) * list Z :=
  match l with
  | [] => (Ok None, [])
  | r :: l => if negb (r =? 0) then (Ok (Some (wrap_u 32 (va + Z.land r 4095), Z.shiftr r 12)), l) else breloc_next va l
  end.

(** * Rich header: src/read/pe/rich.rs *)
(** 83-92 [memmem]: [fuel] at least the length *)
Fixpoint memmem_loop (fuel : nat) (data needle : bytes) (al offset : Z) : out (option Z) :=
  match fuel with
  | O => Panic
  | S fuel =>
    match get_from data offset with
    | None => Ok None
    | Some d =>
      match get_to d (zlen needle) with
      | None => Ok None
      | Some p => if bytes_eqb p needle then Ok (Some offset) else o <- padd 64 offset al ;; memmem_loop fuel data needle al o
      end
    end
  end.
Definition memmem (data needle : bytes) (al : Z) : out (option Z) := memmem_loop (S (length data)) data needle al 0.
(** 12-27 [RichHeaderInfo] with the entries as masked pairs *)
Record rich := { ri_offset : Z; ri_length : Z; ri_key : Z; ri_entries : list (Z * Z) }.
(** 42-69 [parse] *)
Definition rich_parse (data : bytes) (nt_offset : Z) : out (option rich) :=
  match rr_read_bytes_at data 0 nt_offset with
  | Ok d =>
    e <- memmem d [82; 105; 99; 104] 4 ;;
    match e with
    | None => Ok None
    | Some e =>
      o <- padd 64 e 4 ;;
      match b_read_at d o 4 with
      | Ok kb =>
        let key := read_u Little kb in
        let start := write_u Little 4 (Z.lxor 1399742788 key) ++ kb ++ kb ++ kb in
        pre <- unwrap (get_to d e) ;;
        s <- memmem pre start 4 ;;
        match s with
        | None => Ok None
        | Some s =>
          items <- padd 64 s (zlen start) ;;
          n <- psub e items ;;
          match b_read_slice_at d items 8 (n / 8) with
          | Ok l => len <- psub e s ;; len <- padd 64 len 8 ;;
            Ok (Some {| ri_offset := s; ri_length := len; ri_key := key; ri_entries := map dir_of l |})
          | Err => Ok None
          | Panic => Panic
          end
        end
      | Err => Ok None
      | Panic => Panic
      end
    end
  | Err => Ok None
  | Panic => Panic
  end.
(** 72-80 [unmasked_entries] *)
Definition rich_entries (r : rich) : list (Z * Z) := map (fun '(a, b) => (Z.lxor a (ri_key r), Z.lxor b (ri_key r))) (ri_entries r).

(** * Export table: src/read/pe/export.rs *)
(** 127-135 [ExportTable]; the directory is kept as its 40 bytes *)
Record exptab := { ex_data : bytes; ex_va : Z; ex_dir : bytes; ex_base : Z; ex_addresses : list Z; ex_names : list Z; ex_ordinals : list Z }.
(** 139-197 [parse], 200-203 [parse_directory] *)
Definition export_parse (data : bytes) (va : Z) : out exptab :=
  d <- rr_read_at data 0 40 ;;
  let base := fld Little 16 4 d in
  if negb (base <? 2 ^ 16) then Err else
  let fns := fld Little 28 4 d in
  addresses <- (if fns =? 0 then Ok [] else
    let number := fld Little 20 4 d in
    m <- psub 65535 base ;;
    if m + 1 <? number then Err else
    l <- b_read_slice_at data (wrap_u 32 (fns - va)) 4 number ;; Ok (map (read_u Little) l)) ;;
  let nms := fld Little 32 4 d in
  let ords := fld Little 36 4 d in
  ' (names, ordinals) <- (if nms =? 0 then Ok ([], []) else
    if ords =? 0 then Err else
    let number := fld Little 24 4 d in
    l <- b_read_slice_at data (wrap_u 32 (nms - va)) 4 number ;;
    m <- b_read_slice_at data (wrap_u 32 (ords - va)) 2 number ;;
    Ok (map (read_u Little) l, map (read_u Little) m)) ;;
  Ok {| ex_data := data; ex_va := va; ex_dir := d; ex_base := base; ex_addresses := addresses; ex_names := names; ex_ordinals := ordinals |}.
(** 220-225 [ordinal_from_index] *)
Definition ordinal_from_index (t : exptab) (index : Z) : out Z := if zlen (ex_addresses t) <=? index then Err else padd 16 (ex_base t) index.
(** 230-236 [index_from_ordinal] *)
Definition index_from_ordinal (t : exptab) (ordinal : Z) : out Z :=
  let index := wrap_u 16 (ordinal - ex_base t) in if zlen (ex_addresses t) <=? index then Err else Ok index.
(** 247-258 [address_iter]: index, ordinal, address; the sum panics on overflow *)
Fixpoint address_iter (base i : Z) (l : list Z) : out (list (Z * Z * Z)) :=
  match l with
  | [] => Ok []
  | a :: l => o <- padd 16 base (wrap_u 16 i) ;; r <- address_iter base (i + 1) l ;; Ok ((wrap_u 16 i, o, a) :: r)
  end.
(** 294-300 [address_by_index], 306-309 [address_by_ordinal] *)
Definition address_by_index (t : exptab) (index : Z) : out Z := of_opt (zget (ex_addresses t) index).
Definition address_by_ordinal (t : exptab) (ordinal : Z) : out Z := i <- index_from_ordinal t ordinal ;; address_by_index t i.
(** 50-61 [ExportTarget] *)
Inductive etarget := TAddress (a : Z) | TOrdinal (lib : bytes) (ordinal : Z) | TName (lib name : bytes).
(** 409-419 [parse_ordinal] *)
Fixpoint ordinal_digits (l : bytes) (r : Z) : option Z :=
  match l with
  | [] => Some r
  | c :: l => if (48 <=? c) && (c <=? 57) then
      match cmul 16 r 10 with Some r => match cadd 16 r (c - 48) with Some r => ordinal_digits l r | None => None end | None => None end
    else None
  end.
Definition parse_ordinal (l : bytes) : option Z := match l with [] => None | _ => ordinal_digits l 0 end.
(** Iterator::rposition for a byte *)
Fixpoint rposition (b : Z) (l : bytes) : option Z :=
  match l with
  | [] => None
  | c :: l => match rposition b l with Some i => Some (i + 1) | None => if c =? b then Some 0 else None end
  end.
(** 347-354 [forward_offset], 362-371 [forward_string] *)
Definition forward_string (t : exptab) (address : Z) : out (option bytes) :=
  let offset := wrap_u 32 (address - ex_va t) in
  if offset <? zlen (ex_data t) then s <- b_read_string_at (ex_data t) offset ;; Ok (Some s) else Ok None.
(** 324-345 [target_from_address] *)
Definition target_from_address (t : exptab) (address : Z) : out etarget :=
  f <- forward_string t address ;;
  match f with
  | None => Ok (TAddress address)
  | Some forward =>
    i <- of_opt (rposition 46 forward) ;;
    lib <- unwrap (get_to forward i) ;;
    rest <- unwrap (get_from forward (i + 1)) ;;
    match rest with
    | [] => Err
    | c :: digits => if c =? 35 then o <- of_opt (parse_ordinal digits) ;; Ok (TOrdinal lib o) else Ok (TName lib rest)
    end
  end.
(** 374-379 [name_from_pointer] *)
Definition name_from_pointer (t : exptab) (p : Z) : out bytes := b_read_string_at (ex_data t) (wrap_u 32 (p - ex_va t)).
(** 82-91 [Export]: ordinal, name, target *)
Record pexport := { pe_ordinal : Z; pe_name : option bytes; pe_target : etarget }.
(** 382-406 [exports] *)
Fixpoint exports_targets (t : exptab) (l : list (Z * Z * Z)) : out (list pexport) :=
  match l with
  | [] => Ok []
  | (_, o, a) :: l => x <- target_from_address t a ;; r <- exports_targets t l ;; Ok ({| pe_ordinal := o; pe_name := None; pe_target := x |} :: r)
  end.
Fixpoint set_at {A} (l : list A) (i : nat) (f : A -> A) : list A :=
  match l, i with [], _ => [] | x :: l, O => f x :: l | x :: l, S i => x :: set_at l i f end.
Fixpoint exports_names (t : exptab) (l : list (Z * Z)) (r : list pexport) : out (list pexport) :=
  match l with
  | [] => Ok r
  | (p, i) :: l =>
    n <- name_from_pointer t p ;;
    _ <- of_opt (zget r i) ;;
    exports_names t l (set_at r (Z.to_nat i) (fun x => {| pe_ordinal := pe_ordinal x; pe_name := Some n; pe_target := pe_target x |}))
  end.
Definition pe_exports (t : exptab) : out (list pexport) :=
  l <- address_iter (ex_base t) 0 (ex_addresses t) ;;
  r <- exports_targets t l ;;
  exports_names t (combine (ex_names t) (ex_ordinals t)) r.
(** src/read/mod.rs [Export] as the iterator gives it: name or ordinal, target (addresses with the image base added), ordinal *)
Inductive nameord := NName (b : bytes) | NOrdinal (n : Z).
Record rexport := { rx_name : nameord; rx_target : etarget; rx_ordinal : Z }.
(** 422-433 [PeExportIterator]: index, flag, seen *)
Record expit := { ei_index : Z; ei_addresses : bool; ei_seen : list bool }.
(** 439-453 [new] (for a file with a table) *)
Definition expit_new (t : exptab) : expit := {| ei_index := 0; ei_addresses := false; ei_seen := map (fun _ => false) (ex_addresses t) |}.
(** 500-526 [export] *)
Definition mk_export (image_base : Z) (t : exptab) (address ordinal : Z) (n : nameord) : out (option rexport) :=
  x <- target_from_address t address ;;
  let x := match x with TAddress a => TAddress (wrap_u 64 (image_base + a)) | x => x end in
  Ok (Some {| rx_name := n; rx_target := x; rx_ordinal := ordinal |}).
(** 481-497: the addresses from [index]; structural on the addresses that are left *)
Fixpoint exp_addresses (image_base : Z) (t : exptab) (l : list Z) (index : Z) (seen : list bool) : out (option rexport) * expit :=
  match l with
  | [] => (Ok None, {| ei_index := index; ei_addresses := true; ei_seen := seen |})
  | address :: l =>
    let st := {| ei_index := index + 1; ei_addresses := true; ei_seen := seen |} in
    match unwrap (zget seen index) with
    | Ok s =>
      if s || (address =? 0) then exp_addresses image_base t l (index + 1) seen else
      (o <- ordinal_from_index t (wrap_u 16 index) ;; mk_export image_base t address o (NOrdinal o), st)
    | _ => (Panic, st)
    end
  end.
(** 455-498 [next] *)
Definition expit_next (image_base : Z) (t : exptab) (st : expit) : out (option rexport) * expit :=
  if negb (ei_addresses st) then
    match zget (ex_names t) (ei_index st), zget (ex_ordinals t) (ei_index st) with
    | Some p, Some i =>
      let seen := set_at (ei_seen st) (Z.to_nat i) (fun _ => true) in
      (a <- address_by_index t i ;; o <- ordinal_from_index t i ;; n <- name_from_pointer t p ;; mk_export image_base t a o (NName n),
       {| ei_index := ei_index st + 1; ei_addresses := false; ei_seen := seen |})
    | _, _ => exp_addresses image_base t (ex_addresses t) 0 (ei_seen st)
    end
  else exp_addresses image_base t (zdrop (ei_index st) (ex_addresses t)) (ei_index st) (ei_seen st).

(** * Imports: src/read/pe/import.rs *)
(** 16-22 [ImportTable]: address of the descriptors, section data and address, name section data and address *)
Record imptab := { it_va : Z; it_data : bytes; it_sva : Z; it_ndata : bytes; it_nva : Z }.
(** 34-42 [new] *)
Definition import_new (section_data : bytes) (section_va va : Z) : imptab :=
  {| it_va := va; it_data := section_data; it_sva := section_va; it_ndata := section_data; it_nva := section_va |}.
(** 153-156, 193-196, 399-402: the iterators: data that is left, and whether they have ended *)
Definition nullit := (bytes * bool)%type.
(** skip to an address *)
Definition at_address (data : bytes) (section_va va : Z) : out nullit :=
  match b_skip data (wrap_u 32 (va - section_va)) with (Ok _, d) => Ok (d, false) | (Err, _) => Err | (Panic, _) => Panic end.
(** 87-95 [descriptors], 110-116 [thunks] *)
Definition import_descriptors (t : imptab) : out nullit := at_address (it_data t) (it_sva t) (it_va t).
Definition import_thunks (t : imptab) (va : Z) : out nullit := at_address (it_data t) (it_sva t) va.
(** 100-104 [name] *)
Definition import_name (t : imptab) (va : Z) : out bytes := b_read_string_at (it_ndata t) (wrap_u 32 (va - it_nva t)).
(** the shape shared by 164-178, 213-227, 410-424: [size] bytes, ended by a null item *)
Definition null_next {A} (size : Z) (of : bytes -> A) (is_null : A -> bool) (st : nullit) : out (option A) * nullit :=
  let '(data, null) := st in
  if null then (Ok None, st) else
  match b_read data size with
  | (Ok b, data) => if is_null (of b) then (Ok None, (data, true)) else (Ok (Some (of b)), (data, false))
  | (Err, data) => (Err, (data, true))
  | (Panic, data) => (Panic, (data, null))
  end.
(** src/pe.rs 2324-2350 [ImageImportDescriptor] *)
Record idesc := { id_original : Z; id_time : Z; id_chain : Z; id_name : Z; id_first : Z }.
Definition idesc_of (b : bytes) : idesc :=
  {| id_original := fld Little 0 4 b; id_time := fld Little 4 4 b; id_chain := fld Little 8 4 b; id_name := fld Little 12 4 b; id_first := fld Little 16 4 b |}.
Definition idesc_null (d : idesc) : bool := (id_original d =? 0) && (id_time d =? 0) && (id_chain d =? 0) && (id_name d =? 0) && (id_first d =? 0).
Definition idesc_next : nullit -> out (option idesc) * nullit := null_next 20 idesc_of idesc_null.
(** src/pe.rs 2375-2407 [ImageDelayloadDescriptor] as the list of its 8 fields *)
Definition ddesc_of (b : bytes) : list Z := map (fun i => fld Little (4 * i) 4 b) [0; 1; 2; 3; 4; 5; 6; 7].
Definition ddesc_null (d : list Z) : bool := forallb (fun x => x =? 0) d.
Definition ddesc_next : nullit -> out (option (list Z)) * nullit := null_next 32 ddesc_of ddesc_null.
Definition dd_field (d : list Z) (i : Z) : Z := match zget d i with Some x => x | None => 0 end.
(** 242-298 [ImageThunkData]: raw value *)
Definition thunk_size (is64 : bool) : Z := if is64 then 8 else 4.
Definition thunk_is_ordinal (is64 : bool) (x : Z) : bool := negb (Z.land x (if is64 then 2 ^ 63 else 2 ^ 31) =? 0).
Definition thunk_ordinal (x : Z) : Z := wrap_u 16 x.
Definition thunk_address (x : Z) : Z := Z.land (wrap_u 32 x) 2147483647.
Definition thunk_next (is64 : bool) : nullit -> out (option Z) * nullit := null_next (thunk_size is64) (read_u Little) (fun x => thunk_address x =? 0).
(** 200-206 [ImportThunkList::get] *)
Definition thunk_get (is64 : bool) (st : nullit) (index : Z) : out Z :=
  o <- of_opt (cmul 64 index (thunk_size is64)) ;; b <- b_read_at (fst st) o (thunk_size is64) ;; Ok (read_u Little b).
(** 133-148, 379-394 [hint_name] *)
Definition hint_name (data : bytes) (section_va va : Z) : out (Z * bytes) :=
  match b_skip data (wrap_u 32 (va - section_va)) with
  | (Ok _, d) =>
    match b_read d 2 with
    | (Ok h, d) =>
      match b_read_string d with
      | (Ok [], _) => Err
      | (Ok n, _) => Ok (read_u Little h, n)
      | (Err, _) => Err
      | (Panic, _) => Panic
      end
    | (Err, _) => Err
    | (Panic, _) => Panic
    end
  | (Err, _) => Err
  | (Panic, _) => Panic
  end.
(** 119-126, 365-372 [import]: an ordinal, or a hint and a name *)
Inductive pimport := IOrdinal (n : Z) | IName (hint : Z) (name : bytes).
Definition thunk_import (is64 : bool) (data : bytes) (section_va : Z) (x : Z) : out pimport :=
  if thunk_is_ordinal is64 x then Ok (IOrdinal (thunk_ordinal x)) else ' (h, n) <- hint_name data section_va (thunk_address x) ;; Ok (IName h n).
Definition import_import (is64 : bool) (t : imptab) (x : Z) : out pimport := thunk_import is64 (it_ndata t) (it_nva t) x.
(** 55-84 [from_sections] *)
Definition import_from_sections (data : bytes) (t : list csec) (va : Z) : out imptab :=
  ' (d, sva) <- of_opt (t_data_containing data t va) ;;
  let imports := import_new d sva va in
  match import_descriptors imports with
  | Ok it =>
    match idesc_next it with
    | (Ok (Some desc), _) =>
      match t_data_containing data t (id_name desc) with
      | Some (nd, nva) => Ok {| it_va := va; it_data := d; it_sva := sva; it_ndata := nd; it_nva := nva |}
      | None => Ok imports
      end
    | (Panic, _) => Panic
    | _ => Ok imports
    end
  | Err => Ok imports
  | Panic => Panic
  end.
(** 306-310 [DelayLoadImportTable]: section data and address, address of the descriptors *)
Record dimptab := { dt_data : bytes; dt_sva : Z; dt_va : Z }.
Definition delay_descriptors (t : dimptab) : out nullit := at_address (dt_data t) (dt_sva t) (dt_va t).
Definition delay_thunks (t : dimptab) (va : Z) : out nullit := at_address (dt_data t) (dt_sva t) va.
Definition delay_name (t : dimptab) (va : Z) : out bytes := b_read_string_at (dt_data t) (wrap_u 32 (va - dt_sva t)).
Definition delay_import (is64 : bool) (t : dimptab) (x : Z) : out pimport := thunk_import is64 (dt_data t) (dt_sva t) x.
(** src/read/mod.rs [Import], [ImportLibrary] as the iterators give them: library, name or ordinal, delay flag *)
Definition as_nameord (i : pimport) : nameord := match i with IOrdinal n => NOrdinal n | IName _ n => NName n end.
(** 443-453, 545-557: [PeImportLibraryIterator], [PeImportIterator] (the first without thunks and library) *)
Record impit := { ii_table : option imptab; ii_descs : option nullit; ii_dtable : option dimptab; ii_ddescs : option nullit;
  ii_thunks : option nullit; ii_lib : bytes }.
(** 480-512 [PeImportLibraryIterator::next] *)
Definition lib_stage2 (st : impit) : out (option (bytes * bool)) * impit :=
  let fin := {| ii_table := None; ii_descs := ii_descs st; ii_dtable := None; ii_ddescs := None; ii_thunks := ii_thunks st; ii_lib := ii_lib st |} in
  match ii_dtable st with
  | None => (Ok None, st)
  | Some t =>
    match ii_ddescs st with
    | None => (Ok None, fin)
    | Some it =>
      let '(r, it') := ddesc_next it in
      let st' := {| ii_table := ii_table st; ii_descs := ii_descs st; ii_dtable := Some t; ii_ddescs := Some it'; ii_thunks := ii_thunks st; ii_lib := ii_lib st |} in
      match r with
      | Ok (Some d) => if Z.land (dd_field d 0) 1 =? 0 then (Err, st') else (n <- delay_name t (dd_field d 1) ;; Ok (Some (n, true)), st')
      | Ok None => (Ok None, fin)
      | Err => (Err, st')
      | Panic => (Panic, st')
      end
    end
  end.
Definition lib_next (st : impit) : out (option (bytes * bool)) * impit :=
  let skip := {| ii_table := None; ii_descs := None; ii_dtable := ii_dtable st; ii_ddescs := ii_ddescs st; ii_thunks := ii_thunks st; ii_lib := ii_lib st |} in
  match ii_table st with
  | None => lib_stage2 st
  | Some t =>
    match ii_descs st with
    | None => lib_stage2 skip
    | Some it =>
      let '(r, it') := idesc_next it in
      let st' := {| ii_table := Some t; ii_descs := Some it'; ii_dtable := ii_dtable st; ii_ddescs := ii_ddescs st; ii_thunks := ii_thunks st; ii_lib := ii_lib st |} in
      match r with
      | Ok (Some d) => (n <- import_name t (id_name d) ;; Ok (Some (n, false)), st')
      | Ok None => lib_stage2 skip
      | Err => (Err, st')
      | Panic => (Panic, st')
      end
    end
  end.
(** 586-645 [PeImportIterator::next]: the loops, [fuel] more than the number of descriptors left.  The result has the library. *)
Definition rimport := (bytes * nameord * bool)%type.
Fixpoint imp_stage2 (fuel : nat) (is64 : bool) (st : impit) : out (option rimport) * impit :=
  match fuel with
  | O => (Panic, st)
  | S fuel =>
    match ii_dtable st with
    | None => (Ok None, st)
    | Some t =>
      let desc (st : impit) :=
        match ii_ddescs st with
        | None => (Ok None, {| ii_table := ii_table st; ii_descs := ii_descs st; ii_dtable := None; ii_ddescs := None; ii_thunks := None; ii_lib := ii_lib st |})
        | Some it =>
          let '(r, it') := ddesc_next it in
          let st' := {| ii_table := ii_table st; ii_descs := ii_descs st; ii_dtable := Some t; ii_ddescs := Some it'; ii_thunks := None; ii_lib := ii_lib st |} in
          match r with
          | Ok (Some d) =>
            if Z.land (dd_field d 0) 1 =? 0 then (Err, st') else
            match delay_name t (dd_field d 1) with
            | Ok n =>
              let st' := {| ii_table := ii_table st; ii_descs := ii_descs st; ii_dtable := Some t; ii_ddescs := Some it'; ii_thunks := None; ii_lib := n |} in
              match delay_thunks t (dd_field d 4) with
              | Ok th => imp_stage2 fuel is64 {| ii_table := ii_table st; ii_descs := ii_descs st; ii_dtable := Some t; ii_ddescs := Some it'; ii_thunks := Some th; ii_lib := n |}
              | Err => (Err, st')
              | Panic => (Panic, st')
              end
            | Err => (Err, st')
            | Panic => (Panic, st')
            end
          | Ok None => (Ok None, {| ii_table := ii_table st; ii_descs := ii_descs st; ii_dtable := None; ii_ddescs := None; ii_thunks := None; ii_lib := ii_lib st |})
          | Err => (Err, st')
          | Panic => (Panic, st')
          end
        end in
      match ii_thunks st with
      | Some th =>
        let '(r, th') := thunk_next is64 th in
        let st' := {| ii_table := ii_table st; ii_descs := ii_descs st; ii_dtable := ii_dtable st; ii_ddescs := ii_ddescs st; ii_thunks := Some th'; ii_lib := ii_lib st |} in
        match r with
        | Ok (Some x) => (i <- delay_import is64 t x ;; Ok (Some (ii_lib st, as_nameord i, true)), st')
        | Ok None => desc {| ii_table := ii_table st; ii_descs := ii_descs st; ii_dtable := ii_dtable st; ii_ddescs := ii_ddescs st; ii_thunks := None; ii_lib := ii_lib st |}
        | Err => (Err, st')
        | Panic => (Panic, st')
        end
      | None => desc st
      end
    end
  end.
Fixpoint imp_stage1 (fuel fuel2 : nat) (is64 : bool) (st : impit) : out (option rimport) * impit :=
  match fuel with
  | O => (Panic, st)
  | S fuel =>
    match ii_table st with
    | None => imp_stage2 fuel2 is64 st
    | Some t =>
      let fin (st : impit) := imp_stage2 fuel2 is64 {| ii_table := None; ii_descs := None; ii_dtable := ii_dtable st; ii_ddescs := ii_ddescs st; ii_thunks := None; ii_lib := ii_lib st |} in
      let desc (st : impit) :=
        match ii_descs st with
        | None => fin st
        | Some it =>
          let '(r, it') := idesc_next it in
          let st' := {| ii_table := Some t; ii_descs := Some it'; ii_dtable := ii_dtable st; ii_ddescs := ii_ddescs st; ii_thunks := None; ii_lib := ii_lib st |} in
          match r with
          | Ok (Some d) =>
            match import_name t (id_name d) with
            | Ok n =>
              let st' := {| ii_table := Some t; ii_descs := Some it'; ii_dtable := ii_dtable st; ii_ddescs := ii_ddescs st; ii_thunks := None; ii_lib := n |} in
              match import_thunks t (if id_original d =? 0 then id_first d else id_original d) with
              | Ok th => imp_stage1 fuel fuel2 is64 {| ii_table := Some t; ii_descs := Some it'; ii_dtable := ii_dtable st; ii_ddescs := ii_ddescs st; ii_thunks := Some th; ii_lib := n |}
              | Err => (Err, st')
              | Panic => (Panic, st')
              end
            | Err => (Err, st')
            | Panic => (Panic, st')
            end
          | Ok None => fin st
          | Err => (Err, st')
          | Panic => (Panic, st')
          end
        end in
      match ii_thunks st with
      | Some th =>
        let '(r, th') := thunk_next is64 th in
        let st' := {| ii_table := ii_table st; ii_descs := ii_descs st; ii_dtable := ii_dtable st; ii_ddescs := ii_ddescs st; ii_thunks := Some th'; ii_lib := ii_lib st |} in
        match r with
        | Ok (Some x) => (i <- import_import is64 t x ;; Ok (Some (ii_lib st, as_nameord i, false)), st')
        | Ok None => desc {| ii_table := ii_table st; ii_descs := ii_descs st; ii_dtable := ii_dtable st; ii_ddescs := ii_ddescs st; ii_thunks := None; ii_lib := ii_lib st |}
        | Err => (Err, st')
        | Panic => (Panic, st')
        end
      | None => desc st
      end
    end
  end.
Definition descs_left (d : option nullit) : nat := match d with Some (b, _) => S (S (length b)) | None => 2%nat end.
Definition imp_next (is64 : bool) (st : impit) : out (option rimport) * impit := imp_stage1 (descs_left (ii_descs st)) (descs_left (ii_ddescs st)) is64 st.
(** 460-478, 564-584 [new]: from the tables *)
Definition opt_out {A B} (f : A -> out B) (o : option A) : out (option B) := match o with Some x => y <- f x ;; Ok (Some y) | None => Ok None end.
Definition impit_new (t : option imptab) (dt : option dimptab) : out impit :=
  d <- opt_out import_descriptors t ;;
  dd <- opt_out delay_descriptors dt ;;
  Ok {| ii_table := t; ii_descs := d; ii_dtable := dt; ii_ddescs := dd; ii_thunks := None; ii_lib := [] |}.

(** * Resources: src/read/pe/resource.rs *)
(** 30-35 [ResourceDirectoryTable]: header bytes and entries (name or id, offset) *)
Record rtable := { rt_header : bytes; rt_entries : list (Z * Z) }.
(** 38-49 [parse] *)
Definition rtable_parse (data : bytes) (offset : Z) : out rtable :=
  match rr_read data offset 16 with
  | (Ok h, o) =>
    n <- padd 64 (fld Little 14 2 h) (fld Little 12 2 h) ;;
    l <- fst (rr_read_slice data o 8 n) ;; Ok {| rt_header := h; rt_entries := map dir_of l |}
  | (Err, _) => Err
  | (Panic, _) => Panic
  end.
(** 54-90: the accessors of an entry *)
Inductive rname := RnName (offset : Z) | RnId (id : Z).
Definition re_name_or_id (e : Z * Z) : rname := if negb (Z.land (fst e) (2 ^ 31) =? 0) then RnName (Z.land (fst e) (2 ^ 31 - 1)) else RnId (wrap_u 16 (Z.land (fst e) 65535)).
Definition re_is_table (e : Z * Z) : bool := negb (Z.land (snd e) (2 ^ 31) =? 0).
Definition re_data_offset (e : Z * Z) : Z := Z.land (snd e) (2 ^ 31 - 1).
(** src/pe.rs 2499-2505 [ImageResourceDataEntry]: address, size, code page, reserved *)
Record rdata := { rd_va : Z; rd_size : Z; rd_page : Z; rd_reserved : Z }.
Definition rdata_of (b : bytes) : rdata := {| rd_va := fld Little 0 4 b; rd_size := fld Little 4 4 b; rd_page := fld Little 8 4 b; rd_reserved := fld Little 12 4 b |}.
Inductive rentry := ETable (t : rtable) | EData (d : rdata).
(** 93-107 [data] *)
Definition re_data (data : bytes) (e : Z * Z) : out rentry :=
  if re_is_table e then t <- rtable_parse data (re_data_offset e) ;; Ok (ETable t) else b <- rr_read_at data (re_data_offset e) 16 ;; Ok (EData (rdata_of b)).
(** 158-168 [ResourceName::data]: the UTF-16 code units *)
Definition rname_data (data : bytes) (offset : Z) : out (list Z) :=
  match rr_read data offset 2 with
  | (Ok h, o) => l <- fst (rr_read_slice data o 2 (fld Little 0 2 h)) ;; Ok (map (read_u Little) l)
  | (Err, _) => Err
  | (Panic, _) => Panic
  end.

(** * Files: src/read/pe/file.rs *)
(** src/pe.rs 473-505, 530-562, 569-581: sizes *)
Definition opt_size (is64 : bool) : Z := if is64 then 112 else 96.
Definition nt_size (is64 : bool) : Z := 24 + opt_size is64.
(** 552-561 [ImageDosHeader::parse]: the 64 bytes *)
Definition dos_parse (data : bytes) : out bytes := h <- rr_read_at data 0 64 ;; if negb (fld Little 0 2 h =? 23117) then Err else Ok h.
Definition dos_nt_offset (h : bytes) : Z := fld Little 60 4 h.
(** 574-587 [optional_header_magic] *)
Definition optional_header_magic (data : bytes) : out Z :=
  h <- dos_parse data ;;
  n <- rr_read_at data (dos_nt_offset h) 120 ;;
  if negb (fld Little 0 4 n =? 17744) then Err else Ok (fld Little 24 2 n).
(** the file header in the NT headers *)
Definition nt_file_header (n : bytes) : bytes := zslice 4 20 n.
Definition nt_nrva (is64 : bool) (n : bytes) : Z := fld Little (24 + opt_size is64 - 4) 4 n.
Definition nt_image_base (is64 : bool) (n : bytes) : Z := if is64 then fld Little 48 8 n else fld Little 52 4 n.
Definition nt_entry (n : bytes) : Z := fld Little 40 4 n.
Definition nt_section_alignment (n : bytes) : Z := fld Little 56 4 n.
(** 622-651 [ImageNtHeaders::parse]: headers, directories, offset of the section table *)
Definition nt_parse (is64 : bool) (data : bytes) (offset : Z) : out (bytes * list (Z * Z) * Z) :=
  match rr_read data offset (nt_size is64) with
  | (Ok n, o) =>
    if negb (fld Little 0 4 n =? 17744) then Err else
    if negb (fld Little 24 2 n =? (if is64 then 523 else 267)) then Err else
    size <- of_opt (csub (ch_opt (nt_file_header n)) (opt_size is64)) ;;
    match rr_read_bytes data o size with
    | (Ok od, o) => d <- dirs_parse od (nt_nrva is64 n) ;; Ok (n, d, o)
    | (Err, _) => Err
    | (Panic, _) => Panic
    end
  | (Err, _) => Err
  | (Panic, _) => Panic
  end.
(** 46-56 [PeFile] *)
Record pefile := { pf_is64 : bool; pf_dos : bytes; pf_nt : bytes; pf_dirs : list (Z * Z); pf_sections : list csec; pf_symbols : csymtab; pf_data : bytes }.
(** 64-85 [PeFile::parse]; a bad symbol table counts as an empty one *)
Definition pe_parse (is64 : bool) (data : bytes) : out pefile :=
  h <- dos_parse data ;;
  ' (n, d, o) <- nt_parse is64 data (dos_nt_offset h) ;;
  let fh := nt_file_header n in
  s <- coff_sections_parse false fh data o ;;
  y <- match coff_symbols_parse false fh data with
       | Ok y => Ok y
       | Err => Ok {| ct_big := false; ct_entries := []; ct_strings := (None, 0, 0) |}
       | Panic => Panic
       end ;;
  Ok {| pf_is64 := is64; pf_dos := h; pf_nt := n; pf_dirs := d; pf_sections := s; pf_symbols := y; pf_data := data |}.
(** data_directory.rs 81-164: the tables of a file *)
Definition pe_export_table (f : pefile) : out (option exptab) :=
  match dir_get (pf_dirs f) 0 with
  | None => Ok None
  | Some d => b <- dir_data (pf_data f) d (pf_sections f) ;; t <- export_parse b (fst d) ;; Ok (Some t)
  end.
Definition pe_import_table (f : pefile) : out (option imptab) :=
  match dir_get (pf_dirs f) 1 with
  | None => Ok None
  | Some d => t <- import_from_sections (pf_data f) (pf_sections f) (fst d) ;; Ok (Some t)
  end.
Definition pe_delay_table (f : pefile) : out (option dimptab) :=
  match dir_get (pf_dirs f) 13 with
  | None => Ok None
  | Some d => ' (b, sva) <- of_opt (t_data_containing (pf_data f) (pf_sections f) (fst d)) ;; Ok (Some {| dt_data := b; dt_sva := sva; dt_va := fst d |})
  end.
Definition pe_relocation_blocks (f : pefile) : out (option bytes) :=
  match dir_get (pf_dirs f) 5 with
  | None => Ok None
  | Some d => b <- dir_data (pf_data f) d (pf_sections f) ;; Ok (Some b)
  end.
Definition pe_resource_directory (f : pefile) : out (option bytes) :=
  match dir_get (pf_dirs f) 2 with
  | None => Ok None
  | Some d => b <- dir_data (pf_data f) d (pf_sections f) ;; Ok (Some b)
  end.
(** 350-401 [pdb_info]: path, GUID, age.  Directory entries have 28 bytes (src/pe.rs 3375-3384). *)
Fixpoint pdb_search (data : bytes) (l : list bytes) : out (option (bytes * bytes * Z)) :=
  match l with
  | [] => Ok None
  | d :: l =>
    if negb (fld Little 12 4 d =? 2) then pdb_search data l else
    info <- rr_read_bytes_at data (fld Little 24 4 d) (fld Little 16 4 d) ;;
    match b_read_bytes info 4 with
    | (Ok sig, info) =>
      if negb (bytes_eqb sig [82; 83; 68; 83]) then pdb_search data l else
      fst (do guid, info <- b_read_bytes info 16 ;;
           do age, info <- b_read info 4 ;;
           do path, info <- b_read_string info ;;
           (Ok (Some (path, guid, read_u Little age)), info))
    | (Err, _) => Err
    | (Panic, _) => Panic
    end
  end.
Definition pe_pdb_info (f : pefile) : out (option (bytes * bytes * Z)) :=
  match dir_get (pf_dirs f) 6 with
  | None => Ok None
  | Some d => b <- dir_data (pf_data f) d (pf_sections f) ;; l <- slice_from_all_bytes b 28 ;; pdb_search (pf_data f) l
  end.
(** section.rs 97-99, 255-257: address of a section; file.rs 411-414 [entry] *)
Definition pe_address (f : pefile) (s : csec) : Z := wrap_u 64 (c_vaddr s + nt_image_base (pf_is64 f) (pf_nt f)).
Definition pe_entry (f : pefile) : Z := wrap_u 64 (nt_entry (pf_nt f) + nt_image_base (pf_is64 f) (pf_nt f)).
