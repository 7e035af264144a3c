(** Model of ELF note and GNU property iteration: src/read/elf/note.rs.  Definitions only.
    [usize] is 64 bits.  The iterator state is the remaining data. *)
From Verif Require Export Iter_model Hash_model.

(** src/read/elf/note.rs 38-50 [NoteIterator::new]: the alignment used *)
Definition note_align (al : Z) : out Z :=
  if (0 <=? al) && (al <=? 4) then Ok 4 else if al =? 8 then Ok 8 else Err.

(** 110-115 [Note]; the header is its 12 bytes (src/elf.rs 2681-2713 [NoteHeader32], [NoteHeader64]) *)
Record note := { nt_header : bytes; nt_name : bytes; nt_desc : bytes }.
(** 122-134 [n_type], [n_namesz], [n_descsz] *)
Definition n_namesz (e : endian) (n : note) : Z := fld e 0 4 (nt_header n).
Definition n_descsz (e : endian) (n : note) : Z := fld e 4 4 (nt_header n).
Definition n_type (e : endian) (n : note) : Z := fld e 8 4 (nt_header n).
(** 142-144 [name_bytes], 157-159 [desc] are the fields.  148-154 [name]: strips trailing zero bytes
    (the [while let] loop removes one zero byte per iteration). *)
Fixpoint strip_zeros (rev_name : bytes) : bytes :=
  match rev_name with 0 :: tl => strip_zeros tl | _ => rev_name end.
Definition note_name (n : note) : bytes := rev (strip_zeros (rev (nt_name n))).

(** 65-95 [parse] *)
Definition note_parse (e : endian) (al : Z) (data : bytes) : out note * bytes :=
  let r :=
    header <- b_read_at data 0 12 ;;
    let namesz := fld e 0 4 header in
    name <- b_read_bytes_at data 12 namesz ;;
    o <- padd 64 12 namesz ;;
    offset <- align 64 o al ;;
    let descsz := fld e 4 4 header in
    desc <- b_read_bytes_at data offset descsz ;;
    o <- padd 64 offset descsz ;;
    offset <- align 64 o al ;;
    Ok (offset, {| nt_header := header; nt_name := name; nt_desc := desc |}) in
  match r with
  | Ok (offset, n) =>
    match b_skip data offset with
    | (Ok _, data) => (Ok n, data)
    | (Err, _) => (Ok n, [])
    | (Panic, data) => (Panic, data)
    end
  | Err => (Err, data)
  | Panic => (Panic, data)
  end.
(** 53-62 [next] *)
Definition note_next (e : endian) (al : Z) (data : bytes) : out (option note) * bytes :=
  match data with
  | [] => (Ok None, data)
  | _ => match note_parse e al data with
         | (Ok n, data) => (Ok (Some n), data)
         | (Err, _) => (Err, [])
         | (Panic, data) => (Panic, data)
         end
  end.

(** * GNU properties *)
(** 278-281 [GnuProperty] *)
Record gprop := { pr_type : Z; pr_data : bytes }.
(** 165-182 [gnu_properties]: the alignment and data of the iterator *)
Definition gnu_properties (is64 : bool) (e : endian) (n : note) : option (Z * bytes) :=
  if negb (bytes_eqb (note_name n) [71; 78; 85]) || negb (n_type e n =? 5) then None
  else Some ((if is64 then 8 else 4), nt_desc n).
(** 259-270 [parse] *)
Definition prop_parse (e : endian) (al : Z) (data : bytes) : out gprop * bytes :=
  let r :=
    t <- b_read_at data 0 4 ;;
    sz <- b_read_at data 4 4 ;;
    let pr_datasz := read_u e sz in
    d <- b_read_bytes_at data 8 pr_datasz ;;
    o <- padd 64 8 pr_datasz ;;
    offset <- align 64 o al ;;
    Ok (offset, {| pr_type := read_u e t; pr_data := d |}) in
  match r with
  | Ok (offset, p) => do _u, data <- b_skip data offset ;; (Ok p, data)
  | Err => (Err, data)
  | Panic => (Panic, data)
  end.
(** 247-256 [next] *)
Definition prop_next (e : endian) (al : Z) (data : bytes) : out (option gprop) * bytes :=
  match data with
  | [] => (Ok None, data)
  | _ => match prop_parse e al data with
         | (Ok p, data) => (Ok (Some p), data)
         | (Err, _) => (Err, [])
         | (Panic, data) => (Panic, data)
         end
  end.
(** 300-305 [data_u32] *)
Definition prop_data_u32 (e : endian) (p : gprop) : out Z := b <- b_read_at (pr_data p) 0 4 ;; Ok (read_u e b).
