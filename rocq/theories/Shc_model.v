(** Model of src/read/macho/dyld_cache.rs: dyld shared caches.  Definitions only. *)
From Verif Require Export Fix_model Enum_model.
From Verif Require CoffW_model.

(** * The header *)
(** 998-1002 [DyldCacheHeader::parse]; src/macho.rs 528-694: the size of the structure *)
Definition shc_header (data : bytes) : out bytes := rr_read_at data 0 552.
(** 1006-1018: the names in the table, after ["dyld_v1"] and before the null byte *)
Definition shc_arch (name : bytes) : option (arch * endian) :=
  if bytes_eqb name [32; 32; 32; 32; 105; 51; 56; 54] then Some (AI386, Little)
  else if bytes_eqb name [32; 32; 120; 56; 54; 95; 54; 52] then Some (AX86_64, Little)
  else if bytes_eqb name [32; 120; 56; 54; 95; 54; 52; 104] then Some (AX86_64, Little)
  else if bytes_eqb name [32; 32; 32; 32; 32; 112; 112; 99] then Some (APowerPc, Big)
  else if bytes_eqb name [32; 32; 32; 97; 114; 109; 118; 54] then Some (AArm, Little)
  else if bytes_eqb name [32; 32; 32; 97; 114; 109; 118; 55] then Some (AArm, Little)
  else if bytes_eqb name [32; 32; 97; 114; 109; 118; 55; 102] then Some (AArm, Little)
  else if bytes_eqb name [32; 32; 97; 114; 109; 118; 55; 115] then Some (AArm, Little)
  else if bytes_eqb name [32; 32; 97; 114; 109; 118; 55; 107] then Some (AArm, Little)
  else if bytes_eqb name [32; 32; 32; 97; 114; 109; 54; 52] then Some (AAarch64, Little)
  else if bytes_eqb name [32; 32; 97; 114; 109; 54; 52; 101] then Some (AAarch64, Little)
  else None.
(** 1005-1023 [parse_magic], for [E = Endianness] *)
Definition shc_magic (h : bytes) : out (arch * endian) :=
  if bytes_eqb (zslice 0 7 h) [100; 121; 108; 100; 95; 118; 49] && bytes_eqb (zslice 15 1 h) [0] then of_opt (shc_arch (zslice 7 8 h)) else Err.

(** 386-399 [DyldCacheMapping] (src/macho.rs 699-705, 725-734); without slide information in the first version *)
Record smap := { sm_address : Z; sm_size : Z; sm_offset : Z; sm_slide : option (Z * Z); sm_flags : Z; sm_max : Z; sm_init : Z }.
Definition smap1_of (e : endian) (b : bytes) : smap :=
  {| sm_address := fld e 0 8 b; sm_size := fld e 8 8 b; sm_offset := fld e 16 8 b; sm_slide := None; sm_flags := 0; sm_max := fld e 24 4 b; sm_init := fld e 28 4 b |}.
Definition smap2_of (e : endian) (b : bytes) : smap :=
  {| sm_address := fld e 0 8 b; sm_size := fld e 8 8 b; sm_offset := fld e 16 8 b; sm_slide := Some (fld e 24 8 b, fld e 32 8 b); sm_flags := fld e 40 8 b;
     sm_max := fld e 48 4 b; sm_init := fld e 52 4 b |}.
(** 1026-1049 [mappings] *)
Definition shc_mappings (e : endian) (h data : bytes) : out (list smap) :=
  if 0x140 <=? fld e 16 4 h then l <- rr_read_slice_at data (fld e 312 4 h) 56 (fld e 316 4 h) ;; Ok (map (smap2_of e) l)
  else l <- rr_read_slice_at data (fld e 16 4 h) 32 (fld e 20 4 h) ;; Ok (map (smap1_of e) l).
(** 29-37 [DyldSubCacheSlice], src/macho.rs 937-955; without a suffix in the first version *)
Record ssub := { su_uuid : bytes; su_vm : Z; su_suffix : option bytes }.
Definition ssub1_of (e : endian) (b : bytes) : ssub := {| su_uuid := zslice 0 16 b; su_vm := fld e 16 8 b; su_suffix := None |}.
Definition ssub2_of (e : endian) (b : bytes) : ssub := {| su_uuid := zslice 0 16 b; su_vm := fld e 16 8 b; su_suffix := Some (zslice 24 32 b) |}.
(** 1054-1080 [subcaches] *)
Definition shc_subcaches (e : endian) (h data : bytes) : out (option (list ssub)) :=
  if 0x1d0 <=? fld e 16 4 h then l <- rr_read_slice_at data (fld e 392 4 h) 56 (fld e 396 4 h) ;; Ok (Some (map (ssub2_of e) l))
  else if 0x1c8 <=? fld e 16 4 h then l <- rr_read_slice_at data (fld e 392 4 h) 24 (fld e 396 4 h) ;; Ok (Some (map (ssub1_of e) l))
  else Ok None.
(** 1083-1091 [symbols_subcache_uuid] *)
Definition shc_symbols_uuid (e : endian) (h : bytes) : option bytes :=
  if 0x1c8 <=? fld e 16 4 h then (if bytes_eqb (zslice 400 16 h) (zeros 16) then None else Some (zslice 400 16 h)) else None.
(** src/macho.rs 747-753 [DyldCacheImageInfo] *)
Record simage := { si_address : Z; si_mod_time : Z; si_inode : Z; si_path : Z; si_pad : Z }.
Definition simage_of (e : endian) (b : bytes) : simage :=
  {| si_address := fld e 0 8 b; si_mod_time := fld e 8 8 b; si_inode := fld e 16 8 b; si_path := fld e 24 4 b; si_pad := fld e 28 4 b |}.
(** 1094-1112 [images] *)
Definition shc_images (e : endian) (h data : bytes) : out (list simage) :=
  if 0x1c8 <=? fld e 16 4 h then l <- rr_read_slice_at data (fld e 448 4 h) 32 (fld e 452 4 h) ;; Ok (map (simage_of e) l)
  else l <- rr_read_slice_at data (fld e 24 4 h) 32 (fld e 28 4 h) ;; Ok (map (simage_of e) l).

(** * The cache *)
(** 226-236 [DyldFile]; 11-24 [DyldCache] *)
Record sfile := { sf_data : bytes; sf_maps : list smap }.
Record shc := { sc_endian : endian; sc_data : bytes; sc_files : list sfile; sc_images : list simage; sc_arch : arch }.
(** 125-134: the regular subcaches and their UUIDs, in step *)
Fixpoint sub_files (e : endian) (subs : list bytes) (infos : list ssub) : out (list sfile) :=
  match subs, infos with
  | data :: subs, i :: infos =>
    h <- shc_header data ;;
    if bytes_eqb (zslice 88 16 h) (su_uuid i) then
      m <- shc_mappings e h data ;; r <- sub_files e subs infos ;; Ok ({| sf_data := data; sf_maps := m |} :: r)
    else Err
  | _, _ => Ok []
  end.
(** 84-162 [parse]; [split_last] on an empty slice is the panic of its [unwrap] *)
Definition shc_parse (data : bytes) (subs : list bytes) : out shc :=
  h <- shc_header data ;;
  ' (a, e) <- shc_magic h ;;
  m <- shc_mappings e h data ;;
  let sym := shc_symbols_uuid e h in
  info <- shc_subcaches e h data ;;
  let infos := match info with Some l => l | None => [] end in
  if negb (zlen subs =? zlen infos + match sym with Some _ => 1 | None => 0 end) then Err else
  ' (symdata, rest) <- match sym with
                       | Some u => match subs with [] => Panic | _ => Ok (Some (last subs [], u), removelast subs) end
                       | None => Ok (None, subs)
                       end ;;
  fs <- match info with Some l => sub_files e rest l | None => Ok [] end ;;
  _ <- match symdata with
       | Some (d, u) => sh <- shc_header d ;; if bytes_eqb (zslice 88 16 sh) u then _ <- shc_mappings e sh d ;; Ok tt else Err
       | None => Ok tt
       end ;;
  im <- shc_images e h data ;;
  Ok {| sc_endian := e; sc_data := data; sc_files := {| sf_data := data; sf_maps := m |} :: fs; sc_images := im; sc_arch := a |}.
(** 66-70: the bytes of the suffix up to the first null byte *)
Fixpoint until_null (s : bytes) : bytes := match s with [] => [] | b :: r => if b =? 0 then [] else b :: until_null r end.
(** 59: a dot and the decimal digits of a positive number *)
Definition dot_number (i : Z) : bytes := 46 :: CoffW_model.dec_digits 20 i [].
(** 49-78 [subcache_suffixes]; for a suffix that is not valid UTF-8 (in which case the real function replaces the invalid parts), its bytes *)
Definition shc_suffixes (data : bytes) : out (list bytes) :=
  h <- shc_header data ;;
  ' (a, e) <- shc_magic h ;;
  info <- shc_subcaches e h data ;;
  match info with
  | None => Ok []
  | Some l =>
    let l := match l with
             | {| su_suffix := Some _ |} :: _ => map (fun s => match su_suffix s with Some x => until_null x | None => [] end) l
             | _ => map (fun i => dot_number (Z.of_nat i)) (seq 1 (length l))
             end in
    Ok (l ++ match shc_symbols_uuid e h with Some _ => [[46; 115; 121; 109; 98; 111; 108; 115]] | None => [] end)
  end.
(** 258-267 [address_to_file_offset] *)
Fixpoint map_offset (l : list smap) (address : Z) : option Z :=
  match l with
  | [] => None
  | m :: l =>
    match csub address (sm_address m) with
    | Some d => if d <? sm_size m then cadd 64 (sm_offset m) d else map_offset l address
    | None => map_offset l address
    end
  end.
(** 215-222 [data_and_offset_for_address] *)
Fixpoint files_offset (l : list sfile) (address : Z) : option (bytes * Z) :=
  match l with
  | [] => None
  | f :: l => match map_offset (sf_maps f) address with Some o => Some (sf_data f, o) | None => files_offset l address end
  end.
Definition shc_offset (c : shc) (address : Z) : option (bytes * Z) := files_offset (sc_files c) address.
(** 206-211 [mappings], each with the data of its file *)
Definition shc_all_mappings (c : shc) : list (bytes * smap) := concat (map (fun f => map (fun m => (sf_data f, m)) (sf_maps f)) (sc_files c)).
(** 472-476 [data] *)
Definition map_data (x : bytes * smap) : out bytes := rr_read_bytes_at (fst x) (sm_offset (snd x)) (sm_size (snd x)).
(** 1119-1124 [DyldCacheImageInfo::path], before the check for UTF-8 of 314-319 [path] *)
Definition image_path (c : shc) (i : simage) : out bytes := rr_read_bytes_at_until (sc_data c) (si_path i) (zlen (sc_data c)) 0.
(** 323-328 [image_data_and_offset] *)
Definition image_offset (c : shc) (i : simage) : out (bytes * Z) := of_opt (shc_offset c (si_address i)).

(** * Slide information *)
(** 538-556 [DyldCacheSlideInfo]: the fields that the iterators use *)
Inductive slide :=
| SNone
| S2 (page_size mask value_add : Z) (starts extras : list Z)
| S3 (page_size value_add : Z) (starts : list Z)
| S5 (page_size value_add : Z) (starts : list Z).
Definition words16 (e : endian) (data : bytes) (offset count : Z) : out (list Z) :=
  l <- rr_read_slice_at data offset 2 count ;; Ok (map (read_u e) l).
(** 1129-1205 [slide]; src/macho.rs 767-776, 789-795, 865-871 *)
Definition slide_of (e : endian) (data : bytes) (s : Z * Z) : out slide :=
  let '(off, size) := s in
  if size =? 0 then Ok SNone else
  vb <- rr_read_at data off 4 ;;
  let v := read_u e vb in
  if v =? 2 then
    b <- rr_read_at data off 40 ;;
    so <- of_opt (cadd 64 off (fld e 8 4 b)) ;;
    st <- words16 e data so (fld e 12 4 b) ;;
    xo <- of_opt (cadd 64 off (fld e 16 4 b)) ;;
    ex <- words16 e data xo (fld e 20 4 b) ;;
    Ok (S2 (fld e 4 4 b) (fld e 24 8 b) (fld e 32 8 b) st ex)
  else if v =? 3 then
    b <- rr_read_at data off 24 ;;
    so <- of_opt (cadd 64 off 24) ;;
    st <- words16 e data so (fld e 8 4 b) ;;
    Ok (S3 (fld e 4 4 b) (fld e 16 8 b) st)
  else if v =? 5 then
    b <- rr_read_at data off 24 ;;
    so <- of_opt (cadd 64 off 24) ;;
    st <- words16 e data so (fld e 8 4 b) ;;
    Ok (S5 (fld e 4 4 b) (fld e 16 8 b) st)
  else Err.

(** * Relocations *)
(** 958-972 [DyldRelocation], 985-993 [DyldRelocationAuth] *)
Record sreloc := { sr_offset : Z; sr_value : Z; sr_auth : option fauth }.
(** [u64::trailing_zeros] *)
Fixpoint ptz (p : positive) : Z := match p with xO p => 1 + ptz p | _ => 0 end.
Definition tz64 (z : Z) : Z := match z with Zpos p => ptz p | _ => 64 end.
(** the shift [>>] on u64, which panics on overflow in debug builds *)
Definition pshr (v k : Z) : out Z := if k <? 64 then Ok (Z.shiftr v k) else Panic.

(** the [loop] of the three iterators: [inl] is a return, [inr] another iteration *)
Section Loop.
Context {S A : Type} (step : S -> (out (option A) * S) + S).
Fixpoint st_loop (fuel : nat) (s : S) : out (option A) * S :=
  match fuel with O => (Panic, s) | Datatypes.S fuel => match step s with inl r => r | inr s => st_loop fuel s end end.
End Loop.

(** 609-637 [DyldCacheRelocationIteratorV2]: its parameters and its state *)
Record slide2 := { g2_mfo : Z; g2_page_size : Z; g2_mask : Z; g2_add : Z; g2_starts : list Z; g2_extras : list Z }.
Inductive state2 := R2Start | R2Extra | R2Page | R2PageExtra.
Record it2 := { i2_state : state2; i2_start : Z; i2_extra : Z; i2_page : Z; i2_offset : Z }.
Definition it2_new : it2 := {| i2_state := R2Start; i2_start := 0; i2_extra := 0; i2_page := 0; i2_offset := 0 |}.
Section V2.
Context (e : endian) (F : bytes) (g : slide2).
(** 646-716: one iteration of the loop *)
Definition r2_step (s : it2) : (out (option sreloc) * it2) + it2 :=
  match i2_state s with
  | R2Start =>
    match zget (g2_starts g) (i2_start s) with
    | None => inl (Ok None, s)
    | Some x =>
      match (po <- pmul 64 (i2_start s) (g2_page_size g) ;; n <- padd 64 (i2_start s) 1 ;; Ok (po, n)) with
      | Ok (po, n) =>
        if negb (Z.land x 0x4000 =? 0) then inr {| i2_state := R2Start; i2_start := n; i2_extra := i2_extra s; i2_page := po; i2_offset := i2_offset s |}
        else if negb (Z.land x 0x8000 =? 0) then inr {| i2_state := R2Extra; i2_start := n; i2_extra := Z.land x 0x3fff; i2_page := po; i2_offset := i2_offset s |}
        else inr {| i2_state := R2Page; i2_start := n; i2_extra := i2_extra s; i2_page := po; i2_offset := Z.land x 0x3fff * 4 |}
      | _ => inl (Panic, s)
      end
    end
  | R2Extra =>
    match zget (g2_extras g) (i2_extra s) with
    | None => inl (Ok None, s)
    | Some x =>
      match padd 64 (i2_extra s) 1 with
      | Ok n => inr {| i2_state := if negb (Z.land x 0x8000 =? 0) then R2Page else R2PageExtra; i2_start := i2_start s; i2_extra := n; i2_page := i2_page s;
                       i2_offset := Z.land x 0x3fff * 4 |}
      | _ => inl (Panic, s)
      end
    end
  | st =>
    let upd st o := {| i2_state := st; i2_start := i2_start s; i2_extra := i2_extra s; i2_page := i2_page s; i2_offset := o |} in
    let offset := i2_offset s in
    match (x <- of_opt (cadd 64 (g2_mfo g) (i2_page s)) ;; x <- of_opt (cadd 64 x offset) ;; rr_read_at F x 8) with
    | Ok b =>
      let p := read_u e b in
      match pshr (Z.land p (g2_mask g)) (tz64 (g2_mask g)) with
      | Ok next =>
        match (if next =? 0 then Ok (upd (match st with R2PageExtra => R2Extra | _ => R2Start end) offset)
               else d <- of_opt (cmul 64 next 4) ;; o <- of_opt (cadd 64 offset d) ;; Ok (upd st o)) with
        | Ok s' =>
          let value := Z.ldiff p (g2_mask g) in
          if value =? 0 then inr s' else inl (Ok (Some {| sr_offset := offset; sr_value := wrap_u 64 (value + g2_add g); sr_auth := None |}), s')
        | _ => inl (Err, s)
        end
      | _ => inl (Panic, s)
      end
    | Panic => inl (Panic, s)
    | Err => inl (Err, s)
    end
  end.
(** a bound on the iterations that are left *)
Definition r2_bound (s : it2) : Z :=
  let A := zlen F + 3 in let X := zlen (g2_extras g) in let off := Z.max 0 (zlen F + 1 - i2_offset s) in let ex := Z.max 0 (X - i2_extra s) in
  Z.max 0 (zlen (g2_starts g) - i2_start s) * ((X + 2) * A) + match i2_state s with R2Start => 0 | R2Extra => ex * A | R2Page => 1 + off | R2PageExtra => ex * A + 1 + off end.
(** 644-719 [next]; the loop never runs out of fuel (see [C92_total]) *)
Definition r2_next (s : it2) : out (option sreloc) * it2 := st_loop r2_step (S (Z.to_nat (r2_bound s))) s.
End V2.

(** src/macho.rs 804-854 [DyldCacheSlidePointer3] with dyld_cache.rs 779-812: the distance to the next pointer in units of 8 bytes, the value and the authentication *)
Definition slide_ptr3 (add v : Z) : Z * (Z * option fauth) :=
  (bits v 51 11,
   if bit v 63 then (wrap_u 64 (bits v 0 32 + add), Some {| fa_key := ptr_key (bits v 49 2); fa_diversity := bits v 32 16; fa_addr_div := bit v 48 |})
   else (Z.lor (bits v 0 43) (Z.shiftl (bits v 43 8) 56), None)).
(** src/macho.rs 880-925 [DyldCacheSlidePointer5] with dyld_cache.rs 911-944 *)
Definition slide_ptr5 (add v : Z) : Z * (Z * option fauth) :=
  (bits v 52 11,
   let value := wrap_u 64 (bits v 0 34 + add) in
   if bit v 63 then (value, Some {| fa_key := if bit v 51 then 2 else 0; fa_diversity := bits v 34 16; fa_addr_div := bit v 50 |})
   else (Z.lor value (Z.shiftl (bits v 34 8) 56), None)).
(** 727-745 [DyldCacheRelocationIteratorV3], 832-851 [DyldCacheRelocationIteratorV5]: they have the same fields, and their functions differ only in the pointer *)
Record slide3 := { g3_v5 : bool; g3_mfo : Z; g3_page_size : Z; g3_add : Z; g3_starts : list Z }.
Record it3 := { i3_page : bool; i3_start : Z; i3_offset : Z }.
Definition it3_new : it3 := {| i3_page := false; i3_start := 0; i3_offset := 0 |}.
Section V3.
Context (e : endian) (F : bytes) (g : slide3).
(** 752-815, 858-950: one iteration of the loop *)
Definition r3_step (s : it3) : (out (option sreloc) * it3) + it3 :=
  if i3_page s then
    match (x <- of_opt (cadd 64 (g3_mfo g) (i3_offset s)) ;; rr_read_at F x 8) with
    | Ok b =>
      let '(next, (value, auth)) := (if g3_v5 g then slide_ptr5 else slide_ptr3) (g3_add g) (read_u e b) in
      match (if next =? 0 then Ok {| i3_page := false; i3_start := i3_start s; i3_offset := i3_offset s |}
             else d <- pmul 64 next 8 ;; o <- of_opt (cadd 64 (i3_offset s) d) ;; Ok {| i3_page := true; i3_start := i3_start s; i3_offset := o |}) with
      | Ok s' => inl (Ok (Some {| sr_offset := i3_offset s; sr_value := value; sr_auth := auth |}), s')
      | Err => inl (Err, s)
      | Panic => inl (Panic, s)
      end
    | Err => inl (Err, s)
    | Panic => inl (Panic, s)
    end
  else
    match zget (g3_starts g) (i3_start s) with
    | None => inl (Ok None, s)
    | Some x =>
      match (po <- pmul 64 (i3_start s) (g3_page_size g) ;; n <- padd 64 (i3_start s) 1 ;; if x =? 65535 then Ok {| i3_page := false; i3_start := n; i3_offset := i3_offset s |}
             else o <- padd 64 po x ;; Ok {| i3_page := true; i3_start := n; i3_offset := o |}) with
      | Ok s' => inr s'
      | _ => inl (Panic, s)
      end
    end.
Definition r3_bound (s : it3) : Z := 2 * Z.max 0 (zlen (g3_starts g) - i3_start s) + (if i3_page s then 1 else 0).
(** 752-817, 858-953 [next] *)
Definition r3_next (s : it3) : out (option sreloc) * it3 := st_loop r3_step (S (Z.to_nat (r3_bound s))) s.
End V3.

(** 559-599 [DyldCacheRelocationIterator] and its [next]; [transpose] keeps the three cases *)
Inductive rel_it := RNone | RV2 (g : slide2) (s : it2) | RV3 (g : slide3) (s : it3).
Definition rel_next (e : endian) (F : bytes) (it : rel_it) : out (option sreloc) * rel_it :=
  match it with
  | RNone => (Ok None, RNone)
  | RV2 g s => let '(r, s) := r2_next e F g s in (r, RV2 g s)
  | RV3 g s => let '(r, s) := r3_next e F g s in (r, RV3 g s)
  end.
(** 479-534 [relocations] *)
Definition map_relocations (e : endian) (x : bytes * smap) : out rel_it :=
  let '(F, m) := x in
  match sm_slide m with
  | None => Ok RNone
  | Some s =>
    sl <- slide_of e F s ;;
    Ok match sl with
       | SNone => RNone
       | S2 ps mask add st ex => RV2 {| g2_mfo := sm_offset m; g2_page_size := ps; g2_mask := mask; g2_add := add; g2_starts := st; g2_extras := ex |} it2_new
       | S3 ps add st => RV3 {| g3_v5 := false; g3_mfo := sm_offset m; g3_page_size := ps; g3_add := add; g3_starts := st |} it3_new
       | S5 ps add st => RV3 {| g3_v5 := true; g3_mfo := sm_offset m; g3_page_size := ps; g3_add := add; g3_starts := st |} it3_new
       end
  end.
