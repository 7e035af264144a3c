(** Model of Mach-O code signatures: src/read/macho/codesign.rs.  All numbers are big-endian. *)
From Verif Require Export Hash_model Ar_model.

(** 26-30 [CodeSignature]; the super blob header (src/macho.rs 5417-5427) and the index entries (5408-5413) are represented by their bytes *)
Record csig := { sg_data : bytes; sg_header : bytes; sg_index : list bytes }.
(** src/macho.rs 5255, 5257 *)
Definition cs_magic_directory : Z := 4208856066.
Definition cs_magic_signature : Z := 4208856256.
(** codesign.rs 36-52 [CodeSignature::parse] *)
Definition csig_parse (data : bytes) : out csig :=
  fst (do header, rest <- b_read data 12 ;;
       if negb (fld Big 0 4 header =? cs_magic_signature) then (Err, rest) else
       do index, rest <- b_read_slice rest 8 (fld Big 8 4 header) ;;
       (Ok {| sg_data := data; sg_header := header; sg_index := index |}, rest)).
(** 7-19 [LinkeditDataCommand::code_signature]; the fields of the load command are parameters *)
Definition code_signature (F : bytes) (dataoff datasize : Z) : out csig :=
  data <- rr_read_bytes_at F dataoff datasize ;; csig_parse data.
(** 87-88 [slot], [offset] of an index entry *)
Definition csig_entry (b : bytes) : Z * Z := (fld Big 0 4 b, fld Big 4 4 b).
(** 119-124 [CodeSignatureBlob] *)
Record csblob := { bl_slot : Z; bl_offset : Z; bl_magic : Z; bl_data : bytes }.
(** 77-80 [CodeSignatureBlobIterator] *)
Record csiter := { bi_data : bytes; bi_index : list bytes }.
(** 65-70 [blobs] *)
Definition csig_blobs (s : csig) : csiter := {| bi_data := sg_data s; bi_index := sg_index s |}.
(** 84-104 [next] *)
Definition csiter_next (s : csiter) : out (option csblob) * csiter :=
  match bi_index s with
  | [] => (Ok None, s)
  | index :: rest =>
    ((let '(slot, offset) := csig_entry index in
      header <- b_read_at (bi_data s) offset 8 ;;
      data <- b_read_bytes_at (bi_data s) offset (fld Big 4 4 header) ;;
      Ok (Some {| bl_slot := slot; bl_offset := offset; bl_magic := fld Big 0 4 header; bl_data := data |})),
     {| bi_data := bi_data s; bi_index := rest |})
  end.
(** 150-155 [contents]; 8 is the size of the generic blob header *)
Definition blob_contents (b : csblob) : bytes := match get_from (bl_data b) 8 with Some c => c | None => [] end.

(** 172-179 [CodeDirectory]; the structs (src/macho.rs 5336-5404) are represented by their bytes *)
Record cdir := { cd_data : bytes; cd_header : bytes; cd_v1 : option bytes; cd_v2 : option bytes; cd_v3 : option bytes; cd_v4 : option bytes }.
(** 195-230: one optional part *)
Definition cd_part (version since : Z) (rest : bytes) (size : Z) : out (option bytes) * bytes :=
  if since <=? version then do v, rest <- b_read rest size ;; (Ok (Some v), rest) else (Ok None, rest).
(** 185-240 [CodeDirectory::parse]; the versions are src/macho.rs 5275-5278 *)
Definition cdir_parse (data : bytes) : out cdir :=
  fst (do header, rest <- b_read data 44 ;;
       if negb (fld Big 0 4 header =? cs_magic_directory) then (Err, rest) else
       let version := fld Big 8 4 header in
       do v1, rest <- cd_part version 131328 rest 4 ;;
       do v2, rest <- cd_part version 131584 rest 4 ;;
       do v3, rest <- cd_part version 131840 rest 12 ;;
       do v4, rest <- cd_part version 132096 rest 24 ;;
       (Ok {| cd_data := data; cd_header := header; cd_v1 := v1; cd_v2 := v2; cd_v3 := v3; cd_v4 := v4 |}, rest)).
(** 160-165 [CodeSignatureBlob::code_directory] *)
Definition blob_code_directory (b : csblob) : out (option cdir) :=
  if negb (bl_magic b =? cs_magic_directory) then Ok None else d <- cdir_parse (bl_data b) ;; Ok (Some d).
(** fields of the header: src/macho.rs 5338-5364 *)
Definition cd_version (d : cdir) : Z := fld Big 8 4 (cd_header d).
Definition cd_flags (d : cdir) : Z := fld Big 12 4 (cd_header d).
Definition cd_hash_offset (d : cdir) : Z := fld Big 16 4 (cd_header d).
Definition cd_ident_offset (d : cdir) : Z := fld Big 20 4 (cd_header d).
Definition cd_n_special_slots (d : cdir) : Z := fld Big 24 4 (cd_header d).
Definition cd_n_code_slots (d : cdir) : Z := fld Big 28 4 (cd_header d).
Definition cd_code_limit32 (d : cdir) : Z := fld Big 32 4 (cd_header d).
Definition cd_hash_size (d : cdir) : Z := fld Big 36 1 (cd_header d).
Definition cd_hash_type (d : cdir) : Z := fld Big 37 1 (cd_header d).
Definition cd_page_size (d : cdir) : Z := fld Big 39 1 (cd_header d).
(** 255-257 [scatter_offset] *)
Definition cd_scatter_offset (d : cdir) : option Z := option_map (fld Big 0 4) (cd_v1 d).
(** 262-264 [team_offset] *)
Definition cd_team_offset (d : cdir) : option Z := option_map (fld Big 0 4) (cd_v2 d).
(** 282-284 [code_limit64] *)
Definition cd_code_limit64 (d : cdir) : option Z := option_map (fld Big 4 8) (cd_v3 d).
(** 269-274 [code_limit] *)
Definition cd_code_limit (d : cdir) : Z :=
  match cd_code_limit64 d with Some l => if negb (l =? 0) then l else cd_code_limit32 d | None => cd_code_limit32 d end.
(** 289-291 [exec_seg]: base, limit and flags *)
Definition cd_exec_seg (d : cdir) : option (Z * Z * Z) := option_map (fun b => (fld Big 0 8 b, fld Big 8 8 b, fld Big 16 8 b)) (cd_v4 d).
(** 294-298 [ident] *)
Definition cd_ident (d : cdir) : out bytes := b_read_string_at (cd_data d) (cd_ident_offset d).
(** 301-311 [team_id] *)
Definition cd_team_id (d : cdir) : out (option bytes) :=
  let team_offset := match cd_team_offset d with Some o => o | None => 0 end in
  if team_offset =? 0 then Ok None else t <- b_read_string_at (cd_data d) team_offset ;; Ok (Some t).
(** 319-333 [special_hash] *)
Definition cd_special_hash (d : cdir) (slot : Z) : out bytes :=
  if (slot <? 1) || (cd_n_special_slots d <? slot) then Err else
  o <- of_opt (cmul 32 slot (cd_hash_size d)) ;;
  offset <- of_opt (csub (cd_hash_offset d) o) ;;
  b_read_bytes_at (cd_data d) offset (cd_hash_size d).
(** 338-355 [code_hash] *)
Definition cd_code_hash (d : cdir) (index : Z) : out bytes :=
  if negb (match cd_scatter_offset d with Some o => o | None => 0 end =? 0) then Err else
  if cd_n_code_slots d <=? index then Err else
  o <- of_opt (cmul 32 index (cd_hash_size d)) ;;
  offset <- of_opt (cadd 32 o (cd_hash_offset d)) ;;
  b_read_bytes_at (cd_data d) offset (cd_hash_size d).
