(** Model of how src/build/elf.rs counts and writes the GNU symbol version sections.  Definitions only.
    Version ids are positions in the table plus 2 (3038-3056); file ids are positions. *)
From Verif Require Export Build_model Ver_model.

(** 3132-3134 [VersionDef::is_shared] *)
Definition is_shared (names : list bytes) (index : Z) (base : option bytes) : bool :=
  (index =? 1) && (zlen names =? 1) &&
  match names, base with n :: _, Some b => bytes_eqb n b | [], None => true | _, _ => false end.
(** 1038-1043: the local variables; [vc_strs] are the strings added to [dynstr], [vc_files] is [out_version_files] *)
Record vcount := {
  vc_def : Z; vc_daux : Z; vc_shared : bool; vc_need : Z; vc_naux : Z; vc_strs : list bytes; vc_files : list (list Z) }.
(** 1044-1048 *)
Definition vc_init (base : option bytes) (files : list bfile) : vcount :=
  {| vc_def := match base with Some _ => 1 | None => 0 end; vc_daux := match base with Some _ => 1 | None => 0 end;
     vc_shared := false; vc_need := 0; vc_naux := 0; vc_strs := match base with Some b => [b] | None => [] end;
     vc_files := repeat [] (length files) |}.
(** 1050-1067: the body of the loop over the versions; [verdef_count] is u16 *)
Definition count_version (base : option bytes) (id : Z) (d : vdata) (c : vcount) : out vcount :=
  match d with
  | VDef names _ =>
    let sh := is_shared names (vc_def c) base in
    n <- padd 16 (vc_def c) 1 ;;
    Ok {| vc_def := n; vc_daux := if sh then vc_daux c else vc_daux c + zlen names;
          vc_shared := if sh then true else vc_shared c; vc_need := vc_need c; vc_naux := vc_naux c;
          vc_strs := if sh then vc_strs c else vc_strs c ++ names; vc_files := vc_files c |}
  | VNeed file name _ =>
    l <- unwrap (zget (vc_files c) file) ;;
    Ok {| vc_def := vc_def c; vc_daux := vc_daux c; vc_shared := vc_shared c; vc_need := vc_need c;
          vc_naux := vc_naux c + 1; vc_strs := vc_strs c ++ [name]; vc_files := zset (vc_files c) file (l ++ [id]) |}
  end.
(** 1049: [for version in &self.versions] visits the versions that are not deleted *)
Fixpoint count_versions (base : option bytes) (id : Z) (l : list bver) (c : vcount) : out vcount :=
  match l with
  | [] => Ok c
  | v :: l => c <- (if v_del v then Ok c else count_version base id (v_data v) c) ;; count_versions base (id + 1) l c
  end.
(** 1069-1072: [verneed_count] is u16 *)
Fixpoint count_files (l : list bfile) (c : vcount) : out vcount :=
  match l with
  | [] => Ok c
  | f :: l =>
    if f_del f then count_files l c else
    n <- padd 16 (vc_need c) 1 ;;
    count_files l {| vc_def := vc_def c; vc_daux := vc_daux c; vc_shared := vc_shared c; vc_need := n; vc_naux := vc_naux c;
                     vc_strs := vc_strs c ++ [f_name f]; vc_files := vc_files c |}
  end.
(** 1033-1073; the limit of 1035 is [VERSYM_VERSION] = 0x7fff *)
Definition count_all (base : option bytes) (files : list bfile) (vers : list bver) : out vcount :=
  if 32767 <? 2 + zlen vers - 1 then Err else
  c <- count_versions base 2 vers (vc_init base files) ;; count_files files c.

(** [dynstr.get_offset(dynstr.get_id(s))] *)
Definition str_offset (t : strtab) (s : bytes) : out Z := id <- st_get_id t s ;; st_get_offset t id.
Section Write.
Context (e : endian) (str : bytes -> out Z).
(** 1596-1604: the remaining names of a definition *)
Fixpoint w_verdauxs (aux_count : Z) (names : list bytes) : out bytes :=
  match names with
  | [] => Ok []
  | name :: names =>
    n <- psub aux_count 1 ;; o <- str name ;; rest <- w_verdauxs n names ;;
    Ok (gnu_verdaux e (negb (n =? 0)) o ++ rest)
  end.
(** 1577-1606 *)
Fixpoint w_verdefs (count id : Z) (l : list bver) : out bytes :=
  match l with
  | [] => Ok []
  | v :: l =>
    if v_del v then w_verdefs count (id + 1) l else
    match v_data v with
    | VNeed _ _ _ => w_verdefs count (id + 1) l
    | VDef names flags =>
      n <- psub count 1 ;;
      if 2 ^ 16 <=? zlen names then Err else
      match names with
      | [] => Err
      | name :: tl =>
        o <- str name ;;
        auxs <- w_verdauxs (zlen tl) tl ;;
        rest <- w_verdefs n (id + 1) l ;;
        Ok (gnu_verdef e (negb (n =? 0)) {| wd_version := 1; wd_flags := flags; wd_index := wrap_u 16 id;
              wd_aux_count := zlen names; wd_name := o; wd_hash := elf_hash name |} ++ auxs ++ rest)
      end
    end
  end.
(** 1559-1607 [SectionData::GnuVerdef]; VER_DEF_CURRENT = 1, VER_FLG_BASE = 1, VER_NDX_GLOBAL = 1 *)
Definition w_verdef_section (base : option bytes) (vers : list bver) (c : vcount) : out bytes :=
  match base with
  | None => w_verdefs (vc_def c) 2 vers
  | Some b =>
    n <- psub (vc_def c) 1 ;;
    o <- str b ;;
    let d := {| wd_version := 1; wd_flags := 1; wd_index := 1; wd_aux_count := 1; wd_name := o; wd_hash := elf_hash b |} in
    rest <- w_verdefs n 2 vers ;;
    Ok ((if vc_shared c then gnu_verdef_shared e d else gnu_verdef e (negb (n =? 0)) d) ++ rest)
  end.
(** 1624-1638: the versions of a file *)
Fixpoint w_vernauxs (vers : list bver) (aux_count : Z) (ids : list Z) : out bytes :=
  match ids with
  | [] => Ok []
  | id :: ids =>
    n <- psub aux_count 1 ;;
    v <- unwrap (zget vers (id - 2)) ;;
    match v_data v with
    | VDef _ _ => w_vernauxs vers n ids
    | VNeed _ name flags =>
      o <- str name ;; rest <- w_vernauxs vers n ids ;;
      Ok (gnu_vernaux e (negb (n =? 0)) {| wa_flags := flags; wa_index := wrap_u 16 id; wa_name := o; wa_hash := elf_hash name |} ++ rest)
    end
  end.
(** 1608-1640 [SectionData::GnuVerneed]; VER_NEED_CURRENT = 1 *)
Fixpoint w_verneeds (vers : list bver) (outs : list (list Z)) (count fid : Z) (files : list bfile) : out bytes :=
  match files with
  | [] => Ok []
  | f :: files =>
    if f_del f then w_verneeds vers outs count (fid + 1) files else
    ids <- unwrap (zget outs fid) ;;
    n <- psub count 1 ;;
    if 2 ^ 16 <=? zlen ids then Err else
    o <- str (f_name f) ;;
    auxs <- w_vernauxs vers (zlen ids) ids ;;
    rest <- w_verneeds vers outs n (fid + 1) files ;;
    Ok (gnu_verneed e (negb (n =? 0)) {| wn_version := 1; wn_aux_count := zlen ids; wn_file := o |} ++ auxs ++ rest)
  end.
Definition w_verneed_section (vers : list bver) (files : list bfile) (c : vcount) : out bytes :=
  w_verneeds vers (vc_files c) (vc_need c) 0 files.
End Write.

(** 2093-2110 [Builder::gnu_verdef_size] *)
Fixpoint size_verdefs (base : option bytes) (l : list bver) (verdefs verdauxs : Z) : out Z :=
  match l with
  | [] => Ok (gnu_verdef_size verdefs verdauxs)
  | v :: l =>
    if v_del v then size_verdefs base l verdefs verdauxs else
    match v_data v with
    | VNeed _ _ _ => size_verdefs base l verdefs verdauxs
    | VDef names _ =>
      n <- padd 16 verdefs 1 ;;
      size_verdefs base l n (if is_shared names verdefs base then verdauxs else verdauxs + zlen names)
    end
  end.
Definition b_verdef_size (base : option bytes) (vers : list bver) : out Z :=
  match base with Some _ => size_verdefs base vers 1 1 | None => size_verdefs base vers 0 0 end.
(** 2116-2126 [Builder::gnu_verneed_size]; [count] counts the files that are not deleted, cast to u16 *)
Fixpoint size_vernauxs (l : list bver) : Z :=
  match l with
  | [] => 0
  | v :: l => (if v_del v then 0 else match v_data v with VNeed _ _ _ => 1 | VDef _ _ => 0 end) + size_vernauxs l
  end.
Definition b_verneed_size (files : list bfile) (vers : list bver) : Z :=
  gnu_verneed_size (wrap_u 16 (zlen (tab_iter f_del files))) (size_vernauxs vers).
