(** Specification of the version sections a Builder writes. *)
From Verif Require Export Bver_model Ver_spec.

(** The definitions and the requirements that are not deleted, with their ids, in table order. *)
Fixpoint live_defs (id : Z) (l : list bver) : list (Z * list bytes * Z) :=
  match l with
  | [] => []
  | v :: l => match v_del v, v_data v with false, VDef names flags => [(id, names, flags)] | _, _ => [] end ++ live_defs (id + 1) l
  end.
Fixpoint live_needs (id file : Z) (l : list bver) : list (Z * bytes * Z) :=
  match l with
  | [] => []
  | v :: l => match v_del v, v_data v with false, VNeed f name flags => if f =? file then [(id, name, flags)] else [] | _, _ => [] end ++
              live_needs (id + 1) file l
  end.
Fixpoint live_files (fid : Z) (l : list bfile) : list (Z * bytes) :=
  match l with
  | [] => []
  | f :: l => (if f_del f then [] else [(fid, f_name f)]) ++ live_files (fid + 1) l
  end.

(** What the reader must return: version 1; the flags, the id, the hash of the first name, and the string table
    offset of each name.  The base definition has index 1 and the flag VER_FLG_BASE. *)
Definition view_of_def (str : bytes -> out Z) (x : Z * list bytes * Z) (d : def_view) : Prop :=
  let '(id, names, flags) := x in
  dv_version d = 1 /\ dv_flags d = flags /\ dv_index d = id /\ dv_hash d = elf_hash (hd [] names) /\
  Forall2 (fun n o => str n = Ok o) names (dv_names d).
Definition view_of_naux (str : bytes -> out Z) (x : Z * bytes * Z) (a : naux_view) : Prop :=
  let '(id, name, flags) := x in
  nv_flags a = flags /\ nv_index a = id /\ nv_hash a = elf_hash name /\ str name = Ok (nv_name a).
Definition view_of_need (str : bytes -> out Z) (vers : list bver) (x : Z * bytes) (n : need_view) : Prop :=
  let '(fid, name) := x in
  nd_version n = 1 /\ str name = Ok (nd_file n) /\ Forall2 (view_of_naux str) (live_needs 2 fid vers) (nd_auxs n).
Definition all_defs (base : option bytes) (vers : list bver) : list (Z * list bytes * Z) :=
  match base with Some b => [(1, [b], 1)] | None => [] end ++ live_defs 2 vers.

(** A builder that can be written: definitions have 1 to 65535 names, flags are u16, and every requirement refers to a
    file of the table that is not deleted. *)
Definition ver_ok (files : list bfile) (v : bver) : Prop :=
  v_del v = false ->
  match v_data v with
  | VDef names flags => names <> [] /\ zlen names < 2 ^ 16 /\ u16_ok flags
  | VNeed file _ flags => u16_ok flags /\ exists f, zget files file = Some f /\ f_del f = false
  end.
(** A string table lookup that finds the given strings. *)
Definition finds (str : bytes -> out Z) (l : list bytes) : Prop := Forall (fun s => exists o, str s = Ok o /\ u32_ok o) l.

(** The version that a reader must find at index [i] of the version table: the live definition with id [i] (its first
    name), unless it is flagged VER_FLG_BASE, or the live requirement with id [i] (its name and the name of its file);
    an error if there is none. *)
Definition read_version (files : list bfile) (vers : list bver) (i : Z) : out (option version) :=
  match zget vers (i - 2) with
  | Some v =>
    if v_del v then Err else
    match v_data v with
    | VDef names flags =>
      if Z.odd flags then Err
      else Ok (Some {| v_name := hd [] names; v_hash := elf_hash (hd [] names); v_valid := true; v_file := None |})
    | VNeed file name _ =>
      match zget files file with
      | Some f => Ok (Some {| v_name := name; v_hash := elf_hash name; v_valid := true; v_file := Some (f_name f) |})
      | None => Err
      end
    end
  | None => Err
  end.
