(** Specification vocabulary for string tables. *)
From Verif Require Export Core_spec Str_model.

(** A string the API accepts: bytes, none of them null. *)
Definition str_ok (s : bytes) : Prop := bytes_ok s /\ ~ In 0 s.

(** Add a list of strings, collecting the ids (debug assertions included). *)
Fixpoint adds (t : strtab) (l : list bytes) : out (list Z) * strtab :=
  match l with
  | [] => (Ok [], t)
  | s :: l =>
    match st_add t s with
    | (Ok id, t) =>
      match adds t l with
      | (Ok ids, t) => (Ok (id :: ids), t)
      | r => r
      end
    | (Err, t) => (Err, t)
    | (Panic, t) => (Panic, t)
    end
  end.

(** [s] is a suffix of [t]. *)
Definition suffix_of (s t : bytes) : Prop := exists p, t = p ++ s.

(** The strings nobody else covers: nonempty and not a proper suffix of another added string. *)
Definition maximal (l : list bytes) (s : bytes) : Prop :=
  In s l /\ s <> [] /\ forall t, In t l -> suffix_of s t -> t = s.

(** The null-terminated concatenation. *)
Definition cstrings (l : list bytes) : bytes := concat (map (fun s => s ++ [0]) l).

(** [get_offset(id)] exists, and the reader's [StringTable::get] at that offset yields [s] in any file where
    the table [tab] is stored (after any header, before anything else). *)
Definition resolves (t : strtab) (tab : bytes) (s : bytes) (id : Z) : Prop :=
  exists off, st_get_offset t id = Ok off /\
    forall hdr rest, zlen hdr + zlen tab < 2 ^ 64 ->
      strtab_get (Some (hdr ++ tab ++ rest)) (zlen hdr) (zlen hdr + zlen tab) off = Ok s.
