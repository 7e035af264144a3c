(** Specification of the note and GNU property encodings, independent of the iterators. *)
From Verif Require Export Core_spec Note_model.

(** What a user sees of a note. *)
Record note_view := { v_type : Z; v_name : bytes; v_desc : bytes }.
Definition view (e : endian) (n : note) : note_view := {| v_type := n_type e n; v_name := nt_name n; v_desc := nt_desc n |}.

(** [pad] fills [n] bytes up to the next multiple of [al]. *)
Definition padding (al n : Z) (pad : bytes) : Prop := (al | n + zlen pad) /\ zlen pad < al.

(** A note up to the end of its descriptor: sizes, type, name, padding (of any content), descriptor. *)
Definition note_body (e : endian) (al : Z) (n : note_view) (b : bytes) : Prop :=
  zlen (v_name n) < 2 ^ 32 /\ zlen (v_desc n) < 2 ^ 32 /\ 0 <= v_type n < 2 ^ 32 /\
  exists pad, padding al (12 + zlen (v_name n)) pad /\
  b = write_u e 4 (zlen (v_name n)) ++ write_u e 4 (zlen (v_desc n)) ++ write_u e 4 (v_type n) ++ v_name n ++ pad ++ v_desc n.
(** [data] is the notes [l], each padded to a multiple of [al], followed by [post]. *)
Inductive notes_then (e : endian) (al : Z) (post : bytes) : list note_view -> bytes -> Prop :=
| nt_nil : notes_then e al post [] post
| nt_cons n b pad l data : note_body e al n b -> padding al (zlen b) pad -> notes_then e al post l data ->
    notes_then e al post (n :: l) (b ++ pad ++ data).
(** A complete note section: the padding after the last note may be missing or cut short. *)
Definition notes_data (e : endian) (al : Z) (l : list note_view) (data : bytes) : Prop :=
  notes_then e al [] l data \/
  exists l' n b short more, l = l' ++ [n] /\ note_body e al n b /\ padding al (zlen b) (short ++ more) /\ more <> [] /\
    notes_then e al (b ++ short) l' data.

(** GNU properties: type, size, data, padding. *)
Definition prop_body (e : endian) (p : gprop) (b : bytes) : Prop :=
  0 <= pr_type p < 2 ^ 32 /\ zlen (pr_data p) < 2 ^ 32 /\
  b = write_u e 4 (pr_type p) ++ write_u e 4 (zlen (pr_data p)) ++ pr_data p.
Inductive props_then (e : endian) (al : Z) (post : bytes) : list gprop -> bytes -> Prop :=
| pt_nil : props_then e al post [] post
| pt_cons p b pad l data : prop_body e p b -> padding al (zlen b) pad -> props_then e al post l data ->
    props_then e al post (p :: l) (b ++ pad ++ data).
