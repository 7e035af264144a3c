(** Contents of files, used by the specifications of the file formats. *)
From Verif Require Export Base.

(** [b] is found at offset [off] of [F] *)
Definition holds (F : bytes) (off : Z) (b : bytes) : Prop := exists a c, F = a ++ b ++ c /\ zlen a = off.
(** [name] is the null terminated string at offset [off] of [tab] *)
Definition string_at (tab : bytes) (off : Z) (name : bytes) : Prop := holds tab off (name ++ [0]) /\ ~ In 0 name.
