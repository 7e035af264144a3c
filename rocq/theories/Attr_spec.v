(** Specification of the ELF attributes section, independent of the implementation. *)
From Verif Require Export Core_spec Iter_spec Attr_model.

(** The content of an attributes section, as the user of the writer sees it. *)
Inductive aitem := ITag (t : Z) | IInt (v : Z) | IStr (s : bytes).
Record vsubsub := { vs_tag : Z; vs_indices : list Z; vs_items : list aitem }.
Record vsub := { vv_vendor : bytes; vv_subsubs : list vsubsub }.

Definition item_ok (i : aitem) : Prop :=
  match i with ITag v | IInt v => u64_ok v | IStr s => bytes_ok s /\ ~ In 0 s end.
(** tags: 1 = file (no indices), 2 = sections, 3 = symbols (nonzero indices) *)
Definition subsub_ok (s : vsubsub) : Prop :=
  (vs_tag s = 1 /\ vs_indices s = [] \/ vs_tag s = 2 \/ vs_tag s = 3) /\
  Forall (fun i => 0 < i < 2 ^ 32) (vs_indices s) /\ Forall item_ok (vs_items s).
Definition sub_ok (s : vsub) : Prop := bytes_ok (vv_vendor s) /\ ~ In 0 (vv_vendor s) /\ Forall subsub_ok (vv_subsubs s).

(** The calls that write it, following the documentation: indices are terminated by an index 0. *)
Definition item_op (i : aitem) : aop := match i with ITag t => OTag t | IInt v => OInt v | IStr s => OStr s end.
Definition subsub_ops (s : vsubsub) : list aop :=
  [OStartSubsub (vs_tag s)] ++ map OIndex (vs_indices s) ++ (if vs_tag s =? 1 then [] else [OIndex 0]) ++
  map item_op (vs_items s) ++ [OEndSubsub].
Definition sub_ops (s : vsub) : list aop :=
  [OStartSub (vv_vendor s)] ++ concat (map subsub_ops (vv_subsubs s)) ++ [OEndSub].
Definition section_ops (l : list vsub) : list aop := concat (map sub_ops l).

(** The size of the section: one version byte, then for each subsection a length, the vendor string and the
    sub-subsections. *)
Definition uleb_size (v : Z) : Z := Z.log2 v / 7 + 1.
Definition sumZ {A} (f : A -> Z) (l : list A) : Z := fold_right (fun x a => f x + a) 0 l.
Definition item_size (i : aitem) : Z := match i with ITag v | IInt v => uleb_size v | IStr s => zlen s + 1 end.
Definition subsub_size (s : vsubsub) : Z :=
  5 + sumZ uleb_size (vs_indices s) + (if vs_tag s =? 1 then 0 else 1) + sumZ item_size (vs_items s).
Definition sub_size (s : vsub) : Z := 4 + zlen (vv_vendor s) + 1 + sumZ subsub_size (vv_subsubs s).
Definition section_size (l : list vsub) : Z := 1 + sumZ sub_size l.

(** A caller of [AttributeReader] that knows the formats reads exactly the items, and then no further tag. *)
Inductive attrs_read : bytes -> list aitem -> Prop :=
| rd_end d : ar_read_tag d = (Ok None, d) -> attrs_read d []
| rd_tag d d' t l : ar_read_tag d = (Ok (Some t), d') -> attrs_read d' l -> attrs_read d (ITag t :: l)
| rd_int d d' v l : ar_read_integer d = (Ok v, d') -> attrs_read d' l -> attrs_read d (IInt v :: l)
| rd_str d d' s l : ar_read_string d = (Ok s, d') -> attrs_read d' l -> attrs_read d (IStr s :: l).
(** What iterating over a sub-subsection / subsection / section returns. *)
Definition subsub_reads (r : asubsub) (v : vsubsub) : Prop :=
  ss_tag r = vs_tag v /\ ss_length r = subsub_size v /\ runs index_next (ss_indices r) (vs_indices v) false [] /\ attrs_read (ss_data r) (vs_items v).
Definition sub_reads (e : endian) (r : asub) (v : vsub) : Prop :=
  sb_vendor r = vv_vendor v /\ sb_length r = sub_size v /\
  exists ss, runs (subsub_next e) (sb_data r) ss false [] /\ Forall2 subsub_reads ss (vv_subsubs v).
Definition section_reads (e : endian) (data : bytes) (l : list vsub) : Prop :=
  exists d subs, attr_subsections (attr_new data) = Ok d /\ runs (sub_next e) d subs false [] /\ Forall2 (sub_reads e) subs l.

(** The encodings, for arbitrary data. *)
Definition sub_enc (e : endian) (s : asub) (b : bytes) : Prop :=
  sb_length s = zlen b /\ zlen b < 2 ^ 32 /\ ~ In 0 (sb_vendor s) /\
  b = write_u e 4 (zlen b) ++ sb_vendor s ++ [0] ++ sb_data s.
Definition subsub_enc (e : endian) (s : asubsub) (b : bytes) : Prop :=
  ss_length s = zlen b /\ zlen b < 2 ^ 32 /\
  (ss_tag s = 1 /\ ss_indices s = [] /\ b = [1] ++ write_u e 4 (zlen b) ++ ss_data s \/
   (ss_tag s = 2 \/ ss_tag s = 3) /\ ~ In 0 (ss_indices s) /\
     b = [ss_tag s] ++ write_u e 4 (zlen b) ++ ss_indices s ++ [0] ++ ss_data s).
Definition index_enc (v : Z) (b : bytes) : Prop := uleb_denotes b v /\ zlen b <= 10 /\ v < 2 ^ 32.
