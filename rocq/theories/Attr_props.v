(** Property theorems C23 (ELF attributes sections). *)
From Verif Require Import Attr_spec Attr_proofs.

(** * C23 *)
(** Any section content, in either byte order: if its size fits, writing it with the documented calls succeeds, the
    section has the predicted size, and iterating over it returns exactly the content: the same vendors, tags,
    indices and attributes, in the same order.  If it does not fit, the writer panics (debug build) instead of
    producing a wrong section. *)
Theorem C23_roundtrip : forall e l, Forall sub_ok l ->
  (section_size l < 2 ^ 32 - 1 -> exists data, aw_write e (section_ops l) = Ok data /\ zlen data = section_size l /\ section_reads e data l) /\
  (2 ^ 32 - 1 <= section_size l -> aw_write e (section_ops l) = Panic).
Proof. exact attr_roundtrip. Qed.
Print Assumptions C23_roundtrip.
(** The iterators decode exactly the encodings, and on arbitrary data end without panic ([decodes], Iter_spec.v). *)
Theorem C23_subsections : forall e, decodes (sub_enc e) (sub_next e).
Proof. exact subs_decodes. Qed.
Print Assumptions C23_subsections.
Theorem C23_subsubsections : forall e, decodes (subsub_enc e) (subsub_next e).
Proof. exact subsubs_decodes. Qed.
Print Assumptions C23_subsubsections.
Theorem C23_indices : decodes index_enc index_next.
Proof. exact indices_decodes. Qed.
Print Assumptions C23_indices.

Definition ex_attrs : list vsub :=
  [{| vv_vendor := [97;101]; vv_subsubs :=
      [{| vs_tag := 1; vs_indices := []; vs_items := [ITag 5; IStr [65;82;77]; ITag 6; IInt 300] |};
       {| vs_tag := 2; vs_indices := [1; 128]; vs_items := [ITag 7; IInt 0] |}] |};
   {| vv_vendor := []; vv_subsubs := [] |}].
Example C23_ex : section_size ex_attrs = 37 /\
  aw_write Little (section_ops ex_attrs) =
  Ok ([65] ++ [31;0;0;0] ++ [97;101;0] ++ [1;13;0;0;0] ++ [5;65;82;77;0;6;172;2] ++ [2;11;0;0;0] ++ [1;128;1;0] ++ [7;0] ++ [5;0;0;0;0]).
Proof. ex. Qed.
Example C23_ex_hyps : Forall sub_ok ex_attrs.
Proof.
  assert (B : forall l, forallb byte_okb l = true -> bytes_ok l) by (intros; apply bytes_ok_forallb; assumption).
  repeat apply Forall_cons; try apply Forall_nil.
  - split; [apply B; reflexivity|]. split; [cbn; lia|]. cbn [vv_subsubs]. repeat apply Forall_cons; try apply Forall_nil.
    + split; [left; split; reflexivity|]. split; [constructor|]. cbn [vs_items]. repeat apply Forall_cons; try apply Forall_nil; cbn [item_ok]; unfold u64_ok; try lia.
      split; [apply B; reflexivity|cbn; lia].
    + split; [right; left; reflexivity|]. split; [cbn [vs_indices]; repeat apply Forall_cons; try apply Forall_nil; lia|].
      cbn [vs_items]. repeat apply Forall_cons; try apply Forall_nil; cbn [item_ok]; unfold u64_ok; lia.
  - split; [constructor|]. split; [cbn; tauto|constructor].
Qed.
