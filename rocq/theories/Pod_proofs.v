(** Fields of Pod structs given as a sequence of written integers. *)
From Verif Require Import Core_proofs Str_proofs Util_proofs Hash_proofs Hash_model.

Lemma fld_skip e off n k v rest : Z.of_nat k <= off -> fld e off n (write_u e k v ++ rest) = fld e (off - Z.of_nat k) n rest.
Proof.
  intros H. unfold fld, zslice. do 2 f_equal. rewrite zdrop_app_ge by (rewrite zlen_write_u; lia). rewrite zlen_write_u. reflexivity.
Qed.
Lemma fld_skip_app e off n k a rest : zlen a = k -> k <= off -> fld e off n (a ++ rest) = fld e (off - k) n rest.
Proof.
  intros Ha H. unfold fld, zslice. do 2 f_equal. rewrite zdrop_app_ge by lia. rewrite Ha. reflexivity.
Qed.
Lemma fld_hd e n k v rest : n = Z.of_nat k -> 0 <= v < 2 ^ (8 * n) -> fld e 0 n (write_u e k v ++ rest) = v.
Proof. intros -> H. apply (fld_at e [] v rest); [reflexivity|exact H|reflexivity]. Qed.
Lemma fld_hd1 e n k v : n = Z.of_nat k -> 0 <= v < 2 ^ (8 * n) -> fld e 0 n (write_u e k v) = v.
Proof. intros. rewrite <- (app_nil_r (write_u e k v)). apply fld_hd; assumption. Qed.
(** [fld_norm]: read every field of a concatenation of [write_u]s. *)
Ltac fld_step :=
  match goal with
  | |- context [fld ?e ?off ?n (write_u ?e ?k ?v ++ ?r)] =>
    let off' := eval vm_compute in (off - Z.of_nat k) in
    match off' with
    | Zneg _ => rewrite (fld_hd e n k v r) by (first [reflexivity | lia | (cbn; lia)])
    | _ => rewrite (fld_skip e off n k v r) by (vm_compute; congruence); change (off - Z.of_nat k) with off'
    end
  | |- context [fld ?e 0 ?n (write_u ?e ?k ?v)] =>
    rewrite (fld_hd1 e n k v) by (first [reflexivity | lia | (cbn; lia)])
  end.
Ltac fld_norm := rewrite <- ?app_assoc; repeat fld_step.
(** Splitting a struct into its fields *)
Lemma pod_field e off k data : bytes_ok data -> 0 <= off -> off + Z.of_nat k <= zlen data ->
  zdrop off data = write_u e k (fld e off (Z.of_nat k) data) ++ zdrop (off + Z.of_nat k) data.
Proof.
  intros Hb H0 H. rewrite (zdrop_zslice data off (Z.of_nat k)) by lia. f_equal. unfold fld. symmetry.
  apply write_read_n; [apply bytes_ok_zslice; exact Hb|rewrite zlen_zslice; lia].
Qed.
