(** Proofs about the COFF writer. *)
From Verif Require Import Coff_proofs Core_proofs Util_proofs File_proofs Str_proofs Pod_proofs Map_proofs Hash_proofs Rel_proofs ElfR_proofs Obj_proofs Ar_proofs ArSym_proofs Kind_proofs.
From Verif Require Import Coff_spec.

(** * Names *)
Record ninv (w : cw) (k : Z) : Prop := {
  ni_t : tinv (cw_strtab w);
  ni_o : st_in_order (cw_strtab w) = false;
  ni_long : Forall (fun s => 8 < zlen s) (st_strings (cw_strtab w));
  ni_len : zlen (st_strings (cw_strtab w)) <= k }.
Definition named (t : strtab) (n : bytes) (c : cname) : Prop :=
  (c = NShort (n ++ zeros (8 - zlen n)) /\ zlen n <= 8) \/ (exists id, c = NLong id /\ 8 < zlen n /\ zget (st_strings t) id = Some n).
Definition ext (t t' : strtab) : Prop := (exists x, st_strings t' = st_strings t ++ x) /\ st_in_order t' = st_in_order t.
Lemma ext_refl t : ext t t. Proof. split; [exists []; symmetry; apply app_nil_r|reflexivity]. Qed.
Lemma ext_trans a b c : ext a b -> ext b c -> ext a c.
Proof. intros [[x Hx] Hi] [[y Hy] Hj]. split; [|congruence]. exists (x ++ y). rewrite Hy, Hx, app_assoc. reflexivity. Qed.
Lemma named_ext t t' n c : ext t t' -> named t n c -> named t' n c.
Proof.
  intros [[x Hx] _] [H|(id & H1 & H2 & H3)]; [left; exact H|right]. exists id. split; [exact H1|]. split; [exact H2|].
  rewrite Hx. apply zget_Some_lt in H3 as Hb. rewrite zget_app1 by lia. exact H3.
Qed.
Lemma set_strtab_id w : cw_set_strtab w (cw_strtab w) = w. Proof. destruct w; reflexivity. Qed.
Lemma ninv_new : ninv cw_new 0.
Proof. split; [apply tinv_new|reflexivity|constructor|]. cbn. reflexivity. Qed.
Lemma ninv_mono w k k' : ninv w k -> k <= k' -> ninv w k'.
Proof. intros [? ? ? ?] ?. split; try assumption. lia. Qed.
Lemma ninv_eq w w' k : ninv w k -> cw_strtab w' = cw_strtab w -> ninv w' k.
Proof. intros [? ? ? ?] E. split; rewrite E; assumption. Qed.
Lemma add_name_spec w n c w' k : ninv w k -> k < 2 ^ 32 -> str_ok n -> cw_add_name w n = Ok (c, w') ->
  exists t, w' = cw_set_strtab w t /\ ninv w' (k + 1) /\ ext (cw_strtab w) t /\ named t n c.
Proof.
  intros [H1 H2 H3 H4] Hk Hn E. unfold cw_add_name in E. destruct (Z.ltb_spec 8 (zlen n)) as [Hl|Hl].
  - unfold cw_add_string in E. destruct (negb _); [discriminate|].
    destruct (st_add_spec (cw_strtab w) n H1 Hn ltac:(lia)) as (id & t & Ea & Ht & (ex & Hex & Hc) & Hg & Hid & Ho & Hb).
    rewrite Ea in E. cbn [bind] in E. injection E as <- <-. exists t. split; [reflexivity|].
    split; [|split; [split; [exists ex; exact Hex|exact Ho]|right; exists id; auto]].
    split; cbn [cw_set_strtab cw_strtab]; [exact Ht|congruence| |].
    + rewrite Hex. apply Forall_app. split; [exact H3|]. destruct Hc as [[-> _]| ->]; [constructor|repeat constructor; exact Hl].
    + rewrite Hex. destruct Hc as [[-> _]| ->]; rewrite zlen_app; [change (zlen (@nil bytes)) with 0|change (zlen [n]) with 1]; lia.
  - injection E as <- <-. exists (cw_strtab w). rewrite set_strtab_id. split; [reflexivity|].
    split; [|split; [apply ext_refl|left; auto]]. split; try assumption. lia.
Qed.

Lemma st_add_ext t n id t' : st_add t n = (Ok id, t') -> ext t t'.
Proof.
  intro Ea. unfold st_add in Ea. destruct (negb _); [discriminate|]. destruct (has_null _); [discriminate|]. unfold insert_full in Ea.
  destruct (index_of _ _).
  - cbn [andb] in Ea. injection Ea as <- <-. split; [|reflexivity]. exists []. cbn [st_strings]. symmetry. apply app_nil_r.
  - destruct (true && _); injection Ea as <- <-; (split; [eexists; reflexivity|reflexivity]).
Qed.
Lemma add_name_ext w n c w' : cw_add_name w n = Ok (c, w') -> ext (cw_strtab w) (cw_strtab w') /\ w' = cw_set_strtab w (cw_strtab w').
Proof.
  intro E1. unfold cw_add_name in E1. destruct (8 <? zlen n); [|injection E1 as <- <-; split; [apply ext_refl|symmetry; apply set_strtab_id]].
  unfold cw_add_string in E1. destruct (negb _); [discriminate|].
  destruct (st_add (cw_strtab w) n) as [[id| |] t'] eqn:Ea; cbn [bind] in E1; try discriminate. injection E1 as <- <-.
  cbn [cw_strtab cw_set_strtab]. split; [|reflexivity]. exact (st_add_ext _ _ _ _ Ea).
Qed.

(** * Loops *)
Lemma map_m_inv {X Y S} (f : X -> S -> out (Y * S)) (I : Z -> S -> Prop) (R : Z -> X -> Y -> S -> Prop) l : forall k s ys s',
  (forall j x s y s', zget l (j - k) = Some x -> k <= j -> I j s -> f x s = Ok (y, s') -> I (j + 1) s' /\ R j x y s') ->
  (forall j x y s s' x' y' i, R j x y s -> I i s -> j < i -> f x' s = Ok (y', s') -> R j x y s') ->
  I k s -> map_m f l s = Ok (ys, s') ->
  I (k + zlen l) s' /\ zlen ys = zlen l /\ forall i x, zget l i = Some x -> exists y, zget ys i = Some y /\ R (k + i) x y s'.
Proof.
  induction l as [|x l IH]; intros k s ys s' Hf Hm HI E; cbn [map_m] in E.
  - injection E as <- <-. split; [rewrite zlen_nil, Z.add_0_r; exact HI|]. split; [reflexivity|]. intros i x H. apply zget_Some_lt in H. change (zlen (@nil X)) with 0 in H. lia.
  - destruct (f x s) as [[y s1]| |] eqn:E1; cbn [bind] in E; try discriminate.
    destruct (map_m f l s1) as [[ys1 s2]| |] eqn:E2; cbn [bind] in E; try discriminate. injection E as <- <-.
    destruct (Hf k x s y s1) as [HI1 HR]; [rewrite Z.sub_diag; apply zget_0|lia|exact HI|exact E1|].
    assert (P : I (k + 1 + zlen l) s2 /\ zlen ys1 = zlen l /\ forall i x, zget l i = Some x -> exists y, zget ys1 i = Some y /\ R (k + 1 + i) x y s2).
    { apply (IH (k + 1) s1 ys1 s2); [|exact Hm|exact HI1|exact E2]. intros j x0 s0 y0 s0' Hj Hkj. apply Hf; [|lia].
      rewrite zget_S by lia. replace (j - k - 1) with (j - (k + 1)) by lia. exact Hj. }
    destruct P as (P1 & P2 & P3). split; [rewrite zlen_cons; replace (k + (1 + zlen l)) with (k + 1 + zlen l) by lia; exact P1|].
    split; [rewrite !zlen_cons; lia|]. intros i x0 Hi. destruct (Z.eq_dec i 0) as [->|Hi0].
    + rewrite zget_0 in *. injection Hi as <-. exists y. split; [reflexivity|]. rewrite Z.add_0_r.
      (* persistence through the rest of the loop *)
      assert (Q : forall l s1 ys1 s2 i, I i s1 -> k < i -> (forall j x s y s', zget l (j - i) = Some x -> i <= j -> I j s -> f x s = Ok (y, s') -> I (j + 1) s') ->
        map_m f l s1 = Ok (ys1, s2) -> R k x y s1 -> R k x y s2).
      { clear - Hm. induction l as [|x' l IH]; intros s1 ys1 s2 i HI Hi Hf E HR; cbn [map_m] in E.
        - injection E as <- <-. exact HR.
        - destruct (f x' s1) as [[y' s3]| |] eqn:E1; cbn [bind] in E; try discriminate.
          destruct (map_m f l s3) as [[ys3 s4]| |] eqn:E2; cbn [bind] in E; try discriminate. injection E as <- <-.
          apply (IH s3 ys3 s4 (i + 1)); [|lia| |exact E2|].
          + apply (Hf i x' s1 y' s3); [rewrite Z.sub_diag; apply zget_0|lia|exact HI|exact E1].
          + intros j x0 s0 y0 s0' Hj Hij. apply Hf; [|lia]. rewrite zget_S by lia. replace (j - i - 1) with (j - (i + 1)) by lia. exact Hj.
          + exact (Hm _ _ _ _ _ _ _ _ HR HI Hi E1). }
      apply (Q l s1 ys1 s2 (k + 1)); [exact HI1|lia| |exact E2|exact HR].
      intros j x0 s0 y0 s0' Hj Hkj HIj Ej. apply (Hf j x0 s0 y0 s0'); [|lia|exact HIj|exact Ej].
      rewrite zget_S by lia. replace (j - k - 1) with (j - (k + 1)) by lia. exact Hj.
    + rewrite zget_S in Hi by (apply zget_Some_lt in Hi; lia). destruct (P3 _ _ Hi) as (y0 & Hy & HR0). exists y0. split.
      * rewrite zget_S by (apply zget_Some_lt in Hi; lia). exact Hy.
      * replace (k + i) with (k + 1 + (i - 1)) by lia. exact HR0.
Qed.

(** * Reserving names *)
Lemma reserve_names ss names w : zlen ss < 2 ^ 32 -> Forall (fun s => str_ok (se_name s)) ss ->
  map_m (fun s w => cw_add_name w (se_name s)) ss cw_new = Ok (names, w) ->
  ninv w (zlen ss) /\ (exists t, w = cw_set_strtab cw_new t) /\ zlen names = zlen ss /\
  forall i s, zget ss i = Some s -> exists c, zget names i = Some c /\ named (cw_strtab w) (se_name s) c.
Proof.
  intros Hl Hok E.
  destruct (map_m_inv (fun s w => cw_add_name w (se_name s)) (fun j w => (exists t, w = cw_set_strtab cw_new t) /\ ninv w j /\ j <= zlen ss)
    (fun j s c w => named (cw_strtab w) (se_name s) c) ss 0 cw_new names w) as ((A & B & _) & C & D); [| | |exact E|].
  - intros j s w1 c w1' Hj Hkj ([t ->] & Hi & Hb) E1. apply zget_Some_lt in Hj as Hj'. rewrite Z.sub_0_r in Hj'.
    destruct (add_name_spec _ _ _ _ _ Hi ltac:(lia) (Forall_zget _ _ _ _ Hok Hj) E1) as (t' & -> & H1 & _ & H2).
    split; [|exact H2]. split; [exists t'; reflexivity|]. split; [exact H1|lia].
  - intros j s c w1 w2 s' c' i HR _ _ E1. apply add_name_ext in E1 as [X _]. exact (named_ext _ _ _ _ X HR).
  - split; [exists st_new; reflexivity|]. split; [apply ninv_new|apply zlen_nonneg].
  - rewrite Z.add_0_l in B. split; [exact B|]. split; [exact A|]. split; [exact C|]. intros i s Hi. exact (D i s Hi).
Qed.

(** * Reserving symbols *)
Lemma weak_name_ok o y : Forall (fun y => str_ok (sy_name y)) (o_symbols o) -> str_ok (sy_name y) -> str_ok (weak_name o y).
Proof.
  intros Hs Hy. unfold weak_name.
  assert (Hu : str_ok (weak_unique o)).
  { assert (H0 : str_ok []) by (split; [constructor|intros []]).
    assert (G : forall g, str_ok match find g (filter defined_external (o_symbols o)) with Some y => sy_name y | None => [] end).
    { intro g. destruct (find g _) as [z|] eqn:Ef; [|exact H0]. apply find_some in Ef as [Ef _]. apply filter_In in Ef as [Ef _].
      rewrite Forall_forall in Hs. apply Hs; exact Ef. }
    unfold weak_unique. match goal with |- str_ok match ?x with _ => _ end => destruct x eqn:E end; [apply G|]. rewrite <- E. apply G. }
  assert (Ha : forall a b, str_ok a -> str_ok b -> str_ok (a ++ b)).
  { intros a b [A1 A2] [B1 B2]. split; [apply bytes_ok_app; auto|]. rewrite in_app_iff. tauto. }
  apply Ha; [split; [apply bytes_ok_forallb; reflexivity|cbv; intuition discriminate]|]. apply Ha; [exact Hy|].
  destruct (weak_unique o) as [|a u] eqn:Eu; [split; [constructor|intros []]|]. apply (Ha [46]); [|exact Hu].
  split; [apply bytes_ok_forallb; reflexivity|cbv; intuition discriminate].
Qed.
Definition entry_name (y : osym) : bytes := if negb (sy_weak y) && match sy_kind y with YFile => true | _ => false end then str ".file" else sy_name y.
Definition weak1 (y : osym) : Z := if sy_weak y then 1 else 0.
Definition frameB (w w' : cw) : Prop := w' = cw_set_nsym (cw_set_strtab w (cw_strtab w')) (cw_nsym w').
Lemma frameB_refl w : frameB w w. Proof. destruct w; reflexivity. Qed.
Lemma frameB_trans a b c : frameB a b -> frameB b c -> frameB a c.
Proof. unfold frameB. intros H1 H2. rewrite H2, H1. reflexivity. Qed.
Lemma entries_pos y : 1 + weak1 y <= entries y.
Proof.
  unfold entries, weak1. destruct (sy_weak y); [lia|]. destruct (sy_kind y); try lia; [destruct (sy_section y); lia|].
  pose proof (zlen_nonneg (sy_name y)). assert (0 <= (zlen (sy_name y) + 17) / 18) by (apply Z.div_pos; lia). lia.
Qed.
Definition reserved (o : obj) (y : osym) (k : Z) (weak : option soff) (s : soff) (t : strtab) : Prop :=
  so_index s = k + weak1 y /\ so_aux s = entries y - 1 - weak1 y /\ named t (entry_name y) (so_name s) /\
  (if sy_weak y then exists d, weak = Some d /\ so_index d = k /\ named t (weak_name o y) (so_name d) else weak = None).
Lemma reserved_ext o y k weak s t t' : ext t t' -> reserved o y k weak s t -> reserved o y k weak s t'.
Proof.
  intros He (A & B & C & D). split; [exact A|]. split; [exact B|]. split; [exact (named_ext _ _ _ _ He C)|].
  destruct (sy_weak y); [|exact D]. destruct D as (d & D1 & D2 & D3). exists d. split; [exact D1|]. split; [exact D2|]. exact (named_ext _ _ _ _ He D3).
Qed.
Lemma symbol_index_spec w i w' : cw_reserve_symbol_index w = Ok (i, w') -> i = cw_nsym w /\ w' = cw_set_nsym w (cw_nsym w + 1).
Proof.
  unfold cw_reserve_symbol_index. destruct (negb _); [discriminate|]. unfold padd. destruct (_ <? _); cbn [bind]; [|discriminate].
  intros [= <- <-]. split; reflexivity.
Qed.
Lemma reserve_aux_spec w i w' : cw_reserve_aux w = Ok (i, w') -> i = 1 /\ w' = cw_set_nsym w (cw_nsym w + 1).
Proof.
  unfold cw_reserve_aux. destruct (negb _); [discriminate|]. unfold padd. destruct (_ <? _); cbn [bind]; [|discriminate].
  intros [= <- <-]. split; reflexivity.
Qed.
Lemma reserve_file_spec w n i w' : zlen n <= 255 * 18 -> cw_reserve_aux_file_name w n = Ok (i, w') ->
  i = (zlen n + 17) / 18 /\ w' = cw_set_nsym w (cw_nsym w + i).
Proof.
  intro Hn. unfold cw_reserve_aux_file_name. destruct (negb _); [discriminate|]. pose proof (zlen_nonneg n).
  assert (0 <= (zlen n + 17) / 18 < 256) by (Z.to_euclidean_division_equations; lia).
  rewrite !wrap_u_id by lia. unfold padd. destruct (_ <? _); cbn [bind]; [|discriminate].
  intros [= <- <-]. split; reflexivity.
Qed.
Lemma file_str_ok : str_ok (str ".file"). Proof. split; [apply bytes_ok_forallb; reflexivity|cbv; intuition discriminate]. Qed.
Lemma reserve_symbol_spec o y w weak s w' k : Forall (fun y => str_ok (sy_name y)) (o_symbols o) -> sym_ok o y -> ninv w k -> k + entries y <= 2 ^ 32 ->
  reserve_symbol o y w = Ok (weak, s, w') ->
  frameB w w' /\ cw_nsym w' = cw_nsym w + entries y /\ ext (cw_strtab w) (cw_strtab w') /\ ninv w' (k + entries y) /\
  reserved o y (cw_nsym w) weak s (cw_strtab w').
Proof.
  intros Hall (Hy & Hne & Hf & _) Hn Hk E. unfold reserve_symbol in E. pose proof (entries_pos y) as Hp.
  assert (S1 : exists w1, (if sy_weak y then exists d, weak = Some d /\ so_index d = cw_nsym w /\ named (cw_strtab w1) (weak_name o y) (so_name d) else weak = None) /\
     frameB w w1 /\ cw_nsym w1 = cw_nsym w + weak1 y /\ ninv w1 (k + weak1 y) /\ ext (cw_strtab w) (cw_strtab w1) /\
     (' (i, w) <- cw_reserve_symbol_index w1 ;;
      ' (aux, name, w) <- (
        if sy_weak y then ' (a, w) <- cw_reserve_aux w ;; Ok (a, sy_name y, w)
        else match sy_kind y with
             | YFile => ' (a, w) <- cw_reserve_aux_file_name w (sy_name y) ;; Ok (a, str ".file", w)
             | YSection => if has_section y then ' (a, w) <- cw_reserve_aux w ;; Ok (a, sy_name y, w) else Ok (0, sy_name y, w)
             | _ => Ok (0, sy_name y, w)
             end) ;;
      ' (n, w) <- cw_add_name w name ;;
      Ok (weak, {| so_name := n; so_index := i; so_aux := aux |}, w)) = Ok (weak, s, w')).
  { unfold weak1 in *. destruct (sy_weak y) eqn:Ew.
    - destruct (cw_add_name w (weak_name o y)) as [[c w1]| |] eqn:E1; cbn [bind] in E; try discriminate.
      destruct (add_name_spec _ _ _ _ _ Hn ltac:(lia) (weak_name_ok o y Hall Hy) E1) as (t & -> & H1 & H2 & H3).
      destruct (cw_reserve_symbol_index (cw_set_strtab w t)) as [[i w1]| |] eqn:E2; cbn [bind] in E; try discriminate.
      apply symbol_index_spec in E2 as [-> ->]. exists (cw_set_nsym (cw_set_strtab w t) (cw_nsym (cw_set_strtab w t) + 1)).
      match type of E with bind ?m _ = _ => destruct m as [[i2 w2]| |] eqn:E3; cbn [bind] in E; try discriminate end.
      match type of E with bind ?m _ = _ => destruct m as [[[aux name] w3]| |] eqn:E4; cbn [bind] in E; try discriminate end.
      destruct (cw_add_name w3 name) as [[n w4]| |] eqn:E5; cbn [bind] in E; try discriminate. injection E as <- <- <-.
      split; [eexists; split; [reflexivity|]; split; [reflexivity|exact H3]|]. split; [reflexivity|]. split; [reflexivity|].
      split; [apply (ninv_eq _ _ _ H1); reflexivity|]. split; [exact H2|]. cbn [bind]. rewrite E4. cbn [bind]. rewrite E5. reflexivity.
    - cbn [bind] in E. exists w.
      assert (weak = None).
      { match type of E with bind ?m _ = _ => destruct m as [[i2 w2]| |] eqn:E3; cbn [bind] in E; try discriminate end.
        match type of E with bind ?m _ = _ => destruct m as [[[aux name] w3]| |] eqn:E4; cbn [bind] in E; try discriminate end.
        destruct (cw_add_name w3 name) as [[n w4]| |] eqn:E5; cbn [bind] in E; try discriminate. congruence. }
      subst weak. rewrite !Z.add_0_r. split; [reflexivity|]. split; [apply frameB_refl|]. split; [reflexivity|]. split; [exact Hn|]. split; [apply ext_refl|exact E]. }
  destruct S1 as (w1 & D & F1 & N1 & I1 & X1 & E1). clear E.
  destruct (cw_reserve_symbol_index w1) as [[i w2]| |] eqn:E2; cbn [bind] in E1; try discriminate.
  apply symbol_index_spec in E2 as [-> E2].
  match type of E1 with bind ?m _ = _ => destruct m as [[[aux name] w3]| |] eqn:E4; cbn [bind] in E1; try discriminate end.
  assert (S2 : aux = entries y - 1 - weak1 y /\ name = entry_name y /\ w3 = cw_set_nsym w2 (cw_nsym w2 + aux)).
  { assert (HZ : w2 = cw_set_nsym w2 (cw_nsym w2 + 0)) by (rewrite Z.add_0_r; destruct w2; reflexivity).
    unfold entries, weak1, entry_name, has_section in *. destruct (sy_weak y); cbn [negb andb].
    - destruct (cw_reserve_aux w2) as [[a w4]| |] eqn:E5; cbn [bind] in E4; try discriminate. injection E4 as <- <- <-.
      apply reserve_aux_spec in E5 as [-> ->]. auto.
    - destruct (sy_kind y); cbn [negb andb] in *; try (injection E4 as <- <- <-; split; [lia|]; split; [reflexivity|exact HZ]).
      + destruct (sy_section y); try (injection E4 as <- <- <-; split; [lia|]; split; [reflexivity|exact HZ]).
        destruct (cw_reserve_aux w2) as [[a w4]| |] eqn:E5; cbn [bind] in E4; try discriminate. injection E4 as <- <- <-.
        apply reserve_aux_spec in E5 as [-> ->]. auto.
      + destruct (cw_reserve_aux_file_name w2 (sy_name y)) as [[a w4]| |] eqn:E5; cbn [bind] in E4; try discriminate. injection E4 as <- <- <-.
        apply reserve_file_spec in E5 as [-> ->]; [|auto]. split; [lia|]. split; reflexivity. }
  destruct S2 as (-> & -> & ->). destruct (cw_add_name _ (entry_name y)) as [[n w4]| |] eqn:E5; cbn [bind] in E1; try discriminate.
  injection E1 as <- <-.
  assert (I2 : ninv (cw_set_nsym w2 (cw_nsym w2 + (entries y - 1 - weak1 y))) (k + weak1 y)) by (apply (ninv_eq _ _ _ I1); rewrite E2; reflexivity).
  assert (Hen : str_ok (entry_name y)) by (unfold entry_name; destruct (_ && _); [apply file_str_ok|exact Hy]).
  assert (Hk2 : k + weak1 y < 2 ^ 32) by lia.
  destruct (add_name_spec _ _ _ _ _ I2 Hk2 Hen E5) as (t & -> & I3 & X3 & N3).
  rewrite E2 in *. cbn [cw_set_nsym cw_set_strtab cw_nsym cw_strtab] in *.
  split; [apply (frameB_trans w w1); [exact F1|reflexivity]|]. split; [lia|]. split; [exact (ext_trans _ _ _ X1 X3)|].
  split; [apply (ninv_mono _ _ _ I3); lia|]. split; [cbn [so_index]; lia|]. split; [reflexivity|]. split; [exact N3|].
  destruct (sy_weak y); [|exact D]. destruct D as (d & D1 & D2 & D3). exists d. split; [exact D1|]. split; [exact D2|]. exact (named_ext _ _ _ _ X3 D3).
Qed.
Lemma reserve_symbol_ext o y' w1 wk s w3 : reserve_symbol o y' w1 = Ok (wk, s, w3) -> ext (cw_strtab w1) (cw_strtab w3).
Proof.
    unfold reserve_symbol. intro E.
    match type of E with bind ?m _ = _ => destruct m as [[wk' w4]| |] eqn:E1; cbn [bind] in E; try discriminate end.
    assert (X1 : ext (cw_strtab w1) (cw_strtab w4)).
    { destruct (sy_weak y'); [|injection E1 as <- <-; apply ext_refl].
      destruct (cw_add_name w1 _) as [[c w5]| |] eqn:E3; cbn [bind] in E1; try discriminate. apply add_name_ext in E3 as [X _].
      destruct (cw_reserve_symbol_index w5) as [[i3 w6]| |] eqn:E4; cbn [bind] in E1; try discriminate. injection E1 as <- <-.
      apply symbol_index_spec in E4 as [_ ->]. exact X. }
    destruct (cw_reserve_symbol_index w4) as [[i4 w5]| |] eqn:E4; cbn [bind] in E; try discriminate. apply symbol_index_spec in E4 as [_ ->].
    match type of E with bind ?m _ = _ => destruct m as [[[aux name] w6]| |] eqn:E5; cbn [bind] in E; try discriminate end.
    destruct (cw_add_name w6 name) as [[n w7]| |] eqn:E6; cbn [bind] in E; try discriminate. injection E as <- <- <-.
    apply add_name_ext in E6 as [X2 _]. apply (ext_trans _ _ _ X1). refine (ext_trans _ _ _ _ X2).
    assert (S : cw_strtab w6 = cw_strtab w4); [|rewrite S; apply ext_refl].
    assert (SA : forall a wx, cw_reserve_aux (cw_set_nsym w4 (cw_nsym w4 + 1)) = Ok (a, wx) -> cw_strtab wx = cw_strtab w4).
    { intros a wx Ha. apply reserve_aux_spec in Ha as [_ ->]. reflexivity. }
    destruct (sy_weak y').
    { destruct (cw_reserve_aux _) as [[a wx]| |] eqn:Ea; cbn [bind] in E5; try discriminate. injection E5 as <- <- <-. eapply SA; eauto. }
    destruct (sy_kind y'); try (injection E5 as <- <- <-; reflexivity).
    + destruct (has_section y'); [|injection E5 as <- <- <-; reflexivity].
      destruct (cw_reserve_aux _) as [[a wx]| |] eqn:Ea; cbn [bind] in E5; try discriminate. injection E5 as <- <- <-. eapply SA; eauto.
    + unfold cw_reserve_aux_file_name in E5. destruct (negb _); [discriminate|]. unfold padd in E5. destruct (_ <? _); cbn [bind] in E5; [|discriminate].
      injection E5 as <- <- <-. reflexivity.
Qed.
Lemma reserve_symbol_count o y w weak s w' : sym_ok o y -> reserve_symbol o y w = Ok (weak, s, w') ->
  frameB w w' /\ cw_nsym w' = cw_nsym w + entries y.
Proof.
  intros (Hy & Hne & Hf & _) E. unfold reserve_symbol in E.
  match type of E with bind ?m _ = _ => destruct m as [[wk w1]| |] eqn:E1; cbn [bind] in E; try discriminate end.
  assert (S1 : frameB w w1 /\ cw_nsym w1 = cw_nsym w + weak1 y).
  { unfold weak1. destruct (sy_weak y); [|injection E1 as <- <-; split; [apply frameB_refl|lia]].
    destruct (cw_add_name w _) as [[c w2]| |] eqn:E2; cbn [bind] in E1; try discriminate. apply add_name_ext in E2 as [_ E2].
    destruct (cw_reserve_symbol_index w2) as [[i w3]| |] eqn:E3; cbn [bind] in E1; try discriminate. injection E1 as <- <-.
    apply symbol_index_spec in E3 as [-> ->]. rewrite E2. split; reflexivity. }
  destruct S1 as [F1 N1]. clear E1.
  destruct (cw_reserve_symbol_index w1) as [[i w2]| |] eqn:E2; cbn [bind] in E; try discriminate.
  apply symbol_index_spec in E2 as [-> E2].
  match type of E with bind ?m _ = _ => destruct m as [[[aux name] w3]| |] eqn:E4; cbn [bind] in E; try discriminate end.
  assert (S2 : aux = entries y - 1 - weak1 y /\ w3 = cw_set_nsym w2 (cw_nsym w2 + aux)).
  { assert (HZ : w2 = cw_set_nsym w2 (cw_nsym w2 + 0)) by (rewrite Z.add_0_r; destruct w2; reflexivity).
    unfold entries, weak1, has_section in *. destruct (sy_weak y); cbn [negb andb].
    - destruct (cw_reserve_aux w2) as [[a w4]| |] eqn:E5; cbn [bind] in E4; try discriminate. injection E4 as <- <- <-.
      apply reserve_aux_spec in E5 as [-> ->]. auto.
    - destruct (sy_kind y); cbn [negb andb] in *; try (injection E4 as <- <- <-; split; [lia|exact HZ]).
      + destruct (sy_section y); try (injection E4 as <- <- <-; split; [lia|exact HZ]).
        destruct (cw_reserve_aux w2) as [[a w4]| |] eqn:E5; cbn [bind] in E4; try discriminate. injection E4 as <- <- <-.
        apply reserve_aux_spec in E5 as [-> ->]. auto.
      + destruct (cw_reserve_aux_file_name w2 (sy_name y)) as [[a w4]| |] eqn:E5; cbn [bind] in E4; try discriminate. injection E4 as <- <- <-.
        apply reserve_file_spec in E5 as [-> ->]; [|auto]. split; [lia|]. reflexivity. }
  destruct S2 as [-> ->]. destruct (cw_add_name _ name) as [[n w4]| |] eqn:E5; cbn [bind] in E; try discriminate.
  injection E as <- <- <-. apply add_name_ext in E5 as [_ ->]. rewrite E2. cbn [cw_set_nsym cw_set_strtab cw_nsym cw_strtab].
  split; [apply (frameB_trans w w1); [exact F1|reflexivity]|lia].
Qed.

Lemma total_app a b : total (a ++ b) = total a + total b.
Proof. induction a as [|x a IH]; cbn [total app fold_right]; [reflexivity|]. fold (total (a ++ b)). fold (total a). lia. Qed.
Lemma total_one y : total [y] = entries y. Proof. unfold total; cbn [fold_right]. lia. Qed.
Lemma total_nonneg l : 0 <= total l.
Proof.
  induction l as [|y l IH]; [cbn; lia|]. change (total (y :: l)) with (entries y + total l). pose proof (entries_pos y).
  unfold weak1 in *. destruct (sy_weak y); lia.
Qed.
Lemma ztake_step {A} (l : list A) i x : zget l i = Some x -> ztake (i + 1) l = ztake i l ++ [x].
Proof.
  intro H. apply zget_Some_lt in H as Hb. pose proof (zdrop_cons _ _ _ H) as E.
  assert (El : l = (ztake i l ++ [x]) ++ zdrop (i + 1) l).
  { rewrite <- app_assoc. cbn [app]. rewrite <- E. unfold ztake, zdrop. symmetry. apply firstn_skipn. }
  rewrite El at 1. apply ztake_app_eq. rewrite zlen_app, zlen_ztake by lia. reflexivity.
Qed.
Lemma ztake_all {A} (l : list A) n : zlen l <= n -> ztake n l = l.
Proof. intro H. unfold ztake. apply firstn_all2. unfold zlen in H. lia. Qed.
Lemma total_take l i : total (ztake i l) <= total l.
Proof.
  assert (E : total l = total (ztake i l) + total (zdrop i l)).
  { rewrite <- total_app. unfold ztake, zdrop. rewrite firstn_skipn. reflexivity. }
  pose proof (total_nonneg (zdrop i l)). lia.
Qed.
Definition rsym (o : obj) := fun y w => ' (weak, s, w) <- reserve_symbol o y w ;; Ok ((weak, s), w).
Lemma reserve_symbols_count o l : forall w ys w', Forall (sym_ok o) l -> map_m (rsym o) l w = Ok (ys, w') ->
  frameB w w' /\ cw_nsym w' = cw_nsym w + total l.
Proof.
  induction l as [|y l IH]; intros w ys w' Hl E; cbn [map_m] in E.
  - injection E as <- <-. split; [apply frameB_refl|cbn; lia].
  - unfold rsym at 1 in E. destruct (reserve_symbol o y w) as [[[wk s] w1]| |] eqn:E1; cbn [bind] in E; try discriminate.
    destruct (map_m _ l w1) as [[ys1 w2]| |] eqn:E2; cbn [bind] in E; try discriminate. injection E as <- <-.
    destruct (reserve_symbol_count _ _ _ _ _ _ (Forall_inv Hl) E1) as [A B]. destruct (IH _ _ _ (Forall_inv_tail Hl) E2) as [C D].
    split; [exact (frameB_trans _ _ _ A C)|]. change (total (y :: l)) with (entries y + total l). lia.
Qed.
Lemma map_m_ext {X Y} (f : X -> cw -> out (Y * cw)) l : (forall x w y w', f x w = Ok (y, w') -> ext (cw_strtab w) (cw_strtab w')) ->
  forall w ys w', map_m f l w = Ok (ys, w') -> ext (cw_strtab w) (cw_strtab w').
Proof.
  intro Hf. induction l as [|x l IH]; intros w ys w' E; cbn [map_m] in E; [injection E as <- <-; apply ext_refl|].
  destruct (f x w) as [[y w1]| |] eqn:E1; cbn [bind] in E; try discriminate. destruct (map_m f l w1) as [[ys1 w2]| |] eqn:E2; cbn [bind] in E; try discriminate.
  injection E as <- <-. exact (ext_trans _ _ _ (Hf _ _ _ _ E1) (IH _ _ _ E2)).
Qed.
Lemma rsym_ext o y w r w' : rsym o y w = Ok (r, w') -> ext (cw_strtab w) (cw_strtab w').
Proof.
  unfold rsym. destruct (reserve_symbol o y w) as [[[wk s] w1]| |] eqn:E; cbn [bind]; try discriminate. intros [= <- <-]. exact (reserve_symbol_ext _ _ _ _ _ _ E).
Qed.
Lemma write_loop_ge strings ids : forall offset previous offsets w offsets' w' offset',
  write_loop strings ids offset previous offsets w = Ok (offsets', w', offset') -> offset <= offset'.
Proof.
  induction ids as [|id ids IH]; intros offset previous offsets w offsets' w' offset' E; cbn [write_loop] in E; [injection E as <- <- <-; lia|].
  destruct (zget strings id) as [s|]; cbn [unwrap bind] in E; [|discriminate]. destruct (ends_with previous s).
  - destruct (psub _ _); cbn [bind] in E; try discriminate. apply IH in E. exact E.
  - apply IH in E. pose proof (zlen_nonneg s). lia.
Qed.
Lemma st_write_ge t base n d t' : st_in_order t = false -> st_write t base = (Ok n, d, t') -> base <= n.
Proof.
  intros Hi E. unfold st_write in E. rewrite Hi in E. cbn [negb andb] in E. destruct (st_offsets t); [|discriminate].
  destruct (existsb _ _); [discriminate|]. destruct (st_sort _ _ _ _) as [ids| |]; try discriminate.
  destruct (write_loop _ _ _ _ _ _) as [[[o w] x]| |] eqn:El; try discriminate. apply write_loop_ge in El. destruct (x <? 2 ^ 32); [|discriminate].
  injection E as <- <- <-. exact El.
Qed.
Lemma reserve_symbols_spec o w0 ys w k0 : Forall (sym_ok o) (o_symbols o) -> cw_nsym w0 = 0 -> ninv w0 k0 -> k0 + total (o_symbols o) <= 2 ^ 32 ->
  map_m (rsym o) (o_symbols o) w0 = Ok (ys, w) ->
  ext (cw_strtab w0) (cw_strtab w) /\ ninv w (k0 + total (o_symbols o)) /\ zlen ys = zlen (o_symbols o) /\
  forall i y, zget (o_symbols o) i = Some y -> exists wk s, zget ys i = Some (wk, s) /\
    reserved o y (total (ztake i (o_symbols o))) wk s (cw_strtab w).
Proof.
  intros Hs H0 Hn Hk E. set (l := o_symbols o) in *.
  assert (Hall : Forall (fun y => str_ok (sy_name y)) (o_symbols o)).
  { eapply Forall_impl; [|exact Hs]. intros y Hy. apply Hy. }
  destruct (map_m_inv (rsym o)
    (fun j w => ext (cw_strtab w0) (cw_strtab w) /\ ninv w (k0 + total (ztake j l)) /\ cw_nsym w = total (ztake j l))
    (fun j y r w => reserved o y (total (ztake j l)) (fst r) (snd r) (cw_strtab w)) l 0 w0 ys w) as ((A & B & C) & D & G); [| | |exact E|].
  - intros j y w1 r w1' Hj Hkj (X & N & C) E1. rewrite Z.sub_0_r in Hj. unfold rsym in E1.
    destruct (reserve_symbol o y w1) as [[[wk s] w2]| |] eqn:E2; cbn [bind] in E1; try discriminate. injection E1 as <- <-.
    pose proof (total_take l (j + 1)) as Ht. rewrite (ztake_step _ _ _ Hj), total_app, total_one in Ht.
    destruct (reserve_symbol_spec _ _ _ _ _ _ _ Hall (Forall_zget _ _ _ _ Hs Hj) N ltac:(lia) E2) as (F1 & N1 & X1 & I1 & R1).
    rewrite (ztake_step _ _ _ Hj), total_app, total_one. rewrite C in *. split; [|exact R1].
    split; [exact (ext_trans _ _ _ X X1)|]. split; [rewrite Z.add_assoc; exact I1|exact N1].
  - clear E. intros j y r w1 w2 y' r' i HR _ _ E1. unfold rsym in E1.
    destruct (reserve_symbol o y' w1) as [[[wk s] w3]| |] eqn:E2; cbn [bind] in E1; try discriminate. injection E1 as <- <-.
    exact (reserved_ext _ _ _ _ _ _ _ (reserve_symbol_ext _ _ _ _ _ _ E2) HR).
  - split; [apply ext_refl|]. split; [|rewrite H0; reflexivity]. apply (ninv_mono _ _ _ Hn). cbn. lia.
  - rewrite Z.add_0_l, (ztake_all l) in B by lia. split; [exact A|]. split; [exact B|]. split; [exact D|].
    intros i y Hi. destruct (G i y Hi) as ([wk s] & G1 & G2). exists wk, s. split; [exact G1|exact G2].
Qed.

(** * Layout of section data and relocations *)
Definition lo_a (p : Z) (s : osec) : Z := match se_data s with [] => p | _ => align_up p 4 end.
Definition lo_e (p : Z) (s : osec) : Z := lo_a p s + zlen (se_data s).
Definition rel_count (s : osec) : Z := let n := zlen (se_relocs s) in if n =? 0 then 0 else if 65535 <? n then n + 1 else n.
Definition lo_next (p : Z) (s : osec) : Z := lo_e p s + rel_count s * 10.
Definition lo_offs (p : Z) (s : osec) : Z * Z :=
  (match se_data s with [] => 0 | _ => wrap_u 32 (lo_a p s) end, match se_relocs s with [] => 0 | _ => wrap_u 32 (lo_e p s) end).
Lemma align4_inv x n : 0 <= x -> align 64 x 4 = Ok n -> n = align_up x 4.
Proof.
  intros Hx H. assert (Hb : x + 3 < 2 ^ 64).
  { unfold align, psub, padd in H. change (1 <=? 4) with true in H. cbn [bind] in H. change (4 - 1) with 3 in H.
    destruct (Z.ltb_spec (x + 3) (2 ^ 64)); [lia|discriminate]. }
  change 4 with (2 ^ 2) in H. rewrite align_Ok in H by lia. change (2 ^ 2) with 4 in H. congruence.
Qed.
Lemma lo_a_le p s : p <= lo_a p s < p + 4.
Proof. unfold lo_a. destruct (se_data s); [lia|]. apply (align_up_spec p 4). lia. Qed.
Lemma rel_count_nonneg s : 0 <= rel_count s.
Proof. unfold rel_count. pose proof (zlen_nonneg (se_relocs s)). destruct (_ =? 0); [lia|]. destruct (_ <? _); lia. Qed.
Lemma lo_next_le p s : p <= lo_next p s.
Proof. unfold lo_next, lo_e. pose proof (lo_a_le p s). pose proof (zlen_nonneg (se_data s)). pose proof (rel_count_nonneg s). lia. Qed.
Lemma reserve_inv1 w n o w' : cw_reserve w n 1 = Ok (o, w') -> o = wrap_u 32 (cw_len w) /\ w' = cw_set_len w (cw_len w + n).
Proof. unfold cw_reserve. change (1 <? 1) with false. cbn [bind]. unfold padd. destruct (_ <? _); cbn [bind]; [|discriminate]. intros [= <- <-]. auto. Qed.
Lemma reserve_section_spec s w a b w' : 0 <= cw_len w -> reserve_section s w = Ok (a, b, w') ->
  w' = cw_set_len w (lo_next (cw_len w) s) /\ (a, b) = lo_offs (cw_len w) s.
Proof.
  intros Hw E. unfold reserve_section in E.
  destruct (cw_reserve_section w _) as [[a1 w1]| |] eqn:E1; cbn [bind] in E; try discriminate.
  destruct (cw_reserve_relocations w1 _) as [[b1 w2]| |] eqn:E2; cbn [bind] in E; try discriminate. injection E as <- <- <-.
  assert (S1 : w1 = cw_set_len w (lo_e (cw_len w) s) /\ a1 = fst (lo_offs (cw_len w) s)).
  { unfold cw_reserve_section in E1. unfold lo_e, lo_offs, lo_a. cbn [fst]. destruct (se_data s) as [|d0 d] eqn:Ed.
    - change (zlen (@nil Z) =? 0) with true in E1. injection E1 as <- <-. split; [|reflexivity]. change (zlen (@nil Z)) with 0. rewrite Z.add_0_r. destruct w; reflexivity.
    - destruct (Z.eqb_spec (zlen (d0 :: d)) 0) as [Hz|_]; [rewrite zlen_cons in Hz; pose proof (zlen_nonneg d); lia|].
      unfold cw_reserve in E1. change (1 <? 4) with true in E1. cbn iota in E1. destruct (align 64 (cw_len w) 4) as [x| |] eqn:Ea; cbn [bind] in E1; try discriminate.
      apply align4_inv in Ea as ->; [|exact Hw]. unfold padd in E1. destruct (_ <? _); cbn [bind] in E1; [|discriminate].
      injection E1 as <- <-. split; reflexivity. }
  destruct S1 as [-> ->]. unfold cw_reserve_relocations in E2. unfold lo_next, rel_count, lo_offs. cbn [fst].
  destruct (se_relocs s) as [|r0 r] eqn:Er.
  - change (zlen (@nil orel) =? 0) with true in *. injection E2 as <- <-. split; [|reflexivity]. rewrite Z.mul_0_l, Z.add_0_r. reflexivity.
  - destruct (Z.eqb_spec (zlen (r0 :: r)) 0) as [Hz|_]; [rewrite zlen_cons in Hz; pose proof (zlen_nonneg r); lia|].
    unfold pmul in E2. destruct (_ <? 2 ^ 64); cbn [bind] in E2; [|discriminate]. apply reserve_inv1 in E2 as [-> ->]. split; reflexivity.
Qed.
Definition overflow_rel (s : osec) : bytes :=
  if 65535 <? zlen (se_relocs s) then enc_rel {| cr_va := wrap_u 32 (zlen (se_relocs s)) + 1; cr_sym := 0; cr_typ := 0 |} else [].
Definition rel_of (ys : list soff) (r : orel) (c : crel) : Prop :=
  exists t y, ol_flags r = RFcoff t /\ zget ys (ol_symbol r) = Some y /\
    c = {| cr_va := wrap_u 32 (ol_offset r); cr_sym := so_index y; cr_typ := t |}.
Lemma put_put w a b : cw_put (cw_put w a) b = cw_put w (a ++ b).
Proof. unfold cw_put, cw_set_buf. cbn. rewrite app_assoc. reflexivity. Qed.
Lemma put_nil w : cw_put w [] = w.
Proof. unfold cw_put. rewrite app_nil_r. destruct w; reflexivity. Qed.
Lemma write_relocs_spec ys l : forall w w', fold_m (write_reloc ys) l w = Ok w' ->
  exists cs, w' = cw_put w (concat (map enc_rel cs)) /\ Forall2 (rel_of ys) l cs.
Proof.
  induction l as [|r l IH]; intros w w' E; cbn [fold_m] in E.
  - injection E as <-. exists []. split; [symmetry; apply put_nil|constructor].
  - destruct (write_reloc ys r w) as [w1| |] eqn:E1; cbn [bind] in E; try discriminate. destruct (IH _ _ E) as (cs & -> & HF).
    unfold write_reloc in E1. destruct (ol_flags r) eqn:Ef; try discriminate.
    destruct (zget ys (ol_symbol r)) as [y|] eqn:Ey; cbn [unwrap bind] in E1; try discriminate. injection E1 as <-.
    eexists (_ :: cs). split; [unfold cw_write_relocation; rewrite put_put; reflexivity|]. constructor; [|exact HF].
    eexists _, _. split; [exact Ef|]. split; [exact Ey|reflexivity].
Qed.
Lemma zlen_enc_rel c : zlen (enc_rel c) = 10. Proof. unfold enc_rel. rewrite !zlen_app, !zlen_write_u. reflexivity. Qed.
Lemma zlen_concat_rel cs : zlen (concat (map enc_rel cs)) = zlen cs * 10.
Proof.
  induction cs as [|c cs IH]; [reflexivity|]. cbn [map concat]. rewrite zlen_app, zlen_enc_rel, zlen_cons, IH. lia.
Qed.
Lemma align_put w n : 0 <= zlen (cw_buf w) -> cw_align w 4 = Ok n -> n = cw_put w (zeros (align_up (zlen (cw_buf w)) 4 - zlen (cw_buf w))).
Proof.
  intros H E. unfold cw_align in E. destruct (align 64 _ 4) as [x| |] eqn:Ea; cbn [bind] in E; try discriminate.
  apply align4_inv in Ea as ->; [|exact H]. unfold cw_resize in E. destruct (_ <? _); [discriminate|]. injection E as <-. reflexivity.
Qed.
Lemma write_sec_spec ys s w w' : write_sec ys s w = Ok w' ->
  let p := zlen (cw_buf w) in
  exists cs, Forall2 (rel_of ys) (se_relocs s) cs /\
    w' = cw_put w (zeros (lo_a p s - p) ++ se_data s ++ overflow_rel s ++ concat (map enc_rel cs)) /\
    zlen (cw_buf w') = lo_next p s /\ (65535 < zlen (se_relocs s) -> wrap_u 32 (zlen (se_relocs s)) + 1 < 2 ^ 32).
Proof.
  intros E p. unfold write_sec in E. destruct (cw_write_section w (se_data s)) as [w1| |] eqn:E1; cbn [bind] in E; try discriminate.
  assert (S1 : w1 = cw_put w (zeros (lo_a p s - p) ++ se_data s)).
  { unfold cw_write_section in E1. unfold lo_a. destruct (se_data s) as [|d0 d].
    - injection E1 as <-. rewrite Z.sub_diag. symmetry. apply put_nil.
    - destruct (cw_align w 4) as [w2| |] eqn:E2; cbn [bind] in E1; try discriminate. apply align_put in E2 as ->; [|apply zlen_nonneg].
      injection E1 as <-. apply put_put. }
  assert (S2 : exists cs, Forall2 (rel_of ys) (se_relocs s) cs /\ w' = cw_put w1 (overflow_rel s ++ concat (map enc_rel cs)) /\
     (65535 < zlen (se_relocs s) -> wrap_u 32 (zlen (se_relocs s)) + 1 < 2 ^ 32)).
  { unfold overflow_rel. destruct (se_relocs s) as [|r0 r] eqn:Er.
    - injection E as <-. exists []. split; [constructor|]. change (65535 <? zlen (@nil orel)) with false. cbn [map concat app].
      split; [symmetry; apply put_nil|]. change (zlen (@nil orel)) with 0. lia.
    - rewrite <- Er in *. unfold cw_write_relocations_count in E. destruct (Z.ltb_spec 65535 (zlen (se_relocs s))).
      + unfold padd in E. destruct (Z.ltb_spec (wrap_u 32 (zlen (se_relocs s)) + 1) (2 ^ 32)); cbn [bind] in E; [|discriminate].
        destruct (write_relocs_spec _ _ _ _ E) as (cs & -> & HF). exists cs. split; [exact HF|]. split; [|auto]. rewrite put_put. reflexivity.
      + cbn [bind] in E. destruct (write_relocs_spec _ _ _ _ E) as (cs & -> & HF). exists cs. split; [exact HF|]. split; [reflexivity|lia]. }
  destruct S2 as (cs & HF & -> & Ho). exists cs. split; [exact HF|]. rewrite S1, put_put, <- !app_assoc. split; [reflexivity|]. split; [|exact Ho].
  unfold cw_put, cw_set_buf. cbn [cw_buf]. fold p. pose proof (lo_a_le p s). pose proof (zlen_nonneg (se_relocs s)).
  assert (Hcs : zlen cs = zlen (se_relocs s)) by (unfold zlen; rewrite (Forall2_len _ _ _ HF); reflexivity).
  rewrite !zlen_app, zlen_concat_rel, zlen_zeros by lia. unfold lo_next, lo_e, overflow_rel, rel_count. fold p.
  destruct (Z.ltb_spec 65535 (zlen (se_relocs s))); destruct (Z.eqb_spec (zlen (se_relocs s)) 0); rewrite ?zlen_enc_rel; change (zlen (@nil Z)) with 0; lia.
Qed.
Lemma holds_ext F X o b : holds F o b -> holds (F ++ X) o b.
Proof. intros (a & c & -> & H). exists a, (c ++ X). split; [rewrite <- !app_assoc; reflexivity|exact H]. Qed.
Lemma holds_end F b : holds (F ++ b) (zlen F) b.
Proof. exists F, []. split; [rewrite app_nil_r; reflexivity|reflexivity]. Qed.
Definition rsec := fun s w => ' (a, b, w) <- reserve_section s w ;; Ok ((a, b), w).
(** reserving and writing agree *)
Lemma sections_layout ys ss : forall w offs w' v v', 0 <= cw_len w -> zlen (cw_buf v) = cw_len w ->
  map_m rsec ss w = Ok (offs, w') -> fold_m (write_sec ys) ss v = Ok v' ->
  w' = cw_set_len w (cw_len w') /\ cw_len w <= cw_len w' /\ zlen (cw_buf v') = cw_len w' /\ (exists d, v' = cw_put v d) /\ zlen offs = zlen ss /\
  forall i s, zget ss i = Some s -> exists a e cs,
    zget offs i = Some (match se_data s with [] => 0 | _ => wrap_u 32 a end, match se_relocs s with [] => 0 | _ => wrap_u 32 e end) /\
    holds (cw_buf v') a (se_data s) /\ holds (cw_buf v') e (overflow_rel s ++ concat (map enc_rel cs)) /\ Forall2 (rel_of ys) (se_relocs s) cs /\
    (65535 < zlen (se_relocs s) -> wrap_u 32 (zlen (se_relocs s)) + 1 < 2 ^ 32).
Proof.
  induction ss as [|s ss IH]; intros w offs w' v v' Hw Hv E1 E2; cbn [map_m fold_m] in E1, E2.
  - injection E1 as <- <-. injection E2 as <-. split; [destruct w; reflexivity|]. split; [lia|]. split; [exact Hv|].
    split; [exists []; symmetry; apply put_nil|]. split; [reflexivity|]. intros i s H. apply zget_Some_lt in H. change (zlen (@nil osec)) with 0 in H. lia.
  - unfold rsec at 1 in E1. destruct (reserve_section s w) as [[[a b] w1]| |] eqn:E3; cbn [bind] in E1; try discriminate.
    destruct (map_m rsec ss w1) as [[offs1 w2]| |] eqn:E4; cbn [bind] in E1; try discriminate. injection E1 as <- <-.
    destruct (write_sec ys s v) as [v1| |] eqn:E5; cbn [bind] in E2; try discriminate.
    destruct (reserve_section_spec _ _ _ _ _ Hw E3) as [-> Ho]. destruct (write_sec_spec _ _ _ _ E5) as (cs & HF & Ev & Hl & Hov).
    rewrite Hv in *. pose proof (lo_next_le (cw_len w) s).
    destruct (IH (cw_set_len w (lo_next (cw_len w) s)) offs1 w2 v1 v') as (A & A2 & B & [d C] & D & G); [cbn [cw_set_len cw_len]; lia|exact Hl|exact E4|exact E2|].
    cbn [cw_set_len cw_len] in A2. split; [exact A|]. split; [lia|]. split; [exact B|]. split; [rewrite C, Ev, put_put; eexists; reflexivity|].
    split; [rewrite !zlen_cons; lia|]. intros i s0 Hi. destruct (Z.eq_dec i 0) as [->|Hi0].
    + rewrite zget_0 in *. injection Hi as <-. exists (lo_a (cw_len w) s), (lo_e (cw_len w) s), cs. rewrite Ho. split; [reflexivity|].
      pose proof (lo_a_le (cw_len w) s).
      assert (HH : holds (cw_buf v1) (lo_a (cw_len w) s) (se_data s ++ overflow_rel s ++ concat (map enc_rel cs))).
      { rewrite Ev. unfold cw_put, cw_set_buf. cbn [cw_buf]. eexists (cw_buf v ++ zeros (lo_a (cw_len w) s - cw_len w)), [].
        split; [rewrite app_nil_r, <- app_assoc; reflexivity|]. rewrite zlen_app, zlen_zeros; lia. }
      apply (holds_ext _ d) in HH. apply holds_app in HH as [H1 H2].
      rewrite C. unfold cw_put, cw_set_buf. cbn [cw_buf]. split; [exact H1|]. split; [exact H2|]. split; [exact HF|exact Hov].
    + apply zget_Some_lt in Hi as Hb. rewrite zget_S in Hi by lia. destruct (G _ _ Hi) as (a0 & e0 & cs0 & G1 & G2). exists a0, e0, cs0.
      rewrite zget_S by lia. split; [exact G1|exact G2].
Qed.

(** * Section headers *)
Definition sec_field (t : strtab) (c : cname) (f : bytes) : Prop :=
  match c with NShort b => f = b | NLong id => exists o, st_get_offset t id = Ok o /\ f = sec_name_field o end.
Definition hdr_bytes (f : bytes) (rawsize rawptr relptr nrel flags : Z) : bytes :=
  f ++ write_u Little 4 0 ++ write_u Little 4 0 ++ write_u Little 4 rawsize ++ write_u Little 4 rawptr ++
    write_u Little 4 relptr ++ write_u Little 4 0 ++ write_u Little 2 (if 65535 <? nrel then 65535 else nrel) ++
    write_u Little 2 0 ++ write_u Little 4 flags.
Definition hdr_flags (s : osec) (c a sel : Z) : Z :=
  let c := if negb (sel =? 0) then Z.lor c SCN_COMDAT else c in
  let c := if 65535 <? zlen (se_relocs s) then Z.lor c SCN_OVFL else c in
  with_align c (Z.shiftl a 20).
Definition hdr_of (t : strtab) (x : osec * cname * (Z * Z) * (Z * Z)) (h : bytes) : Prop :=
  let '(s, name, (offset, reloc_offset), (sel, _)) := x in
  exists f c a, sec_field t name f /\ sec_characteristics s = Ok c /\ align_flag (se_align s) = Some a /\
    h = hdr_bytes f (wrap_u 32 (se_size s)) offset reloc_offset (wrap_u 32 (zlen (se_relocs s))) (hdr_flags s c a sel).
Lemma write_headers_spec l : forall w w', fold_m write_sec_header l w = Ok w' ->
  exists hs, w' = cw_put w (concat hs) /\ Forall2 (hdr_of (cw_strtab w)) l hs.
Proof.
  induction l as [|x l IH]; intros w w' E; cbn [fold_m] in E.
  - injection E as <-. exists []. split; [symmetry; apply put_nil|constructor].
  - destruct (write_sec_header x w) as [w1| |] eqn:E1; cbn [bind] in E; try discriminate. destruct (IH _ _ E) as (hs & -> & HF).
    destruct x as [[[s name] [offset ro]] [sel assoc]]. unfold write_sec_header in E1.
    destruct (sec_characteristics s) as [c| |] eqn:Ec; cbn [bind] in E1; try discriminate.
    destruct (align_flag (se_align s)) as [a|] eqn:Ea; cbn [of_opt bind] in E1; try discriminate.
    unfold cw_write_section_header in E1.
    match type of E1 with bind ?m _ = _ => destruct m as [f| |] eqn:Ef; cbn [bind] in E1; try discriminate end. injection E1 as <-.
    eexists (_ :: hs). split; [cbn [concat]; rewrite put_put; reflexivity|]. constructor; [|exact HF].
    exists f, c, a. split; [|split; [exact Ec|split; [exact Ea|reflexivity]]].
    destruct name as [b|id]; cbn [sec_field]; [congruence|].
    destruct (st_get_offset (cw_strtab w) id) as [o| |]; cbn [bind] in Ef; try discriminate. exists o. split; [reflexivity|congruence].
Qed.

(** * Symbols *)
Definition sym_field (t : strtab) (c : cname) (f : bytes) : Prop :=
  match c with NShort b => f = b | NLong id => exists o, st_get_offset t id = Ok o /\ f = zeros 4 ++ write_u Little 4 o end.
Definition sym_bytes (f : bytes) (value secnum typ class naux : Z) : bytes :=
  f ++ write_u Little 4 value ++ write_u Little 2 (wrap_u 16 secnum) ++ write_u Little 2 typ ++ [class] ++ [naux].
Definition aux_sec_bytes (length nrel sum number sel : Z) : bytes :=
  write_u Little 4 length ++ write_u Little 2 (if 65535 <? nrel then 65535 else nrel) ++ write_u Little 2 0 ++
    write_u Little 4 sum ++ write_u Little 2 (wrap_u 16 number) ++ [sel] ++ [0] ++ write_u Little 2 (wrap_u 16 (Z.shiftr number 16)).
Definition aux_weak_bytes (def : Z) : bytes := write_u Little 4 def ++ write_u Little 4 3 ++ zeros 10.
Lemma write_symbol_inv w c value secnum typ class naux w' : cw_write_symbol w c value secnum typ class naux = Ok w' ->
  exists f, sym_field (cw_strtab w) c f /\ w' = cw_put w (sym_bytes f value secnum typ class naux).
Proof.
  intro E. unfold cw_write_symbol in E. match type of E with bind ?m _ = _ => destruct m as [f| |] eqn:Ef; cbn [bind] in E; try discriminate end.
  injection E as <-. exists f. split; [|reflexivity]. destruct c as [b|id]; cbn [sym_field]; [congruence|].
  destruct (st_get_offset (cw_strtab w) id) as [o| |]; cbn [bind] in Ef; try discriminate. exists o. split; [reflexivity|congruence].
Qed.
Definition def_secnum (y : osym) (n : Z) : Prop := match sy_section y with YSec id => sec_number id = Ok n | YUndefined => n = IMAGE_SYM_ABSOLUTE | _ => False end.
Definition own_secnum (y : osym) (n : Z) : Prop :=
  match sy_section y with
  | YNone => n = IMAGE_SYM_DEBUG /\ sy_kind y = YFile
  | YUndefined | YCommon => n = IMAGE_SYM_UNDEFINED
  | YAbsolute => n = IMAGE_SYM_ABSOLUTE
  | YSec id => sec_number id = Ok n
  end.
Definition own_value (y : osym) : Z := match sy_section y with YCommon => wrap_u 32 (sy_size y) | _ => wrap_u 32 (sy_value y) end.
Definition aux_of (crc : bytes -> Z) (o : obj) (sels : list (Z * Z)) (y : osym) (naux : Z) (auxs : list bytes) : Prop :=
  match sy_kind y, sy_section y with
  | YFile, _ => concat auxs = sy_name y ++ zeros (naux * 18 - zlen (sy_name y))
  | YSection, YSec id => exists s sel assoc, zget (o_sections o) id = Some s /\ zget sels id = Some (sel, assoc) /\
      auxs = [aux_sec_bytes (wrap_u 32 (se_size s)) (wrap_u 32 (zlen (se_relocs s))) (if is_bss (se_kind s) then 0 else crc (se_data s)) assoc sel]
  | _, _ => auxs = []
  end.
Definition wrote (crc : bytes -> Z) (o : obj) (sels : list (Z * Z)) (t : strtab) (y : osym) (weak : option soff) (s : soff) (blk : list bytes) : Prop :=
  exists typ class f, sym_flags y = Ok (typ, class) /\ sym_field t (so_name s) f /\
  if sy_weak y then exists d fd n, weak = Some d /\ sym_field t (so_name d) fd /\ def_secnum y n /\
    blk = [sym_bytes fd (wrap_u 32 (sy_value y)) n 0 CLASS_EXTERNAL 0; sym_bytes f 0 IMAGE_SYM_UNDEFINED typ class (so_aux s); aux_weak_bytes (so_index d)]
  else exists n auxs, own_secnum y n /\ blk = sym_bytes f (own_value y) n typ class (so_aux s) :: auxs /\
    aux_of crc o sels y (so_aux s) auxs /\ zlen auxs = so_aux s /\ Forall (fun b => zlen b = 18) auxs.
Lemma zlen_aux_sec a b c d e : zlen (aux_sec_bytes a b c d e) = 18.
Proof. unfold aux_sec_bytes. rewrite !zlen_app, !zlen_write_u. reflexivity. Qed.
Lemma zlen_aux_weak d : zlen (aux_weak_bytes d) = 18.
Proof. unfold aux_weak_bytes. rewrite !zlen_app, !zlen_write_u, zlen_zeros by lia. reflexivity. Qed.
Lemma chunks_len n k l : 0 <= n -> zlen l = Z.of_nat k * n -> Forall (fun c => zlen c = n) (chunks n k l).
Proof.
  intro Hn. revert l. induction k as [|k IH]; intros l Hl; cbn [chunks]; [constructor|]. constructor.
  - apply zlen_ztake. nia.
  - apply IH. rewrite zlen_zdrop; nia.
Qed.
Lemma chunks_cat n k l : 0 <= n -> zlen l = Z.of_nat k * n -> concat (chunks n k l) = l.
Proof.
  intro Hn. revert l. induction k as [|k IH]; intros l Hl; cbn [chunks concat].
  - symmetry. apply zlen_0_nil. lia.
  - rewrite IH; [apply ztake_zdrop|]. rewrite zlen_zdrop; nia.
Qed.
Lemma write_sym_spec crc o sels y weak s w w' : write_sym crc o sels (y, (weak, s)) w = Ok w' ->
  exists blk, w' = cw_put w (concat blk) /\ wrote crc o sels (cw_strtab w) y weak s blk.
Proof.
  intros E. unfold write_sym in E. destruct (sym_flags y) as [[typ class]| |] eqn:Ef; cbn [bind] in E; try discriminate.
  unfold wrote. destruct (sy_weak y) eqn:Ew; cbn [bind] in E.
  - destruct weak as [d|]; [|discriminate].
    match type of E with bind (bind ?m _) _ = _ => destruct m as [n| |] eqn:En; cbn [bind] in E; try discriminate end.
    match type of E with bind ?m _ = _ => destruct m as [w1| |] eqn:E1; cbn [bind] in E; try discriminate end.
    match type of E with bind ?m _ = _ => destruct m as [w2| |] eqn:E2; cbn [bind] in E; try discriminate end. injection E as <-.
    apply write_symbol_inv in E1 as (fd & Hfd & ->). apply write_symbol_inv in E2 as (f & Hf & ->).
    exists [sym_bytes fd (wrap_u 32 (sy_value y)) n 0 CLASS_EXTERNAL 0; sym_bytes f 0 IMAGE_SYM_UNDEFINED typ class (so_aux s); aux_weak_bytes (so_index d)].
    split; [change (cw_write_aux_weak ?w (so_index d) 3) with (cw_put w (aux_weak_bytes (so_index d))); rewrite !put_put; cbn [concat]; rewrite app_nil_r; reflexivity|].
    exists typ, class, f. split; [first [reflexivity|exact Ef]|]. split; [exact Hf|]. exists d, fd, n. split; [reflexivity|]. split; [exact Hfd|].
    split; [|reflexivity]. unfold def_secnum. destruct (sy_section y); try discriminate; congruence.
  - match type of E with bind ?m _ = _ => destruct m as [n| |] eqn:En; cbn [bind] in E; try discriminate end.
    match type of E with bind ?m _ = _ => destruct m as [w1| |] eqn:E1; cbn [bind] in E; try discriminate end.
    apply write_symbol_inv in E1 as (f & Hf & ->).
    assert (Hn : own_secnum y n).
    { unfold own_secnum. destruct (sy_section y); try congruence. destruct (sy_kind y); try discriminate. split; congruence. }
    fold (own_value y) in *.
    assert (S : exists auxs, w' = cw_put (cw_put w (sym_bytes f (own_value y) n typ class (so_aux s))) (concat auxs) /\ aux_of crc o sels y (so_aux s) auxs /\
                  zlen auxs = so_aux s /\ Forall (fun b => zlen b = 18) auxs).
    { assert (S0 : so_aux s = 0 -> w' = cw_put w (sym_bytes f (own_value y) n typ class (so_aux s)) ->
        aux_of crc o sels y (so_aux s) [] -> exists auxs, w' = cw_put (cw_put w (sym_bytes f (own_value y) n typ class (so_aux s))) (concat auxs) /\
          aux_of crc o sels y (so_aux s) auxs /\ zlen auxs = so_aux s /\ Forall (fun b => zlen b = 18) auxs).
      { intros HA HB HC. exists []. split; [cbn [concat]; rewrite put_nil; exact HB|]. split; [exact HC|]. split; [rewrite HA; reflexivity|constructor]. }
      assert (S1 : (if negb (so_aux s =? 0) then Panic else Ok (cw_put w (sym_bytes f (own_value y) n typ class (so_aux s)))) = Ok w' ->
        aux_of crc o sels y (so_aux s) [] -> exists auxs, w' = cw_put (cw_put w (sym_bytes f (own_value y) n typ class (so_aux s))) (concat auxs) /\
          aux_of crc o sels y (so_aux s) auxs /\ zlen auxs = so_aux s /\ Forall (fun b => zlen b = 18) auxs).
      { destruct (Z.eqb_spec (so_aux s) 0); cbn [negb]; [|discriminate]. intros [= <-] HC. apply S0; auto. }
      unfold aux_of in *. destruct (sy_kind y) eqn:Ek; try (apply S1; [exact E|reflexivity]).
      - destruct (sy_section y) eqn:Es; try (apply S1; [exact E|reflexivity]).
        destruct (Z.eqb_spec (so_aux s) 1); cbn [negb] in E; [|discriminate].
        destruct (zget (o_sections o) id) as [sc|] eqn:Esc; cbn [unwrap bind] in E; [|discriminate].
        destruct (zget sels id) as [[sel assoc]|] eqn:Esl; cbn [unwrap bind] in E; [|discriminate]. injection E as <-.
        eexists [_]. split; [unfold cw_write_aux_section; cbn [concat]; rewrite app_nil_r; reflexivity|].
        split; [exists sc, sel, assoc; split; [reflexivity|]; split; reflexivity|]. split; [symmetry; assumption|].
        constructor; [|constructor]. apply zlen_aux_sec.
      - unfold cw_write_aux_file_name in E. destruct (Z.ltb_spec (so_aux s * 18) (zlen (sy_name y))); [discriminate|].
        unfold padd in E. destruct (_ <? 2 ^ 64); cbn [bind] in E; [|discriminate]. unfold cw_resize in E.
        destruct (_ <? _) eqn:El in E; [discriminate|]. injection E as <-. rewrite put_put.
        pose proof (zlen_nonneg (sy_name y)). set (d := sy_name y ++ zeros (so_aux s * 18 - zlen (sy_name y))).
        assert (Hd : zlen d = Z.of_nat (Z.to_nat (so_aux s)) * 18) by (unfold d; rewrite zlen_app, zlen_zeros; lia).
        exists (chunks 18 (Z.to_nat (so_aux s)) d). rewrite chunks_cat by (try lia; exact Hd).
        split; [f_equal; unfold d; f_equal; f_equal; unfold cw_put, cw_set_buf; cbn [cw_buf]; rewrite !zlen_app; lia|].
        split; [reflexivity|]. split; [rewrite zlen_chunks; lia|]. apply chunks_len; [lia|exact Hd]. }
    destruct S as (auxs & -> & H1 & H2 & H3). exists (sym_bytes f (own_value y) n typ class (so_aux s) :: auxs). split; [rewrite put_put; reflexivity|].
    exists typ, class, f. split; [first [reflexivity|exact Ef]|]. split; [exact Hf|]. exists n, auxs. split; [exact Hn|]. split; [reflexivity|].
    split; [exact H1|]. split; [exact H2|exact H3].
Qed.

(** * The whole file *)
Lemma reserve_sections_len ss : forall w offs w', 0 <= cw_len w -> map_m rsec ss w = Ok (offs, w') -> w' = cw_set_len w (cw_len w') /\ cw_len w <= cw_len w'.
Proof.
  induction ss as [|s ss IH]; intros w offs w' Hw E; cbn [map_m] in E.
  - injection E as <- <-. split; [destruct w; reflexivity|lia].
  - unfold rsec at 1 in E. destruct (reserve_section s w) as [[[a b] w1]| |] eqn:E3; cbn [bind] in E; try discriminate.
    destruct (map_m rsec ss w1) as [[offs1 w2]| |] eqn:E4; cbn [bind] in E; try discriminate. injection E as <- <-.
    destruct (reserve_section_spec _ _ _ _ _ Hw E3) as [-> _]. pose proof (lo_next_le (cw_len w) s).
    apply IH in E4 as [A B]; cbn [cw_set_len cw_len] in *; [|lia]. split; [exact A|lia].
Qed.
Lemma write_secs_put ys ss : forall w w', fold_m (write_sec ys) ss w = Ok w' -> exists d, w' = cw_put w d.
Proof.
  induction ss as [|s ss IH]; intros w w' E; cbn [fold_m] in E.
  - injection E as <-. exists []. symmetry. apply put_nil.
  - destruct (write_sec ys s w) as [w1| |] eqn:E1; cbn [bind] in E; try discriminate. apply write_sec_spec in E1 as (cs & _ & -> & _).
    destruct (IH _ _ E) as [d ->]. rewrite put_put. eexists; reflexivity.
Qed.
Lemma write_syms_spec crc o sels l : forall w w', fold_m (write_sym crc o sels) l w = Ok w' ->
  exists blks, w' = cw_put w (concat (concat blks)) /\
    Forall2 (fun x blk => wrote crc o sels (cw_strtab w) (fst x) (fst (snd x)) (snd (snd x)) blk) l blks.
Proof.
  induction l as [|[y [weak s]] l IH]; intros w w' E; cbn [fold_m] in E.
  - injection E as <-. exists []. split; [symmetry; apply put_nil|constructor].
  - destruct (write_sym crc o sels (y, (weak, s)) w) as [w1| |] eqn:E1; cbn [bind] in E; try discriminate.
    apply write_sym_spec in E1 as (blk & -> & HW). destruct (IH _ _ E) as (blks & -> & HF).
    exists (blk :: blks). split; [rewrite put_put; cbn [concat]; rewrite concat_app; reflexivity|]. constructor; [exact HW|exact HF].
Qed.

Definition file_header (machine nsec symoff nsym flags : Z) : bytes :=
  write_u Little 2 machine ++ write_u Little 2 nsec ++ write_u Little 4 0 ++ write_u Little 4 symoff ++
    write_u Little 4 nsym ++ write_u Little 2 0 ++ write_u Little 2 flags.
(** names stored through [t] can be read back from the string table [tab] *)
Definition stored (t : strtab) (tab : bytes) : Prop :=
  forall id n, zget (st_strings t) id = Some n -> exists off, st_get_offset t id = Ok off /\ 0 <= off < 2 ^ 32 /\ string_at tab off n.
Lemma sec_field_len t tab n c f : stored t tab -> named t n c -> sec_field t c f -> zlen f = 8.
Proof.
  intros Hs [[-> Hl]|(id & -> & Hl & Hg)] Hf; cbn [sec_field] in Hf.
  - subst f. pose proof (zlen_nonneg n). rewrite zlen_app, zlen_zeros; lia.
  - destruct Hf as (o & Ho & ->). destruct (Hs _ _ Hg) as (off & E & Hb & _). rewrite E in Ho. injection Ho as <-.
    apply sec_name_field_spec. exact Hb.
Qed.
Lemma zlen_hdr f a b c d e : zlen f = 8 -> zlen (hdr_bytes f a b c d e) = 40.
Proof. intro H. unfold hdr_bytes. rewrite !zlen_app, !zlen_write_u, H. reflexivity. Qed.
Lemma Forall2_zget_l {A B} (R : A -> B -> Prop) l l' i x : Forall2 R l l' -> zget l i = Some x -> exists y, zget l' i = Some y /\ R x y.
Proof.
  intro H. revert i. induction H as [|a b l l' HR H IH]; intros i Hi.
  - apply zget_Some_lt in Hi. change (zlen (@nil A)) with 0 in Hi. lia.
  - destruct (Z.eq_dec i 0) as [->|]; [rewrite zget_0 in Hi; rewrite zget_0; exists b; split; [reflexivity|congruence]|].
    apply zget_Some_lt in Hi as Hb. rewrite zget_S in Hi by lia. rewrite zget_S by lia. apply IH. exact Hi.
Qed.
Lemma Forall2_zlen {A B} (R : A -> B -> Prop) l l' : Forall2 R l l' -> zlen l' = zlen l.
Proof. intro H. unfold zlen. rewrite (Forall2_len _ _ _ H). reflexivity. Qed.
Lemma zget_combine {A B} (a : list A) : forall (b : list B) i x y, zget a i = Some x -> zget b i = Some y -> zget (combine a b) i = Some (x, y).
Proof.
  induction a as [|x0 a IH]; intros b i x y Ha Hb.
  - apply zget_Some_lt in Ha. change (zlen (@nil A)) with 0 in Ha. lia.
  - destruct b as [|y0 b]; [apply zget_Some_lt in Hb; change (zlen (@nil B)) with 0 in Hb; lia|]. cbn [combine].
    destruct (Z.eq_dec i 0) as [->|]; [rewrite zget_0 in Ha; rewrite zget_0 in Hb; rewrite zget_0; congruence|].
    apply zget_Some_lt in Ha as Hi. rewrite zget_S in Ha by lia. rewrite zget_S in Hb by lia. rewrite zget_S by lia. apply IH; assumption.
Qed.
Lemma zlen_combine {A B} (a : list A) (b : list B) : zlen (combine a b) = Z.min (zlen a) (zlen b).
Proof. unfold zlen. rewrite combine_length. lia. Qed.
Lemma combine_in_l {A B} (a : list A) (b : list B) i x : zget (combine a b) i = Some x -> zget a i = Some (fst x) /\ zget b i = Some (snd x).
Proof.
  revert b i. induction a as [|x0 a IH]; intros b i H; [cbn in H; apply zget_Some_lt in H; change (zlen (@nil (A*B))) with 0 in H; lia|].
  destruct b as [|y0 b]; cbn [combine] in H; [apply zget_Some_lt in H; change (zlen (@nil (A*B))) with 0 in H; lia|].
  destruct (Z.eq_dec i 0) as [->|]; [rewrite zget_0 in H; rewrite !zget_0; injection H as <-; auto|].
  apply zget_Some_lt in H as Hi. rewrite zget_S in H by lia. rewrite !zget_S by lia. apply IH. exact H.
Qed.
Lemma fold_sel_len {X} (f : X -> list (Z * Z) -> out (list (Z * Z))) (Hf : forall x l l', f x l = Ok l' -> zlen l' = zlen l) xs :
  forall l l', fold_m f xs l = Ok l' -> zlen l' = zlen l.
Proof.
  induction xs as [|x xs IH]; intros l l' E; cbn [fold_m] in E; [congruence|].
  destruct (f x l) as [l1| |] eqn:E1; cbn [bind] in E; try discriminate. rewrite (IH _ _ E). apply (Hf _ _ _ E1).
Qed.
Lemma sel_set_len l i g l' : sel_set l i g = Ok l' -> zlen l' = zlen l.
Proof.
  unfold sel_set. destruct (zget l i) eqn:E; cbn [unwrap bind]; [|discriminate]. intros [= <-]. apply zlen_zset. apply zget_Some_lt in E. lia.
Qed.
Lemma comdat_flags_len o c l l' : comdat_flags o c l = Ok l' -> zlen l' = zlen l.
Proof.
  unfold comdat_flags. destruct (zget _ _) as [y|]; cbn [unwrap bind]; [|discriminate]. destruct (sy_section y); try discriminate.
  destruct (comdat_sel _); cbn [of_opt bind]; [|discriminate].
  destruct (sel_set l id _) as [l1| |] eqn:E; cbn [bind]; try discriminate. apply sel_set_len in E. rewrite <- E.
  apply fold_sel_len. clear. intros x l l' E. unfold comdat_member in E. destruct (zget _ _); cbn [unwrap bind] in E; [|discriminate].
  destruct (se_symbol _); [|discriminate]. destruct (_ =? _); [congruence|]. apply sel_set_len in E. exact E.
Qed.
Definition sec_image (F : bytes) (t : strtab) (ys : list (option soff * soff)) (sels : list (Z * Z)) (hs : list bytes) (i : Z) (s : osec) : Prop :=
  exists nm f c a a0 e0 cs sel assoc, zget sels i = Some (sel, assoc) /\ named t (se_name s) nm /\ sec_field t nm f /\
    sec_characteristics s = Ok c /\ align_flag (se_align s) = Some a /\
    zget hs i = Some (hdr_bytes f (wrap_u 32 (se_size s)) (match se_data s with [] => 0 | _ => a0 end) (match se_relocs s with [] => 0 | _ => e0 end)
      (zlen (se_relocs s)) (hdr_flags s c a sel)) /\
    holds F a0 (se_data s) /\ holds F e0 (overflow_rel s ++ concat (map enc_rel cs)) /\ Forall2 (rel_of (map snd ys)) (se_relocs s) cs /\
    (65535 < zlen (se_relocs s) -> zlen (se_relocs s) + 1 < 2 ^ 32).
Definition sym_image (crc : bytes -> Z) (o : obj) (t : strtab) (ys : list (option soff * soff)) (sels : list (Z * Z)) (blks : list (list bytes)) (i : Z) (y : osym) : Prop :=
  exists wk s blk, zget ys i = Some (wk, s) /\ reserved o y (total (ztake i (o_symbols o))) wk s t /\ zget blks i = Some blk /\
    zlen blk = entries y /\ wrote crc o sels t y wk s blk.
Definition csels (o : obj) (sels : list (Z * Z)) : Prop := fold_m (comdat_flags o) (o_comdats o) (map (fun _ => (0, 0)) (o_sections o)) = Ok sels.
Record image (crc : bytes -> Z) (o : obj) (fl : Z) (F : bytes) (machine so : Z) (t : strtab) (tab : bytes) (ys : list (option soff * soff))
    (sels : list (Z * Z)) (hs : list bytes) (blks : list (list bytes)) : Prop := {
  im_stored : stored t tab;
  im_sels : csels o sels;
  im_header : holds F 0 (file_header machine (zlen (o_sections o)) so (total (o_symbols o)) fl);
  im_so : 20 <= so;
  im_hs : holds F 20 (concat hs);
  im_hlen : zlen hs = zlen (o_sections o);
  im_h40 : Forall (fun h => zlen h = 40) hs;
  im_syms : holds F so (concat (concat blks));
  im_s18 : Forall (fun b => zlen b = 18) (concat blks);
  im_slen : zlen (concat blks) = total (o_symbols o);
  im_blen : zlen blks = zlen (o_symbols o);
  im_tab : holds F (so + total (o_symbols o) * 18) tab;
  im_tablen : exists D, tab = write_u Little 4 (zlen tab) ++ D;
  im_end : so + total (o_symbols o) * 18 + zlen tab = zlen F;
  im_sec : forall i s, zget (o_sections o) i = Some s -> sec_image F t ys sels hs i s;
  im_sym : forall i y, zget (o_symbols o) i = Some y -> sym_image crc o t ys sels blks i y }.

Lemma sym_field_len t tab n c f : stored t tab -> named t n c -> sym_field t c f -> zlen f = 8.
Proof.
  intros Hs [[-> Hl]|(id & -> & Hl & Hg)] Hf; cbn [sym_field] in Hf.
  - subst f. pose proof (zlen_nonneg n). rewrite zlen_app, zlen_zeros; lia.
  - destruct Hf as (o & Ho & ->). rewrite zlen_app, zlen_zeros, zlen_write_u by lia. reflexivity.
Qed.
Lemma zlen_sym_bytes f a b c d e : zlen f = 8 -> zlen (sym_bytes f a b c d e) = 18.
Proof. intro H. unfold sym_bytes. rewrite !zlen_app, !zlen_write_u, H. reflexivity. Qed.
Lemma wrote_blk crc o sels t tab y k wk s blk : stored t tab -> reserved o y k wk s t -> wrote crc o sels t y wk s blk ->
  zlen blk = entries y /\ Forall (fun b => zlen b = 18) blk.
Proof.
  intros Hs (R1 & R2 & R3 & R4) (typ & class & f & Ef & Hf & H). pose proof (sym_field_len _ _ _ _ _ Hs R3 Hf) as L. unfold weak1 in *.
  destruct (sy_weak y) eqn:Ew.
  - destruct H as (d & fd & n & Ed & Hfd & Hn & ->). destruct R4 as (d' & Ed' & _ & R4). assert (d' = d) by congruence. subst d'.
    pose proof (sym_field_len _ _ _ _ _ Hs R4 Hfd) as L'. split; [unfold entries; rewrite Ew; reflexivity|].
    constructor; [apply zlen_sym_bytes; assumption|]. constructor; [apply zlen_sym_bytes; assumption|]. constructor; [apply zlen_aux_weak|constructor].
  - destruct H as (n & auxs & _ & -> & _ & HA & HB). split; [rewrite zlen_cons; lia|]. constructor; [apply zlen_sym_bytes; assumption|exact HB].
Qed.
Lemma map_m_len {X Y S} (f : X -> S -> out (Y * S)) l : forall s ys s', map_m f l s = Ok (ys, s') -> zlen ys = zlen l.
Proof.
  induction l as [|x l IH]; intros s ys s' E; cbn [map_m] in E; [injection E as <- <-; reflexivity|].
  destruct (f x s) as [[y s1]| |]; cbn [bind] in E; try discriminate. destruct (map_m f l s1) as [[ys1 s2]| |] eqn:E2; cbn [bind] in E; try discriminate.
  injection E as <- <-. rewrite !zlen_cons, (IH _ _ _ E2). reflexivity.
Qed.
Lemma total_concat crc o sels t tab l : forall ys blks k, stored t tab ->
  Forall2 (fun x blk => wrote crc o sels t (fst x) (fst (snd x)) (snd (snd x)) blk) (combine l ys) blks -> zlen ys = zlen l ->
  (forall i y, zget l i = Some y -> exists wk s, zget ys i = Some (wk, s) /\ reserved o y (k i) wk s t) ->
  zlen (concat blks) = total l /\ Forall (fun b => zlen b = 18) (concat blks).
Proof.
  induction l as [|y l IH]; intros ys blks k Hs HF Hl HR; destruct ys as [|[wk s] ys].
  - inversion HF. split; [reflexivity|constructor].
  - exfalso. rewrite zlen_cons in Hl. change (zlen (@nil osym)) with 0 in Hl. pose proof (zlen_nonneg ys). lia.
  - exfalso. rewrite zlen_cons in Hl. change (zlen (@nil (option soff * soff))) with 0 in Hl. pose proof (zlen_nonneg l). lia.
  - cbn [combine] in HF. inversion HF as [|? blk ? blks' HW HF' E1 E2]. subst. cbn [concat fst snd] in *.
    destruct (HR 0 y (zget_0 _ _)) as (wk' & s' & G & R). rewrite zget_0 in G. injection G as <- <-.
    destruct (wrote_blk _ _ _ _ _ _ _ _ _ _ Hs R HW) as [A B].
    destruct (IH ys blks' (fun i => k (i + 1)) Hs HF') as [C D]; [rewrite !zlen_cons in Hl; lia| |].
    { intros i y' Hi. apply zget_Some_lt in Hi as Hb. destruct (HR (i + 1) y') as (wk' & s' & G' & R').
      - rewrite zget_S by lia. replace (i + 1 - 1) with i by lia. exact Hi.
      - rewrite zget_S in G' by lia. replace (i + 1 - 1) with i in G' by lia. exists wk', s'. auto. }
    rewrite zlen_app. change (total (y :: l)) with (entries y + total l). split; [lia|]. apply Forall_app. auto.
Qed.
Lemma coff_written crc o sub fl F : coff_ok o fl -> zlen F < 2 ^ 32 -> coff_write crc o sub fl = Ok F ->
  exists machine so t tab ys sels hs blks, coff_machine (o_arch o) sub (o_endian o) = Some machine /\
    image crc o fl F machine so t tab ys sels hs blks.
Proof.
  intros (Hns & Hfl & Hsec & Hsym) HF E. unfold coff_write in E. pose proof (zlen_nonneg (o_sections o)) as Hsn.
  match type of E with bind ?m _ = _ => destruct m as [[names w1]| |] eqn:E1; cbn [bind] in E; try discriminate end.
  match type of E with bind ?m _ = _ => destruct m as [sels| |] eqn:E2; cbn [bind] in E; try discriminate end.
  match type of E with bind ?m _ = _ => destruct m as [[ys w2]| |] eqn:E3; cbn [bind] in E; try discriminate end.
  fold (rsym o) in E3.
  match type of E with bind ?m _ = _ => destruct m as [w3| |] eqn:E4; cbn [bind] in E; try discriminate end.
  match type of E with bind ?m _ = _ => destruct m as [w4| |] eqn:E5; cbn [bind] in E; try discriminate end.
  match type of E with bind ?m _ = _ => destruct m as [[offs w5]| |] eqn:E6; cbn [bind] in E; try discriminate end.
  fold rsec in E6.
  match type of E with bind ?m _ = _ => destruct m as [w6| |] eqn:E7; cbn [bind] in E; try discriminate end.
  match type of E with bind ?m _ = _ => destruct m as [machine| |] eqn:E8; cbn [bind] in E; try discriminate end.
  match type of E with bind ?m _ = _ => destruct m as [w7| |] eqn:E9; cbn [bind] in E; try discriminate end.
  match type of E with bind ?m _ = _ => destruct m as [w8| |] eqn:E10; cbn [bind] in E; try discriminate end.
  match type of E with bind ?m _ = _ => destruct m as [w9| |] eqn:E11; cbn [bind] in E; try discriminate end.
  match type of E with bind ?m _ = _ => destruct m as [w10| |] eqn:E12; cbn [bind] in E; try discriminate end.
  match type of E with bind ?m _ = _ => destruct m as [w11| |] eqn:E13; cbn [bind] in E; try discriminate end.
  destruct (Z.eqb_spec (cw_len w11) (zlen (cw_buf w11))) as [Efin|]; cbn [negb] in E; [|discriminate]. injection E as <-.
  assert (Hok1 : Forall (fun s => str_ok (se_name s)) (o_sections o)) by (eapply Forall_impl; [|exact Hsec]; intros s Hs; apply Hs).
  assert (Hns32 : zlen (o_sections o) < 2 ^ 32) by lia.
  destruct (reserve_names _ _ _ Hns32 Hok1 E1) as (I1 & [t1 Ht1] & Ln & Hnm).
  assert (C1 : cw_nsym w1 = 0) by (rewrite Ht1; reflexivity).
  destruct (reserve_symbols_count _ _ _ _ _ Hsym E3) as [F2 N2]. rewrite C1, Z.add_0_l in N2.
  assert (Hw2 : w2 = cw_set_nsym (cw_set_strtab cw_new (cw_strtab w2)) (total (o_symbols o))).
  { unfold frameB in F2. rewrite Ht1, N2 in F2. exact F2. }
  clear F2. pose proof (total_nonneg (o_symbols o)) as Htot.
  (* headers reserved *)
  unfold cw_reserve_file_header in E4. rewrite Hw2 in E4 at 1. change (negb (cw_len _ =? 0)) with false in E4. cbn iota in E4.
  destruct (cw_reserve w2 20 1) as [[x3 w3']| |] eqn:E4'; cbn [bind] in E4; try discriminate. injection E4 as <-. apply reserve_inv1 in E4' as [_ E4].
  unfold cw_reserve_section_headers in E5. destruct (negb (cw_nsec w3' =? 0)); [discriminate|].
  destruct (cw_reserve _ _ 1) as [[x4 w4']| |] eqn:E5' in E5; cbn [bind] in E5; try discriminate. injection E5 as <-. apply reserve_inv1 in E5' as [_ E5].
  rewrite wrap_u_id in E5 by lia.
  assert (L2 : cw_len w2 = 0) by (rewrite Hw2; reflexivity).
  assert (L4 : cw_len w4' = 20 + zlen (o_sections o) * 40).
  { rewrite E5, E4. cbn [cw_set_len cw_set_nsec cw_len]. rewrite L2. lia. }
  assert (L4' : 0 <= cw_len w4') by (rewrite L4; lia).
  destruct (reserve_sections_len _ _ _ _ L4' E6) as [E6' L5].
  (* symbol and string tables reserved *)
  unfold cw_reserve_symtab_strtab in E7. destruct (negb (cw_symoff w5 =? 0)); [discriminate|].
  destruct (cw_reserve w5 _ 1) as [[so w5']| |] eqn:E7a; cbn [bind] in E7; try discriminate. apply reserve_inv1 in E7a as [Eso E7a].
  destruct (negb (cw_stroff (cw_set_symoff w5' so) =? 0)); [discriminate|].
  destruct (st_write (cw_strtab (cw_set_symoff w5' so)) 4) as [[[len| |] D] t] eqn:E7b; try discriminate.
  destruct (cw_reserve _ len 1) as [[sto w5'']| |] eqn:E7c in E7; cbn [bind] in E7; try discriminate. apply reserve_inv1 in E7c as [Esto E7c].
  injection E7 as E7. symmetry in E7.
  assert (Tw5 : cw_strtab w5 = cw_strtab w2) by (rewrite E6', E5, E4; reflexivity).
  assert (Nw5 : cw_nsym w5 = total (o_symbols o)) by (rewrite E6', E5, E4; exact N2).
  assert (Sw5 : cw_nsec w5 = zlen (o_sections o)) by (rewrite E6', E5; reflexivity).
  assert (Bw5 : cw_buf w5 = []) by (rewrite E6', E5, E4, Hw2; reflexivity).
  rewrite Nw5 in E7a. rewrite E7a in E7b, E7c, Esto. cbn [cw_set_symoff cw_set_len cw_set_strtab cw_strtab cw_len] in E7b, E7c, Esto. rewrite Tw5 in E7b.
  assert (L6 : cw_len w6 = cw_len w5 + total (o_symbols o) * 18 + len) by (rewrite E7, E7c; reflexivity).
  assert (T6 : cw_strtab w6 = t) by (rewrite E7, E7c; reflexivity).
  assert (B6 : cw_buf w6 = []) by (rewrite E7, E7c; exact Bw5).
  assert (O6 : cw_stroff w6 = sto) by (rewrite E7, E7c; reflexivity).
  assert (Y6 : cw_symoff w6 = so) by (rewrite E7, E7c; reflexivity).
  assert (N6 : cw_nsym w6 = total (o_symbols o)) by (rewrite E7, E7c; exact Nw5).
  assert (S6 : cw_nsec w6 = zlen (o_sections o)) by (rewrite E7, E7c; exact Sw5).
  assert (D6 : cw_strdata w6 = D /\ cw_strlen w6 = len).
  { rewrite E7, E7c. cbn [cw_set_str cw_set_len cw_set_strtab cw_set_symoff cw_strdata cw_strlen]. rewrite E6', E5, E4, Hw2. split; reflexivity. }
  clear E7 E7c E7a Bw5 Sw5 Nw5.
  (* written parts *)
  unfold cw_write_file_header in E9. rewrite B6 in E9. change (negb (zlen (@nil Z) =? 0)) with false in E9. cbn iota in E9.
  assert (E9' : w7 = cw_put w6 (file_header machine (cw_nsec w6) (cw_symoff w6) (cw_nsym w6) fl)) by (unfold file_header; congruence).
  clear E9. rename E9' into E9. rewrite S6, Y6, N6 in E9.
  destruct (write_headers_spec _ _ _ E10) as (hs & E10' & Hhs). rewrite E9 in Hhs. change (cw_strtab (cw_put w6 _)) with (cw_strtab w6) in Hhs. rewrite T6 in Hhs.
  destruct (write_secs_put _ _ _ _ E11) as [dB E11'].
  destruct (write_syms_spec _ _ _ _ _ _ E12) as (blks & E12' & Hblk).
  assert (T9 : cw_strtab w9 = t) by (rewrite E11', E10', E9; exact T6). rewrite T9 in Hblk.
  assert (O10 : cw_stroff w10 = sto) by (rewrite E12', E11', E10', E9; exact O6).
  unfold cw_write_strtab in E13. destruct (Z.eqb_spec (cw_stroff w10) (zlen (cw_buf w10))) as [Est|]; cbn [negb] in E13; [|discriminate].
  assert (E13' : w11 = cw_put w10 (write_u Little 4 (cw_strlen w10) ++ cw_strdata w10)) by congruence. clear E13. rename E13' into E13.
  assert (D10 : cw_strdata w10 = D /\ cw_strlen w10 = len) by (rewrite E12', E11', E10', E9; exact D6).
  destruct D10 as [D10 D10']. rewrite D10, D10' in E13.
  assert (L11 : cw_len w11 = cw_len w6) by (rewrite E13, E12', E11', E10', E9; reflexivity).
  (* the string table *)
  assert (Hord : st_in_order (cw_strtab w2) = false).
  { pose proof (map_m_ext _ _ (fun s w c w' H => proj1 (add_name_ext w (se_name s) c w' H)) _ _ _ E1) as [_ X1].
    pose proof (map_m_ext _ _ (rsym_ext o) _ _ _ E3) as [_ X2]. rewrite X2, X1. reflexivity. }
  pose proof (st_write_ge _ _ _ _ _ Hord E7b) as Hlen0.
  assert (Hbound : zlen (o_sections o) + total (o_symbols o) <= 2 ^ 32) by lia.
  destruct (reserve_symbols_spec _ _ _ _ _ Hsym C1 I1 Hbound E3) as (X2 & I2 & Lys & Hys).
  destruct I2 as [Ti _ Tl _].
  destruct (write_merge (cw_strtab w2) (write_u Little 4 len) Ti Hord) as (ws & D' & t' & Ew & _ & _ & _ & Hst & _ & _ & _ & Hloc).
  { right. intro Hin. rewrite Forall_forall in Tl. specialize (Tl _ Hin). change (zlen (@nil Z)) with 0 in Tl. lia. }
  rewrite zlen_write_u in Ew. change (Z.of_nat 4) with 4 in Ew. rewrite E7b in Ew. apply pair_equal_spec in Ew as [Ew Et]. apply pair_equal_spec in Ew as [Elen ED]. subst D' t'.
  rewrite zlen_write_u in Hloc. change (Z.of_nat 4) with 4 in Hloc.
  destruct (Z.ltb_spec (4 + zlen D) (2 ^ 32)) as [Hd32|]; [|discriminate]. assert (Elen' : len = 4 + zlen D) by congruence. clear Elen. specialize (Hloc Hd32).
  set (tab := write_u Little 4 len ++ D) in *.
  assert (Htab : zlen tab = len) by (unfold tab; rewrite zlen_app, zlen_write_u; lia).
  assert (Hstored : stored t tab).
  { intros id n Hg. rewrite Hst in Hg. destruct (Hloc _ _ Hg) as (off & Ho & Hb & (a & b & Hd & Ha)). exists off.
    split; [unfold st_get_offset; rewrite Ho; reflexivity|]. split; [exact Hb|]. split.
    - exists a, b. split; [rewrite Hd, <- app_assoc; reflexivity|exact Ha].
    - destruct Ti as [_ Tok _ _]. apply (Forall_zget _ _ _ _ Tok Hg). }
  assert (Xt : ext (cw_strtab w2) t -> True) by auto. clear Xt.
  assert (Hnamed : forall n c, named (cw_strtab w2) n c -> named t n c).
  { intros n c [Hn|(id & A & B & C)]; [left; exact Hn|right; exists id; rewrite Hst; auto]. }
  assert (Hsl : zlen sels = zlen (o_sections o)).
  { pose proof (fold_sel_len _ (comdat_flags_len o) _ _ _ E2) as H. rewrite H. unfold zlen. rewrite map_length. reflexivity. }
  assert (Hol : zlen offs = zlen (o_sections o)) by exact (map_m_len _ _ _ _ _ E6).
  assert (Hhl : zlen hs = zlen (o_sections o)).
  { rewrite (Forall2_zlen _ _ _ Hhs), !zlen_combine. lia. }
  assert (Hh40 : Forall (fun h => zlen h = 40) hs).
  { apply Forall_forall. intros h Hh. apply In_zget in Hh as [i Hi]. apply zget_Some_lt in Hi as Hib. 
    destruct (zget_lt_Some (o_sections o) i ltac:(lia)) as [s Hs]. destruct (Hnm _ _ Hs) as (c & Hc & Hnc).
    destruct (zget_lt_Some offs i ltac:(lia)) as [[a b] Hab]. destruct (zget_lt_Some sels i ltac:(lia)) as [[sel assoc] Hse].
    destruct (Forall2_zget_l _ _ _ i _ Hhs (zget_combine _ _ _ _ _ (zget_combine _ _ _ _ _ (zget_combine _ _ _ _ _ Hs Hc) Hab) Hse)) as (h' & Hh' & HH).
    assert (h' = h) by congruence. subst h'. destruct HH as (f & cc & al & Hf & _ & _ & ->). apply zlen_hdr.
    apply (sec_field_len t tab (se_name s) c); [exact Hstored| |exact Hf]. apply Hnamed. exact (named_ext _ _ _ _ X2 Hnc). }
  assert (L8 : zlen (cw_buf w8) = cw_len w4').
  { rewrite E10', E9. unfold cw_put, cw_set_buf. cbn [cw_buf]. rewrite B6, zlen_app, (zlen_concat_const 40) by exact Hh40.
    unfold file_header. rewrite app_nil_l, !zlen_app, !zlen_write_u, Hhl, L4. lia. }
  destruct (sections_layout _ _ _ _ _ _ _ L4' L8 E6 E11) as (_ & _ & L9 & _ & _ & Hlay).
  assert (Hsys : zlen (concat blks) = total (o_symbols o) /\ Forall (fun b => zlen b = 18) (concat blks)).
  { apply (total_concat crc o sels t tab (o_symbols o) ys blks (fun i => total (ztake i (o_symbols o)))); [exact Hstored|exact Hblk|exact Lys|].
    intros i y Hi. destruct (Hys _ _ Hi) as (wk & s & G & R). exists wk, s. split; [exact G|].
    destruct R as (R1 & R2 & R3 & R4). split; [exact R1|]. split; [exact R2|]. split; [exact (Hnamed _ _ R3)|].
    destruct (sy_weak y); [|exact R4]. destruct R4 as (d & Q1 & Q2 & Q3). exists d. split; [exact Q1|]. split; [exact Q2|exact (Hnamed _ _ Q3)]. }
  destruct Hsys as [Hs1 Hs2].
  assert (L10 : zlen (cw_buf w10) = cw_len w5 + total (o_symbols o) * 18).
  { rewrite E12'. unfold cw_put at 1, cw_set_buf. cbn [cw_buf]. rewrite zlen_app, L9, (zlen_concat_const 18) by exact Hs2. rewrite Hs1. reflexivity. }
  assert (Fsmall : cw_len w5 + total (o_symbols o) * 18 + len < 2 ^ 32) by lia.
  assert (Eso' : so = cw_len w5) by (rewrite Eso; apply wrap_u_id; lia).
  assert (EF : cw_buf w11 = cw_buf w9 ++ concat (concat blks) ++ tab).
  { rewrite E13, E12'. unfold cw_put, cw_set_buf, tab. cbn [cw_buf]. rewrite <- !app_assoc. reflexivity. }
  assert (EF8 : cw_buf w8 = file_header machine (zlen (o_sections o)) so (total (o_symbols o)) fl ++ concat hs).
  { rewrite E10', E9. unfold cw_put, cw_set_buf. cbn [cw_buf]. rewrite B6. reflexivity. }
  assert (EF9 : cw_buf w9 = cw_buf w8 ++ dB) by (rewrite E11'; reflexivity).
  assert (Hfh : zlen (file_header machine (zlen (o_sections o)) so (total (o_symbols o)) fl) = 20).
  { unfold file_header. rewrite !zlen_app, !zlen_write_u. reflexivity. }
  assert (HX : forall a b, holds (cw_buf w9) a b -> holds (cw_buf w11) a b) by (intros a b H; rewrite EF; apply holds_ext; exact H).
  assert (Hoff32 : forall i s a, zget offs i = Some s -> holds (cw_buf w9) a [] -> True) by auto. clear Hoff32.
  exists machine, so, t, tab, ys, sels, hs, blks. split; [destruct (coff_machine _ _ _); cbn in E8; congruence|].
  split.
  - exact Hstored.
  - exact E2.
  - rewrite EF, EF9, EF8. exists [], (concat hs ++ dB ++ concat (concat blks) ++ tab). split; [cbn [app]; rewrite <- !app_assoc; reflexivity|reflexivity].
  - lia.
  - apply HX. rewrite EF9, EF8. exists (file_header machine (zlen (o_sections o)) so (total (o_symbols o)) fl), dB. split; [rewrite <- app_assoc; reflexivity|exact Hfh].
  - exact Hhl.
  - exact Hh40.
  - rewrite EF. exists (cw_buf w9), tab. split; [reflexivity|]. lia.
  - exact Hs2.
  - exact Hs1.
  - rewrite (Forall2_zlen _ _ _ Hblk), zlen_combine. lia.
  - rewrite EF. exists (cw_buf w9 ++ concat (concat blks)), []. split; [rewrite app_nil_r, <- app_assoc; reflexivity|].
    rewrite zlen_app, (zlen_concat_const 18) by exact Hs2. lia.
  - exists D. rewrite Htab. reflexivity.
  - lia.
  - intros i s Hs. destruct (Hnm _ _ Hs) as (c & Hc & Hnc). apply zget_Some_lt in Hs as Hib.
    destruct (zget_lt_Some sels i ltac:(lia)) as [[sel assoc] Hse]. destruct (Hlay _ _ Hs) as (a0 & e0 & cs & Hofs & Hd & Hr & Hrel & Hov).
    destruct (Forall2_zget_l _ _ _ i _ Hhs (zget_combine _ _ _ _ _ (zget_combine _ _ _ _ _ (zget_combine _ _ _ _ _ Hs Hc) Hofs) Hse)) as (h & Hh & HH).
    destruct HH as (f & cc & al & Hf & Hcc & Hal & ->). apply HX in Hd. apply HX in Hr.
    pose proof (holds_bounds _ _ _ Hd) as [Bd1 Bd2]. pose proof (holds_bounds _ _ _ Hr) as [Br1 Br2]. pose proof (zlen_nonneg (se_data s)).
    assert (Hcs : zlen cs = zlen (se_relocs s)) by exact (Forall2_zlen _ _ _ Hrel).
    rewrite zlen_app, zlen_concat_rel, Hcs in Br2. pose proof (zlen_nonneg (overflow_rel s)). pose proof (zlen_nonneg (se_relocs s)).
    rewrite (wrap_u_id _ a0) in Hh by lia. rewrite (wrap_u_id _ e0) in Hh by lia. rewrite (wrap_u_id _ (zlen (se_relocs s))) in * by lia.
    exists c, f, cc, al, a0, e0, cs, sel, assoc. split; [exact Hse|]. split; [apply Hnamed; exact (named_ext _ _ _ _ X2 Hnc)|]. split; [exact Hf|].
    split; [exact Hcc|]. split; [exact Hal|]. split; [exact Hh|]. split; [exact Hd|]. split; [exact Hr|]. split; [exact Hrel|exact Hov].
  - intros i y Hi. destruct (Hys _ _ Hi) as (wk & s & G & R).
    assert (R' : reserved o y (total (ztake i (o_symbols o))) wk s t).
    { destruct R as (R1 & R2 & R3 & R4). split; [exact R1|]. split; [exact R2|]. split; [exact (Hnamed _ _ R3)|].
      destruct (sy_weak y); [|exact R4]. destruct R4 as (d & Q1 & Q2 & Q3). exists d. split; [exact Q1|]. split; [exact Q2|exact (Hnamed _ _ Q3)]. }
    destruct (Forall2_zget_l _ _ _ i _ Hblk (zget_combine _ _ _ _ _ Hi G)) as (blk & Hb & HW). cbn [fst snd] in HW.
    destruct (wrote_blk _ _ _ _ _ _ _ _ _ _ Hstored R' HW) as [HL _].
    exists wk, s, blk. split; [exact G|]. split; [exact R'|]. split; [exact Hb|]. split; [exact HL|exact HW].
Qed.
