(** Proofs about the Mach-O writer: symbols and their order. *)
From Coq Require Import Sorted.
From Verif Require Import Base Core_proofs Util_proofs File_proofs Hash_proofs Rel_proofs Str_proofs Ar_proofs Kind_proofs Coff_spec CoffW_proofs CoffI_proofs.
From Verif Require Map_model.
From Verif Require Import MachW_spec MachW_proofs.

(** * Order of names *)
Lemma leb_iff a : forall b, if Map_model.bytes_leb a b then name_lt a b \/ a = b else name_lt b a.
Proof.
  induction a as [|x a IH]; intros [|y b]; cbn [Map_model.bytes_leb].
  - right. reflexivity.
  - left. left. exists y, b. reflexivity.
  - left. exists x, a. reflexivity.
  - destruct (Z.ltb_spec x y) as [H|H]; [left; right; exists [], x, y, a, b; split; [reflexivity|split; [reflexivity|exact H]]|].
    destruct (Z.ltb_spec y x) as [H'|H']; [right; exists [], y, x, b, a; split; [reflexivity|split; [reflexivity|exact H']]|].
    assert (x = y) as <- by lia. specialize (IH b).
    assert (K : forall u v, name_lt u v -> name_lt (x :: u) (x :: v)).
    { intros u v [(z & r & ->)|(p & z & w & r & s & -> & -> & L)]; [left; exists z, r; reflexivity|]. right. exists (x :: p), z, w, r, s. split; [reflexivity|split; [reflexivity|exact L]]. }
    destruct (Map_model.bytes_leb a b); [|apply K; exact IH]. destruct IH as [IH| ->]; [left; apply K; exact IH|right; reflexivity].
Qed.
(** * Sorting by name *)
Lemma insert_in {T} (leb : T -> T -> bool) x l y : In y (Map_model.insert_by leb x l) <-> y = x \/ In y l.
Proof.
  induction l as [|z l IH]; cbn [Map_model.insert_by]; [cbn; intuition|]. destruct (leb x z); cbn [In]; [intuition|]. rewrite IH. cbn [In]. intuition.
Qed.
Lemma sort_in {T} (leb : T -> T -> bool) l y : In y (Map_model.sort_by leb l) <-> In y l.
Proof. induction l as [|x l IH]; cbn [Map_model.sort_by]; [reflexivity|]. rewrite insert_in, IH. cbn [In]. intuition. Qed.
Lemma insert_len {T} (leb : T -> T -> bool) x l : zlen (Map_model.insert_by leb x l) = 1 + zlen l.
Proof. induction l as [|z l IH]; cbn [Map_model.insert_by]; [reflexivity|]. destruct (leb x z); rewrite !zlen_cons; [reflexivity|]. rewrite IH. lia. Qed.
Lemma sort_len {T} (leb : T -> T -> bool) l : zlen (Map_model.sort_by leb l) = zlen l.
Proof. induction l as [|x l IH]; cbn [Map_model.sort_by]; [reflexivity|]. rewrite insert_len, zlen_cons, IH. reflexivity. Qed.
Lemma mw_sort_ok o l : Forall (fun i => 0 <= i < zlen (o_symbols o)) l -> StronglySorted Z.lt l -> StronglySorted (by_name o) (mw_sort o l).
Proof.
  unfold mw_sort. set (leb := fun i j => Map_model.bytes_leb (mw_name o i) (mw_name o j)). intros HF HS. induction HS as [|i l HS IH Hi]; cbn [Map_model.sort_by]; [constructor|].
  inversion HF as [|? ? Fi Fl]; subst. specialize (IH Fl). assert (Ha : Forall (fun j => i < j /\ 0 <= j < zlen (o_symbols o)) (Map_model.sort_by leb l)).
  { apply Forall_forall. intros j Hj. apply sort_in in Hj. split; [exact (proj1 (Forall_forall _ _) Hi j Hj)|exact (proj1 (Forall_forall _ _) Fl j Hj)]. }
  clear HS Hi Fl HF. revert IH Ha. generalize (Map_model.sort_by leb l) as m. clear l.
  assert (G : forall j, 0 <= j < zlen (o_symbols o) -> exists y, zget (o_symbols o) j = Some y /\ mw_name o j = sy_name y).
  { intros j Hj. destruct (zget_lt_Some (o_symbols o) j Hj) as (y & Hy). exists y. split; [exact Hy|]. unfold mw_name. rewrite Hy. reflexivity. }
  assert (T : forall a b c, by_name o a b -> by_name o b c -> by_name o a c).
  { intros a b c (y & z & Hy & Hz & H1) (z' & w & Hz' & Hw & H2). rewrite Hz in Hz'. injection Hz' as <-. exists y, w. split; [exact Hy|]. split; [exact Hw|].
    assert (TT : forall u v w, name_lt u v -> name_lt v w -> name_lt u w).
    { clear. intros u v w H1 H2. pose proof (leb_iff u w) as L. destruct (Map_model.bytes_leb u w) eqn:E.
      - destruct L as [L| ->]; [exact L|]. exfalso.
        destruct H1 as [(x & r & ->)|(p & x & y & r & s & -> & -> & H)]; destruct H2 as [(x' & r' & Q)|(p' & x' & y' & r' & s' & Q1 & Q2 & H')].
        + apply (f_equal (@length Z)) in Q. rewrite !app_length in Q. cbn [length] in Q. lia.
        + rewrite Q2 in Q1. rewrite <- app_assoc in Q1. apply app_inv_head in Q1. injection Q1 as Q1 _. lia.
        + rewrite <- app_assoc in Q. apply app_inv_head in Q. injection Q as Q _. lia.
        + clear E. revert p' Q1 Q2. induction p as [|a p IH]; intros [|b p'] Q1 Q2; cbn [app] in *; try (injection Q1; injection Q2; intros; subst; first [lia|eapply IH; eassumption]).
      - exfalso. revert u v w H1 H2 L E.
        assert (LT : forall u v, name_lt u v -> Map_model.bytes_leb u v = true /\ Map_model.bytes_leb v u = false).
        { intros u v [(x & r & ->)|(p & x & y & r & s & -> & -> & H)].
          - induction u as [|a u IH]; [split; reflexivity|]. cbn [app Map_model.bytes_leb]. rewrite Z.ltb_irrefl. exact IH.
          - induction p as [|a p IH]; cbn [app Map_model.bytes_leb]; [replace (x <? y) with true by lia; replace (y <? x) with false by lia; split; reflexivity|]. rewrite Z.ltb_irrefl. exact IH. }
        assert (LE : forall u v w, Map_model.bytes_leb u v = true -> Map_model.bytes_leb v w = true -> Map_model.bytes_leb u w = true).
        { induction u as [|a u IH]; intros [|b v] [|c w]; cbn [Map_model.bytes_leb]; try congruence. destruct (Z.ltb_spec a b), (Z.ltb_spec b a), (Z.ltb_spec b c), (Z.ltb_spec c b), (Z.ltb_spec a c), (Z.ltb_spec c a); try congruence; try lia; apply IH. }
        intros u v w H1 H2 _ E. apply LT in H1. apply LT in H2. rewrite (LE u v w) in E by tauto. discriminate. }
    destruct H1 as [H1|(H1 & I1)], H2 as [H2|(H2 & I2)]; [left; eapply TT; eassumption|left; rewrite <- H2; exact H1|left; rewrite H1; exact H2|right; split; [congruence|lia]]. }
  intros m Hm Ha. induction Hm as [|j m Hm IHm Hj]; cbn [Map_model.insert_by].
  - constructor; constructor.
  - inversion Ha as [|? ? (L1 & L2) Ha']; subst. destruct (G i Fi) as (y & Hy & Ey). destruct (G j L2) as (z & Hz & Ez). pose proof (leb_iff (mw_name o i) (mw_name o j)) as LB. fold (leb i j) in LB. rewrite Ey, Ez in LB. destruct (leb i j).
    + assert (B : by_name o i j) by (exists y, z; split; [exact Hy|]; split; [exact Hz|]; destruct LB as [LB|LB]; [left; exact LB|right; split; [exact LB|exact L1]]).
      constructor; [constructor; assumption|]. constructor; [exact B|]. rewrite Forall_forall in *. intros k Hk. eapply T; [exact B|]. exact (Hj k Hk).
    + constructor; [apply IHm; exact Ha'|]. rewrite Forall_forall in *. intros k Hk. apply insert_in in Hk. destruct Hk as [->|Hk]; [|exact (Hj k Hk)]. exists z, y. split; [exact Hz|]. split; [exact Hy|]. left. exact LB.
Qed.

(** * Parts *)
Lemma sorted_fst_filter {A} (f : Z * A -> bool) l : StronglySorted Z.lt (map fst l) -> StronglySorted Z.lt (map fst (filter f l)).
Proof.
  induction l as [|x l IH]; cbn [map filter]; intros H; [constructor|]. inversion H as [|? ? H1 H2]; subst. destruct (f x); [|auto]. cbn [map]. constructor; [auto|].
  rewrite Forall_forall in *. intros y Hy. apply H2. rewrite in_map_iff in *. destruct Hy as (z & <- & Hz). apply filter_In in Hz. exists z. tauto.
Qed.
Lemma seqZ_sorted n : StronglySorted Z.lt (seqZ n).
Proof.
  unfold seqZ. assert (H : forall k s, StronglySorted Z.lt (map Z.of_nat (seq s k))).
  { induction k as [|k IH]; intros s; cbn [seq map]; constructor; [apply IH|]. apply Forall_forall. intros x Hx. apply in_map_iff in Hx. destruct Hx as (y & <- & Hy). apply in_seq in Hy. lia. }
  apply H.
Qed.
Lemma mw_part_sorted l p : StronglySorted Z.lt (mw_part l p).
Proof.
  unfold mw_part. apply sorted_fst_filter. assert (E : map fst (combine (seqZ (length l)) l) = seqZ (length l)).
  { generalize (seqZ_spec (length l)). intros _. assert (H : length (seqZ (length l)) = length l) by (unfold seqZ; rewrite map_length, seq_length; reflexivity).
    revert H. generalize (seqZ (length l)) as a. intros a. revert l. induction a as [|x a IH]; intros [|y l] H; cbn in *; try reflexivity; try discriminate. f_equal. apply IH. lia. }
  rewrite E. apply seqZ_sorted.
Qed.
Lemma mw_part_in l p i : In i (mw_part l p) <-> exists id, zget l i = Some (Some (p, id)).
Proof.
  unfold mw_part. rewrite in_map_iff. split.
  - intros ((k & x) & <- & H). apply filter_In in H. cbn [fst snd] in *. destruct H as (H & Q). apply In_zget in H. destruct H as (j & H). apply combine_in_l in H. cbn [fst snd] in H. destruct H as (H1 & H2).
    pose proof (zget_Some_lt _ _ _ H2) as L. rewrite zget_seqZ in H1 by (unfold zlen in L; lia). injection H1 as <-. destruct x as [(q, id)|]; [|discriminate]. destruct p, q; try discriminate; eauto.
  - intros (id & H). exists (i, Some (p, id)). split; [reflexivity|]. apply filter_In. cbn [snd]. split; [|destruct p; reflexivity].
    pose proof (zget_Some_lt _ _ _ H) as L. eapply zget_In. apply zget_combine; [apply zget_seqZ; unfold zlen in L; lia|exact H].
Qed.
Lemma mw_part_total l : zlen (mw_part l PLocal) + zlen (mw_part l PExternal) + zlen (mw_part l PUndefined) <= zlen l.
Proof.
  assert (H : forall m : list (Z * option (mpart * option Z)),
    zlen (filter (fun x => match snd x with Some (q, _) => part_is PLocal q | None => false end) m) +
    zlen (filter (fun x => match snd x with Some (q, _) => part_is PExternal q | None => false end) m) +
    zlen (filter (fun x => match snd x with Some (q, _) => part_is PUndefined q | None => false end) m) <= zlen m).
  { induction m as [|(k, x) m IH]; [reflexivity|]. cbn [filter snd]. destruct x as [([| |], id)|]; cbn [part_is] in IH |- *; rewrite ?zlen_cons; lia. }
  unfold mw_part. assert (K : forall A B (f : A -> B) m, zlen (map f m) = zlen m) by (intros; unfold zlen; rewrite map_length; reflexivity). rewrite !K.
  pose proof (H (combine (seqZ (length l)) l)) as HH. rewrite zlen_combine in HH. revert HH. generalize (zlen (seqZ (length l))). intros. lia.
Qed.
(** position in a list *)
Lemma position_iff i l : match position i l with Some k => zget l k = Some i | None => ~ In i l end.
Proof.
  induction l as [|j l IH]; cbn [position]; [intros []|]. destruct (Z.eqb_spec i j) as [->|N]; [apply zget_0|]. destruct (position i l) as [k|]; cbn [option_map].
  - pose proof (zget_Some_lt _ _ _ IH). rewrite zget_S by lia. replace (1 + k - 1) with k by lia. exact IH.
  - intros [->|H]; [contradiction|]. exact (IH H).
Qed.
Lemma mw_index_ok o order i k : mw_index o order i = Ok k -> symbol_number order i k /\ (k = 0 \/ 0 <= k < zlen order).
Proof.
  unfold mw_index, symbol_number. destruct (_ && _); [|discriminate]. pose proof (position_iff i order) as P. destruct (position i order) as [n|]; intros Q; injection Q as <-; [|tauto].
  split; [left; exact P|]. right. apply zget_Some_lt in P. exact P.
Qed.

(** * Names in the string table *)
Lemma st_new_inv : tinv st_new. Proof. apply tinv_new. Qed.
Definition named (t : strtab) (y : osym) (x : option (mpart * option Z)) (a : arch) : Prop :=
  match x with
  | None => ~ emitted a y
  | Some (q, id) => emitted a y /\ match q with PLocal => local_sym y | PExternal => external_sym y | PUndefined => undefined_sym y end /\
    match id with None => sy_name y = [] | Some id => zget (st_strings t) id = Some (sy_name y) end
  end.
Lemma mw_symbol_ok a y t x t' : tinv t -> str_ok (sy_name y) -> zlen (st_strings t) < 2 ^ 32 -> mw_symbol a y t = Ok (x, t') ->
  tinv t' /\ named t' y x a /\ (exists extra, st_strings t' = st_strings t ++ extra /\ zlen extra <= 1) /\ st_in_order t' = st_in_order t.
Proof.
  intros Ht Hs Hl E. unfold mw_symbol in E.
  destruct (match sy_kind y with YText | YData | YTls | YUnknown => Ok true | YSection => Ok (match a with AAarch64 | AAarch64_Ilp32 => true | _ => false end) | YFile => Ok false | YLabel => Err end) as [em| |] eqn:Ee; cbn [bind] in E; try discriminate.
  assert (Em : if em then emitted a y else ~ emitted a y).
  { clear E. unfold emitted. destruct (sy_kind y) eqn:Ek; try discriminate; injection Ee as <-; try (split; [congruence|intros; discriminate]).
    - destruct a; try (intros (_ & Q); specialize (Q eq_refl); intuition discriminate); (split; [discriminate|auto]).
    - intros (Q & _). congruence. }
  destruct em; cbn [negb] in E.
  - assert (N : exists id t1, (match sy_name y with [] => Ok (None, t) | _ => match st_add t (sy_name y) with (Ok id, t) => Ok (Some id, t) | (Err, _) => Err | (Panic, _) => Panic end end : out (option Z * strtab)) = Ok (id, t1) /\
      tinv t1 /\ match id with None => sy_name y = [] | Some id => zget (st_strings t1) id = Some (sy_name y) end /\ (exists extra, st_strings t1 = st_strings t ++ extra /\ zlen extra <= 1) /\ st_in_order t1 = st_in_order t).
    { destruct (st_add_spec t (sy_name y) Ht Hs Hl) as (id & t1 & Ea & Hi & (extra & He & Hx) & Hg & _ & Ho & _). rewrite Ea.
      destruct (sy_name y) eqn:En.
      - exists None, t. split; [reflexivity|]. split; [exact Ht|]. split; [reflexivity|]. split; [|reflexivity]. exists []. split; [symmetry; apply app_nil_r|]. discriminate.
      - exists (Some id), t1. split; [reflexivity|]. split; [exact Hi|]. split; [exact Hg|]. split; [|exact Ho]. exists extra. split; [exact He|]. destruct Hx as [(-> & _)| ->]; discriminate. }
    destruct N as (id & t1 & EN & Hi & Hn & Hx & Ho). rewrite EN in E. cbn [bind] in E. injection E as <- <-. split; [exact Hi|]. split; [|split; [exact Hx|exact Ho]]. cbn [named]. split; [exact Em|]. split; [|exact Hn].
    unfold local_sym, external_sym, undefined_sym. destruct (sy_section y) eqn:Ey; try tauto; destruct (sy_scope y); (split; [intuition discriminate|congruence]).
  - injection E as <- <-. split; [exact Ht|]. split; [exact Em|]. split; [|reflexivity]. exists []. split; [symmetry; apply app_nil_r|discriminate].
Qed.
Lemma named_more t y x a extra t' : st_strings t' = st_strings t ++ extra -> named t y x a -> named t' y x a.
Proof.
  intros Hs. unfold named. destruct x as [(q, [id|])|]; [|auto..]. intros (H1 & H2 & H3). split; [exact H1|]. split; [exact H2|]. rewrite Hs. pose proof (zget_Some_lt _ _ _ H3). rewrite zget_app1 by lia. exact H3.
Qed.
Lemma mw_symbols_ok a l : forall t ids t', tinv t -> Forall (fun y => str_ok (sy_name y)) l -> zlen (st_strings t) + zlen l <= 2 ^ 32 -> map_m (mw_symbol a) l t = Ok (ids, t') ->
  tinv t' /\ Forall2 (fun y x => named t' y x a) l ids /\ (exists extra, st_strings t' = st_strings t ++ extra) /\ st_in_order t' = st_in_order t.
Proof.
  induction l as [|y l IH]; intros t ids t' Ht HF Hl E; cbn [map_m] in E.
  - injection E as <- <-. split; [exact Ht|]. split; [constructor|]. split; [exists []; symmetry; apply app_nil_r|reflexivity].
  - destruct (mw_symbol a y t) as [(x & t1)| |] eqn:E1; cbn [bind] in E; try discriminate. destruct (map_m (mw_symbol a) l t1) as [(xs & t2)| |] eqn:E2; cbn [bind] in E; try discriminate. injection E as <- <-.
    rewrite zlen_cons in Hl. pose proof (zlen_nonneg l). pose proof (zlen_nonneg (st_strings t)). inversion HF as [|? ? F1 F2]; subst.
    apply mw_symbol_ok in E1; [|exact Ht|exact F1|lia]. destruct E1 as (T1 & N1 & (e1 & S1 & L1) & O1).
    apply IH in E2; [|exact T1|exact F2|rewrite S1, zlen_app; lia]. destruct E2 as (T2 & N2 & (e2 & S2) & O2).
    split; [exact T2|]. split; [constructor; [eapply named_more; eassumption|exact N2]|]. split; [exists (e1 ++ e2); rewrite S2, S1, app_assoc; reflexivity|congruence].
Qed.
(** the order of the symbols *)
Lemma order_spec o t ids : Forall2 (fun y x => named t y x (o_arch o)) (o_symbols o) ids ->
  symbol_order o (mw_part ids PLocal) (mw_sort o (mw_part ids PExternal)) (mw_sort o (mw_part ids PUndefined)).
Proof.
  intros HN.
  assert (P : forall p, part_of o (match p with PLocal => local_sym | PExternal => external_sym | PUndefined => undefined_sym end) (mw_part ids p)).
  { intros p i. rewrite mw_part_in. split.
    - intros (id & H). pose proof (zget_Some_lt _ _ _ H) as L. rewrite (Forall2_zlen _ _ _ HN) in L. destruct (zget_lt_Some _ _ L) as (y & Hy). destruct (Forall2_zget_l _ _ _ _ _ HN Hy) as (x & Hx & Nx). rewrite H in Hx. injection Hx as <-.
      cbn [named] in Nx. exists y. split; [exact Hy|]. split; [tauto|]. destruct p; tauto.
    - intros (y & Hy & He & Hp). destruct (Forall2_zget_l _ _ _ _ _ HN Hy) as (x & Hx & Nx). rewrite Hx. destruct x as [(q, id)|]; cbn [named] in Nx; [|contradiction].
      exists id. f_equal. f_equal. destruct Nx as (_ & Nq & _). unfold local_sym, external_sym in *. destruct p, q; try reflexivity; tauto. }
  assert (R : forall p, Forall (fun i => 0 <= i < zlen (o_symbols o)) (mw_part ids p)).
  { intros p. apply Forall_forall. intros i Hi. apply P in Hi. destruct Hi as (y & Hy & _). apply zget_Some_lt in Hy. exact Hy. }
  unfold symbol_order. split; [exact (P PLocal)|]. split; [apply mw_part_sorted|]. split; [|split; [apply mw_sort_ok; [apply R|apply mw_part_sorted]|split; [|apply mw_sort_ok; [apply R|apply mw_part_sorted]]]].
  - intros i. unfold mw_sort. rewrite sort_in. exact (P PExternal i).
  - intros i. unfold mw_sort. rewrite sort_in. exact (P PUndefined i).
Qed.
