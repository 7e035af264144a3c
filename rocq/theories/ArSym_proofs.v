From Verif Require Import Ar_spec.
From Verif Require Import Base Core_proofs Str_proofs Util_proofs Hash_proofs File_proofs Rel_proofs Obj_proofs Pod_proofs Ar_proofs.
From Verif Require Elf_proofs Map_proofs.

(** * Symbol tables *)
Lemma nth_string_0 N name : nth_string N 0 name <-> exists tl, N = name ++ 0 :: tl /\ ~ In 0 name.
Proof.
  unfold nth_string. split.
  - intros ([|s strs] & tl & -> & HF & Hg); [discriminate|]. rewrite zget_0 in Hg. injection Hg as ->. inversion HF; subst.
    exists (concat (map (fun s => s ++ [0]) strs) ++ tl). split; [|assumption]. cbn [map concat]. rewrite <- !app_assoc. reflexivity.
  - intros (tl & -> & Hn). exists [name], tl. split; [cbn; rewrite <- !app_assoc; reflexivity|]. split; [constructor; [assumption|constructor]|reflexivity].
Qed.
Lemma nth_string_S N i name : 0 < i -> nth_string N i name <-> exists s tl, N = s ++ 0 :: tl /\ ~ In 0 s /\ nth_string tl (i - 1) name.
Proof.
  intro Hi. unfold nth_string. split.
  - intros ([|s strs] & tl & -> & HF & Hg).
    { apply zget_Some_lt in Hg. change (zlen (@nil bytes)) with 0 in Hg. lia. }
    inversion HF; subst. exists s, (concat (map (fun s => s ++ [0]) strs) ++ tl). split; [cbn [map concat]; rewrite <- !app_assoc; reflexivity|].
    split; [assumption|]. exists strs, tl. split; [reflexivity|]. split; [assumption|]. rewrite Elf_proofs.zget_cons_pred in Hg by lia. assumption.
  - intros (s & tl & -> & Hs & strs & tl' & -> & HF & Hg). exists (s :: strs), tl'. split; [cbn [map concat]; rewrite <- !app_assoc; reflexivity|].
    split; [constructor; assumption|]. rewrite Elf_proofs.zget_cons_pred by lia. assumption.
Qed.
Lemma nth_string_neg N i name : nth_string N i name -> 0 <= i.
Proof. intros (strs & tl & _ & _ & Hg). apply zget_Some_lt in Hg. lia. Qed.
Lemma zget_cons_cases {A} (x : A) l i : zget (x :: l) i = if i =? 0 then Some x else zget l (i - 1).
Proof. destruct (Z.eqb_spec i 0) as [->|]; [apply zget_0|apply Elf_proofs.zget_cons_pred; assumption]. Qed.
Lemma seq_results (mk : list bytes -> bytes -> symiter) (f : bytes -> option Z) :
  (forall names, symiter_next (mk [] names) = (Ok None, mk [] names)) ->
  (forall x rest names, symiter_next (mk (x :: rest) names) =
     let '(r, names') := b_read_string names in
     (m <- of_opt (f x) ;; name <- r ;; Ok (Some {| as_name := name; as_offset := m |}), mk rest names')) ->
  forall l names, exists res, results symiter_next (mk l names) res /\ zlen res = zlen l /\
    forall i name o, zget res i = Some (Some {| as_name := name; as_offset := o |}) <-> exists x, zget l i = Some x /\ f x = Some o /\ nth_string names i name.
Proof.
  intros H0 H1. induction l as [|x l IH]; intro names.
  - exists []. split; [eapply res_end; apply H0|]. split; [reflexivity|]. intros i name o. split.
    + intro H. apply zget_Some_lt in H. change (zlen (@nil (option asym))) with 0 in H. lia.
    + intros (x & H & _). apply zget_Some_lt in H. change (zlen (@nil bytes)) with 0 in H. lia.
  - pose proof (H1 x l names) as Hn. destruct (b_read_string names) as [r names'] eqn:E. destruct (IH names') as (res & R1 & R2 & R3).
    assert (Hpos : forall i name, 0 < i -> nth_string names i name <-> nth_string names' (i - 1) name).
    { intros i name Hi. rewrite nth_string_S by assumption. apply b_read_string_spec in E as [(b & -> & -> & Hb)|(-> & Hb & ->)].
      - split.
        + intros (s & tl & Es & Hs & Hg). rewrite <- (app_nil_r b) in Es at 1.
          pose proof (b_read_string_app b names' Hb) as X1. pose proof (b_read_string_app s tl Hs) as X2. rewrite app_nil_r in Es. rewrite Es in X1. rewrite X1 in X2. injection X2 as -> <-. assumption.
        + intro Hg. exists b, names'. auto.
      - split.
        + intros (s & tl & -> & Hs & Hg). exfalso. apply Hb. apply in_or_app. right; left; reflexivity.
        + intros (strs & tl & Es & _ & Hg). exfalso. destruct strs as [|s strs].
          * apply zget_Some_lt in Hg. change (zlen (@nil bytes)) with 0 in Hg. lia.
          * destruct s; discriminate. }
    assert (Hz : forall name, nth_string names 0 name <-> r = Ok name).
    { intro name. rewrite nth_string_0. apply b_read_string_spec in E as [(b & -> & -> & Hb)|(-> & Hb & ->)].
      - split.
        + intros (tl & Es & Hs). pose proof (b_read_string_app b names' Hb) as X1. pose proof (b_read_string_app name tl Hs) as X2. rewrite Es in X1. congruence.
        + intros [= ->]. eauto.
      - split; [|discriminate]. intros (tl & -> & Hs). exfalso. apply Hb. apply in_or_app. right; left; reflexivity. }
    assert (Hr : r <> Panic). { apply b_read_string_spec in E as [(b & -> & _)|(-> & _)]; discriminate. }
    set (hd := match f x, r with Some o, Ok name => Some {| as_name := name; as_offset := o |} | _, _ => None end).
    exists (hd :: res). split; [|split].
    + unfold hd. destruct (f x) as [o|]; cbn [of_opt bind] in Hn; [destruct r as [nm| |]; cbn [bind] in Hn|].
      * eapply res_ok; eauto.
      * eapply res_err; eauto.
      * congruence.
      * eapply res_err; eauto.
    + rewrite !zlen_cons. lia.
    + intros i name o. rewrite !zget_cons_cases. destruct (Z.eqb_spec i 0) as [->|Hi].
      * unfold hd. split.
        -- intros [= H]. destruct (f x) as [o'|] eqn:Ef; [|discriminate]. destruct r as [nm| |]; try discriminate. injection H as -> ->.
           exists x. split; [reflexivity|]. split; [assumption|]. apply Hz. reflexivity.
        -- intros (x' & [= <-] & H2 & H3). apply Hz in H3. rewrite H2, H3. reflexivity.
      * rewrite R3. split; intros (x' & H2 & H3 & H4); exists x'; (split; [assumption|]); (split; [assumption|]);
          pose proof (zget_Some_lt _ _ _ H2); apply Hpos; try lia; assumption.
Qed.
Lemma string_at_iff names s name : 0 <= s -> b_read_string_at names s = Ok name <-> string_at names s name.
Proof.
  intro Hs. unfold b_read_string_at, string_at. destruct (b_skip names s) as [r n'] eqn:E. apply b_skip_spec in E as [(-> & H & ->)|(-> & H & ->)].
  - destruct (b_read_string (zdrop s names)) as [r n'] eqn:E. cbn [fst]. apply b_read_string_spec in E as [(b & -> & E & Hb)|(-> & Hb & ->)].
    + assert (Hsp : names = ztake s names ++ zdrop s names) by (unfold ztake, zdrop; symmetry; apply firstn_skipn). split.
      * intros [= <-]. split; [|assumption]. exists (ztake s names), n'. split; [|rewrite zlen_ztake_min; lia]. rewrite <- app_assoc. cbn [app]. rewrite <- E. exact Hsp.
      * intros [(a & c & Ea & Hl) Hn]. f_equal. rewrite Ea in E. rewrite zdrop_app_eq in E by lia.
        rewrite <- app_assoc in E. cbn [app] in E. pose proof (b_read_string_app b n' Hb) as X1. pose proof (b_read_string_app name c Hn) as X2. rewrite E in X2. congruence.
    + split; [discriminate|]. intros [(a & c & Ea & Hl) Hn]. exfalso. apply Hb. rewrite Ea. rewrite zdrop_app_eq by lia. rewrite <- app_assoc. apply in_or_app. right; left; reflexivity.
  - split; [discriminate|]. intros [Hh Hn]. apply holds_bounds in Hh. rewrite zlen_app in Hh. change (zlen [0]) with 1 in Hh. pose proof (zlen_nonneg name). lia.
Qed.
Lemma string_at_no_panic names s : b_read_string_at names s <> Panic.
Proof.
  unfold b_read_string_at. destruct (b_skip names s) as [r n'] eqn:E. apply b_skip_spec in E as [(-> & H & ->)|(-> & H & ->)]; [|discriminate].
  destruct (b_read_string (zdrop s names)) as [r n'] eqn:E. cbn [fst]. apply b_read_string_spec in E as [(b & -> & _)|(-> & _)]; discriminate.
Qed.
Lemma at_results (mk : list bytes -> bytes -> symiter) (s o : bytes -> Z) :
  (forall names, symiter_next (mk [] names) = (Ok None, mk [] names)) ->
  (forall x rest names, symiter_next (mk (x :: rest) names) =
     (name <- b_read_string_at names (s x) ;; Ok (Some {| as_name := name; as_offset := o x |}), mk rest names)) ->
  forall l names, Forall (fun x => 0 <= s x) l -> exists res, results symiter_next (mk l names) res /\ zlen res = zlen l /\
    forall i name off, zget res i = Some (Some {| as_name := name; as_offset := off |}) <-> exists x, zget l i = Some x /\ o x = off /\ string_at names (s x) name.
Proof.
  intros H0 H1. induction l as [|x l IH]; intros names Hl.
  - exists []. split; [eapply res_end; apply H0|]. split; [reflexivity|]. intros i name off. split.
    + intro H. apply zget_Some_lt in H. change (zlen (@nil (option asym))) with 0 in H. lia.
    + intros (x & H & _). apply zget_Some_lt in H. change (zlen (@nil bytes)) with 0 in H. lia.
  - pose proof (H1 x l names) as Hn. destruct (IH names (Forall_inv_tail Hl)) as (res & R1 & R2 & R3). pose proof (Forall_inv Hl) as Hx.
    pose proof (fun n => string_at_iff names (s x) n Hx) as Hs. pose proof (string_at_no_panic names (s x)) as Hp.
    set (hd := match b_read_string_at names (s x) with Ok name => Some {| as_name := name; as_offset := o x |} | _ => None end).
    exists (hd :: res). split; [|split].
    + unfold hd. destruct (b_read_string_at names (s x)); cbn [bind] in Hn; [eapply res_ok; eauto|eapply res_err; eauto|congruence].
    + rewrite !zlen_cons. lia.
    + intros i name off. rewrite !zget_cons_cases. destruct (Z.eqb_spec i 0) as [->|Hi].
      * unfold hd. split.
        -- intros [= H]. destruct (b_read_string_at names (s x)) as [nm| |] eqn:E; try discriminate. injection H as -> <-. exists x. split; [reflexivity|]. split; [reflexivity|]. apply Hs. reflexivity.
        -- intros (x' & [= <-] & <- & H3). apply Hs in H3. rewrite H3. reflexivity.
      * apply R3.
Qed.

Lemma read_num e w T : bytes_ok T -> (0 < w)%nat ->
  (exists v tl, T = write_u e w v ++ tl /\ 0 <= v < 2 ^ (8 * Z.of_nat w) /\ b_read T (Z.of_nat w) = (Ok (write_u e w v), tl) /\ read_u e (write_u e w v) = v /\ bytes_ok tl) \/
  (zlen T < Z.of_nat w /\ b_read T (Z.of_nat w) = (Err, [])).
Proof.
  intros HT Hw. destruct (b_read T (Z.of_nat w)) as [r tl] eqn:E. pose proof E as E0. apply b_read_spec in E as [(b & -> & H1 & H2 & ->)|(-> & H1 & ->)].
  - left. apply Forall_app in HT as [Hb Ht]. exists (read_u e b), tl. pose proof (read_u_bound e b Hb) as Hr. rewrite H2 in Hr.
    assert (E2 : write_u e w (read_u e b) = b) by (apply write_read_n; assumption). rewrite E2. auto.
  - right. split; [lia|reflexivity].
Qed.
Lemma read_nums e w T n : bytes_ok T -> (0 < w)%nat -> 0 <= n -> zlen T < 2 ^ 63 ->
  (exists vs tl, T = concat (map (write_u e w) vs) ++ tl /\ zlen vs = n /\ Forall (fun v => 0 <= v < 2 ^ (8 * Z.of_nat w)) vs /\
     b_read_slice T (Z.of_nat w) n = (Ok (map (write_u e w) vs), tl) /\ bytes_ok tl) \/
  (zlen T < n * Z.of_nat w /\ b_read_slice T (Z.of_nat w) n = (Err, [])).
Proof.
  intros HT Hw Hn Hl. destruct (b_read_slice T (Z.of_nat w) n) as [r tl] eqn:E. apply b_read_slice_spec in E; [|lia|lia].
  destruct E as [(cs & -> & H1 & H2 & ->)|(-> & H1 & ->)].
  - left. apply Forall_app in HT as [Hb Ht]. apply Forall_concat in Hb. exists (map (read_u e) cs), tl.
    assert (E2 : map (write_u e w) (map (read_u e) cs) = cs).
    { clear H1 Hl. induction cs as [|c cs IH]; [reflexivity|]. inversion H2; inversion Hb; subst. cbn [map]. rewrite write_read_n, IH by assumption. reflexivity. }
    rewrite E2. split; [reflexivity|]. split; [unfold zlen in *; rewrite map_length; assumption|]. split; [|auto].
    rewrite Forall_map. rewrite Forall_forall in *. intros c Hc. pose proof (read_u_bound e c (Hb c Hc)) as Hr. rewrite (H2 c Hc) in Hr. exact Hr.
  - right. split; [lia|reflexivity].
Qed.
(** The same read, given the encoding *)
Lemma read_num_enc e w v tl : 0 <= v < 2 ^ (8 * Z.of_nat w) -> b_read (write_u e w v ++ tl) (Z.of_nat w) = (Ok (write_u e w v), tl) /\ read_u e (write_u e w v) = v.
Proof. intro H. split; [apply b_read_app; symmetry; apply zlen_write_u|apply read_write_u_small; assumption]. Qed.
Lemma read_nums_enc e w vs tl n : (0 < w)%nat -> n = zlen vs -> zlen (concat (map (write_u e w) vs)) < 2 ^ 63 ->
  b_read_slice (concat (map (write_u e w) vs) ++ tl) (Z.of_nat w) n = (Ok (map (write_u e w) vs), tl).
Proof.
  intros Hw -> Hl. rewrite (zlen_concat_const (Z.of_nat w)) in Hl by apply Forall_write_u. apply b_read_slice_app; [lia|apply Forall_write_u|unfold zlen; rewrite map_length; reflexivity|lia].
Qed.
Definition gnu_sym (offs : list Z) (names : bytes) (i : Z) (name : bytes) (o : Z) : Prop := zget offs i = Some o /\ nth_string names i name.
Lemma zget_write_u e w vs i : zget (map (write_u e w) vs) i = option_map (write_u e w) (zget vs i).
Proof. apply Map_proofs.zget_map. Qed.
Lemma zlen_map_w {A B} (f : A -> B) l : zlen (map f l) = zlen l.
Proof. unfold zlen. rewrite map_length. reflexivity. Qed.
Lemma gnu_yields (mk : list bytes -> bytes -> symiter) w offs names : (0 < w)%nat -> mk = SGnu \/ mk = SGnu64 ->
  Forall (fun v => 0 <= v < 2 ^ (8 * Z.of_nat w)) offs ->
  yields (mk (map (write_u Big w) offs) names) (zlen offs) (gnu_sym offs names).
Proof.
  intros Hw Hmk Hf. split. { destruct Hmk as [-> | ->]; cbn [symiter_size_hint]; rewrite zlen_map_w; reflexivity. }
  destruct (seq_results mk (fun x => Some (read_u Big x))) with (l := map (write_u Big w) offs) (names := names) as (res & R1 & R2 & R3).
  - intro. destruct Hmk as [-> | ->]; reflexivity.
  - intros. destruct Hmk as [-> | ->]; cbn [symiter_next]; destruct (b_read_string names0); reflexivity.
  - exists res. split; [assumption|]. split; [rewrite R2; apply zlen_map_w|]. intros i name o. rewrite R3. unfold gnu_sym. split.
    + intros (x & H1 & [= <-] & H2). rewrite zget_write_u in H1. destruct (zget offs i) as [v|] eqn:E; [|discriminate]. injection H1 as <-.
      split; [|assumption]. rewrite read_write_u_small; [reflexivity|]. rewrite Forall_forall in Hf. apply Hf. eapply zget_In; eauto.
    + intros [H1 H2]. exists (write_u Big w o). rewrite zget_write_u, H1. split; [reflexivity|]. split; [|assumption]. f_equal. apply read_write_u_small.
      rewrite Forall_forall in Hf. apply Hf. eapply zget_In; eauto.
Qed.
Definition bsd_ent (w : nat) (p : Z * Z) : bytes := write_u Little w (fst p) ++ write_u Little w (snd p).
Definition pair_ok (w : nat) (p : Z * Z) : Prop := 0 <= fst p < 2 ^ (8 * Z.of_nat w) /\ 0 <= snd p < 2 ^ (8 * Z.of_nat w).
Definition bsd_sym (ents : list (Z * Z)) (names : bytes) (i : Z) (name : bytes) (o : Z) : Prop := exists s, zget ents i = Some (s, o) /\ string_at names s name.
Lemma bsd_ent_len w p : zlen (bsd_ent w p) = 2 * Z.of_nat w.
Proof. unfold bsd_ent. rewrite zlen_app, !zlen_write_u. lia. Qed.
Lemma bsd_fields w p : (0 < w)%nat -> pair_ok w p -> fld Little 0 (Z.of_nat w) (bsd_ent w p) = fst p /\ fld Little (Z.of_nat w) (Z.of_nat w) (bsd_ent w p) = snd p.
Proof.
  intros Hw [H1 H2]. unfold bsd_ent. split.
  - apply fld_hd; [reflexivity|assumption].
  - rewrite fld_skip by lia. rewrite Z.sub_diag. apply fld_hd1; [reflexivity|assumption].
Qed.
Lemma bsd_yields (mk : list bytes -> bytes -> symiter) w ents names : (mk = SBsd /\ w = 4%nat) \/ (mk = SBsd64 /\ w = 8%nat) ->
  Forall (pair_ok w) ents -> yields (mk (map (bsd_ent w) ents) names) (zlen ents) (bsd_sym ents names).
Proof.
  intros Hmk Hf. assert (Hw : (0 < w)%nat) by lia. split. { destruct Hmk as [[-> ->] | [-> ->]]; cbn [symiter_size_hint]; rewrite zlen_map_w; reflexivity. }
  destruct (at_results mk (fld Little 0 (Z.of_nat w)) (fld Little (Z.of_nat w) (Z.of_nat w))) with (l := map (bsd_ent w) ents) (names := names) as (res & R1 & R2 & R3).
  - intro. destruct Hmk as [[-> _] | [-> _]]; reflexivity.
  - intros. destruct Hmk as [[-> ->] | [-> ->]]; reflexivity.
  - rewrite Forall_map. eapply Forall_impl; [|exact Hf]. intros p Hp. cbv beta. rewrite (proj1 (bsd_fields w p Hw Hp)). destruct Hp; lia.
  - exists res. split; [assumption|]. split; [rewrite R2; apply zlen_map_w|]. intros i name o. rewrite R3. unfold bsd_sym.
    assert (Hz : zget (map (bsd_ent w) ents) i = option_map (bsd_ent w) (zget ents i)) by apply Map_proofs.zget_map.
    rewrite Hz. split.
    + intros (x & H1 & H2 & H3). destruct (zget ents i) as [[s o']|] eqn:E; [|discriminate]. injection H1 as <-.
      assert (Hp : pair_ok w (s, o')) by (rewrite Forall_forall in Hf; apply Hf; eapply zget_In; eauto). destruct (bsd_fields w _ Hw Hp) as [F1 F2].
      rewrite F1 in H3. rewrite F2 in H2. cbn in *. subst. eauto.
    + intros (s & E & H3). rewrite E. cbn [option_map]. eexists. split; [reflexivity|].
      assert (Hp : pair_ok w (s, o)) by (rewrite Forall_forall in Hf; apply Hf; eapply zget_In; eauto). destruct (bsd_fields w _ Hw Hp) as [F1 F2].
      rewrite F1, F2. split; [reflexivity|assumption].
Qed.
Lemma read_pairs w T n : bytes_ok T -> (0 < w)%nat -> 0 <= n -> zlen T < 2 ^ 63 ->
  (exists vs tl, T = concat (map (bsd_ent w) vs) ++ tl /\ zlen vs = n /\ Forall (pair_ok w) vs /\
     b_read_slice T (2 * Z.of_nat w) n = (Ok (map (bsd_ent w) vs), tl) /\ bytes_ok tl) \/
  (zlen T < n * (2 * Z.of_nat w) /\ b_read_slice T (2 * Z.of_nat w) n = (Err, [])).
Proof.
  intros HT Hw Hn Hl. destruct (b_read_slice T (2 * Z.of_nat w) n) as [r tl] eqn:E. apply b_read_slice_spec in E; [|lia|lia].
  destruct E as [(cs & -> & H1 & H2 & ->)|(-> & H1 & ->)].
  - left. apply Forall_app in HT as [Hb Ht]. apply Forall_concat in Hb.
    set (f := fun c => (fld Little 0 (Z.of_nat w) c, fld Little (Z.of_nat w) (Z.of_nat w) c)). exists (map f cs), tl.
    assert (E2 : map (bsd_ent w) (map f cs) = cs).
    { clear H1 Hl. induction cs as [|c cs IH]; [reflexivity|]. inversion H2; inversion Hb; subst. cbn [map]. rewrite IH by assumption. f_equal.
      unfold bsd_ent, f, fld. cbn [fst snd]. rewrite !write_read_n; try (apply bytes_ok_zslice; assumption); try (rewrite zlen_zslice; lia).
      unfold zslice. change (zdrop 0 c) with c. rewrite ztake_all with (l := zdrop (Z.of_nat w) c) by (rewrite zlen_zdrop; lia). unfold ztake, zdrop. apply firstn_skipn. }
    rewrite E2. split; [reflexivity|]. split; [unfold zlen in *; rewrite map_length; assumption|]. split; [|auto].
    rewrite Forall_map. rewrite Forall_forall in *. intros c Hc. unfold f, pair_ok. cbn [fst snd]. split; apply fld_bound; try lia; apply Hb; assumption.
  - right. split; [lia|reflexivity].
Qed.
Definition coff_sym (offs idx : list Z) (names : bytes) (i : Z) (name : bytes) (o : Z) : Prop :=
  exists j, zget idx i = Some j /\ zget offs ((j - 1) mod 2 ^ 16) = Some o /\ nth_string names i name.
Lemma coff_yields offs idx names : Forall (fun v => 0 <= v < 2 ^ 32) offs -> Forall (fun v => 0 <= v < 2 ^ 16) idx ->
  yields (SCoff (map (write_u Little 4) offs) (map (write_u Little 2) idx) names) (zlen idx) (coff_sym offs idx names).
Proof.
  intros Ho Hi. split. { cbn [symiter_size_hint]. rewrite zlen_map_w. reflexivity. }
  set (f := fun x => option_map (read_u Little) (zget (map (write_u Little 4) offs) (wrap_u 16 (read_u Little x - 1)))).
  destruct (seq_results (SCoff (map (write_u Little 4) offs)) f) with (l := map (write_u Little 2) idx) (names := names) as (res & R1 & R2 & R3).
  - intro. reflexivity.
  - intros. cbn [symiter_next]. destruct (b_read_string names0) as [r n']. unfold f. destruct (zget (map (write_u Little 4) offs) _) as [x0|]; reflexivity.
  - exists res. split; [assumption|]. split; [rewrite R2; apply zlen_map_w|]. intros i name o. rewrite R3. unfold coff_sym, f. rewrite zget_write_u. split.
    + intros (x & H1 & H2 & H3). destruct (zget idx i) as [j|] eqn:E; [|discriminate]. injection H1 as <-. exists j. split; [reflexivity|]. split; [|assumption].
      rewrite read_write_u_small in H2 by (rewrite Forall_forall in Hi; apply Hi; eapply zget_In; eauto). rewrite zget_write_u in H2. unfold wrap_u in H2.
      destruct (zget offs ((j - 1) mod 2 ^ 16)) as [v|] eqn:E2; [|discriminate]. injection H2 as <-. rewrite read_write_u_small; [reflexivity|].
      rewrite Forall_forall in Ho. apply Ho. eapply zget_In; eauto.
    + intros (j & E & H2 & H3). rewrite E. cbn [option_map]. eexists. split; [reflexivity|]. split; [|assumption].
      rewrite read_write_u_small by (rewrite Forall_forall in Hi; apply Hi; eapply zget_In; eauto). rewrite zget_write_u. unfold wrap_u. rewrite H2. cbn [option_map].
      f_equal. apply read_write_u_small. rewrite Forall_forall in Ho. apply Ho. eapply zget_In; eauto.
Qed.
Lemma yields_ext it n sym sym' : (forall i name o, sym i name o <-> sym' i name o) -> yields it n sym -> yields it n sym'.
Proof. intros He (H1 & res & H2 & H3 & H4). split; [assumption|]. exists res. split; [assumption|]. split; [assumption|]. intros. rewrite H4. apply He. Qed.

(** The table read from its bytes *)
Definition table_of (T : bytes) (k : akind) : out symiter := symiter_new k T 0 (zlen T).
Lemma table_read F k off T : holds F off T -> symiter_new k F off (zlen T) = table_of T k.
Proof.
  intros H. unfold table_of, symiter_new. rewrite (holds_read_bytes_at F off T) by auto. rewrite (holds_read_bytes_at T 0 T); [reflexivity| |reflexivity].
  exists [], []. rewrite app_nil_r. split; reflexivity.
Qed.
Lemma table_eq T k : table_of T k =
  match k with
  | AKUnknown | AKAixBig | AKZos => Ok SNone
  | AKGnu => rd (b_read T 4) (fun count data =>
            rd (b_read_slice data 4 (read_u Big count)) (fun offsets data => Ok (SGnu offsets data)))
  | AKGnu64 => rd (b_read T 8) (fun count data =>
              rd (b_read_slice data 8 (read_u Big count)) (fun offsets data => Ok (SGnu64 offsets data)))
  | AKBsd => rd (b_read T 4) (fun size data =>
            rd (b_read_slice data 8 (read_u Little size / 8)) (fun offsets data =>
            rd (b_read data 4) (fun size data =>
            rd (b_read_bytes data (read_u Little size)) (fun names data => Ok (SBsd offsets names)))))
  | AKBsd64 => rd (b_read T 8) (fun size data =>
              rd (b_read_slice data 16 (read_u Little size / 16)) (fun offsets data =>
              rd (b_read data 8) (fun size data =>
              rd (b_read_bytes data (read_u Little size)) (fun names data => Ok (SBsd64 offsets names)))))
  | AKCoff => rd (b_read T 4) (fun count data =>
             rd (b_read_slice data 4 (read_u Little count)) (fun members data =>
             rd (b_read data 4) (fun count data =>
             rd (b_read_slice data 2 (read_u Little count)) (fun indices data => Ok (SCoff members indices data)))))
  end.
Proof.
  unfold table_of, symiter_new. rewrite (holds_read_bytes_at T 0 T); [reflexivity| |reflexivity]. exists [], []. rewrite app_nil_r. split; reflexivity.
Qed.
Lemma zlen_cut {A} (a b : list A) n : zlen (a ++ b) < n -> zlen b < n.
Proof. rewrite zlen_app. pose proof (zlen_nonneg a). lia. Qed.
Lemma zlen_cut1 {A} (a b : list A) n : zlen (a ++ b) < n -> zlen a < n.
Proof. rewrite zlen_app. pose proof (zlen_nonneg b). lia. Qed.
Lemma bsd_ent_eq w : (fun '(s, o) => write_u Little w s ++ write_u Little w o) = bsd_ent w \/ True.
Proof. auto. Qed.
Lemma map_ent w (ents : list (Z * Z)) : map (fun '(s, o) => write_u Little w s ++ write_u Little w o) ents = map (bsd_ent w) ents.
Proof. apply map_ext. intros []; reflexivity. Qed.
Lemma Forall_ent w (ents : list (Z * Z)) :
  Forall (fun '(s, o) => 0 <= s < 2 ^ (8 * Z.of_nat w) /\ 0 <= o < 2 ^ (8 * Z.of_nat w)) ents <-> Forall (pair_ok w) ents.
Proof. rewrite !Forall_forall. split; intros H x Hx; specialize (H x Hx); destruct x; exact H. Qed.

Lemma gnu_table (mk : list bytes -> bytes -> symiter) w k T : (k = AKGnu /\ mk = SGnu /\ w = 4%nat) \/ (k = AKGnu64 /\ mk = SGnu64 /\ w = 8%nat) ->
  table_of T k = rd (b_read T (Z.of_nat w)) (fun count data => rd (b_read_slice data (Z.of_nat w) (read_u Big count)) (fun offsets data => Ok (mk offsets data))).
Proof. intros [(-> & -> & ->)|(-> & -> & ->)]; rewrite table_eq; reflexivity. Qed.
Lemma bsd_table (mk : list bytes -> bytes -> symiter) w k T : (k = AKBsd /\ mk = SBsd /\ w = 4%nat) \/ (k = AKBsd64 /\ mk = SBsd64 /\ w = 8%nat) ->
  table_of T k = rd (b_read T (Z.of_nat w)) (fun size data =>
            rd (b_read_slice data (2 * Z.of_nat w) (read_u Little size / (2 * Z.of_nat w))) (fun offsets data =>
            rd (b_read data (Z.of_nat w)) (fun size data =>
            rd (b_read_bytes data (read_u Little size)) (fun names data => Ok (mk offsets names))))).
Proof. intros [(-> & -> & ->)|(-> & -> & ->)]; rewrite table_eq; reflexivity. Qed.

Lemma gnu_dec mk w k T it : (k = AKGnu /\ mk = SGnu /\ w = 4%nat) \/ (k = AKGnu64 /\ mk = SGnu64 /\ w = 8%nat) ->
  bytes_ok T -> zlen T < 2 ^ 63 -> table_of T k = Ok it -> exists n sym, sym_table T k n sym /\ yields it n sym.
Proof.
  intros Hk HT Hl. rewrite (gnu_table mk w) by assumption. assert (Hw : (0 < w)%nat) by lia.
  destruct (read_num Big w T HT Hw) as [(v & tl & -> & Hv & -> & Hr & Ht)|(_ & ->)]; [|discriminate]. cbn [rd]. rewrite Hr.
  destruct (read_nums Big w tl v Ht Hw ltac:(lia) (zlen_cut _ _ _ Hl)) as [(vs & names & -> & Hn & Hf & -> & Hnm)|(_ & ->)]; [|discriminate].
  cbn [rd]. intros [= <-]. exists v, (gnu_sym vs names). split.
  - destruct Hk as [(-> & -> & ->)|(-> & -> & ->)]; cbn [sym_table]; exists vs, names; repeat split; try assumption; try lia; try (intros [? ?]; split; assumption).
    all: destruct H; assumption.
  - rewrite <- Hn. apply gnu_yields; [assumption|tauto|assumption].
Qed.
Lemma gnu_enc mk w k T n sym : (k = AKGnu /\ mk = SGnu /\ w = 4%nat) \/ (k = AKGnu64 /\ mk = SGnu64 /\ w = 8%nat) ->
  zlen T < 2 ^ 63 -> sym_table T k n sym -> exists it, table_of T k = Ok it /\ yields it n sym.
Proof.
  intros Hk Hl Hs. assert (Hw : (0 < w)%nat) by lia.
  assert (exists offs names, T = write_u Big w n ++ concat (map (write_u Big w) offs) ++ names /\ zlen offs = n /\ n < 2 ^ (8 * Z.of_nat w) /\
      Forall (fun o => 0 <= o < 2 ^ (8 * Z.of_nat w)) offs /\
      (forall i name o, sym i name o <-> zget offs i = Some o /\ nth_string names i name)) as (offs & names & ET & Hn & Hb & Hf & Hsym).
  { destruct Hk as [(-> & -> & ->)|(-> & -> & ->)]; exact Hs. }
  rewrite (gnu_table mk w) by assumption. subst T. pose proof (zlen_nonneg offs).
  destruct (read_num_enc Big w n (concat (map (write_u Big w) offs) ++ names)) as [E1 E2]; [lia|]. rewrite E1. cbn [rd]. rewrite E2.
  rewrite read_nums_enc; [|assumption|lia|apply zlen_cut in Hl; apply zlen_cut1 in Hl; exact Hl]. cbn [rd]. eexists. split; [reflexivity|].
  rewrite <- Hn. eapply yields_ext; [|apply gnu_yields; [assumption|tauto|assumption]]. intros. rewrite Hsym. reflexivity.
Qed.
Lemma bsd_dec mk w k T it : (k = AKBsd /\ mk = SBsd /\ w = 4%nat) \/ (k = AKBsd64 /\ mk = SBsd64 /\ w = 8%nat) ->
  bytes_ok T -> zlen T < 2 ^ 63 -> table_of T k = Ok it -> exists n sym, sym_table T k n sym /\ yields it n sym.
Proof.
  intros Hk HT Hl. rewrite (bsd_table mk w) by assumption. assert (Hw : (0 < w)%nat) by lia.
  destruct (read_num Little w T HT Hw) as [(v & tl & -> & Hv & -> & Hr & Ht)|(_ & ->)]; [|discriminate]. cbn [rd]. rewrite Hr.
  assert (Hd : 0 <= v / (2 * Z.of_nat w)) by (apply Z.div_pos; lia).
  destruct (read_pairs w tl (v / (2 * Z.of_nat w)) Ht Hw Hd (zlen_cut _ _ _ Hl)) as [(vs & tl2 & -> & Hn & Hf & -> & Ht2)|(_ & ->)]; [|discriminate].
  cbn [rd]. destruct (read_num Little w tl2 Ht2 Hw) as [(nsz & tl3 & -> & Hv3 & -> & Hr3 & Ht3)|(_ & ->)]; [|discriminate]. cbn [rd]. rewrite Hr3.
  destruct (b_read_bytes tl3 nsz) as [r tl4] eqn:E. apply b_read_bytes_spec in E as [(names & -> & H1 & H2 & ->)|(-> & _)]; [|discriminate]. cbn [rd].
  intros [= <-]. exists (zlen vs), (bsd_sym vs names). split; [|apply bsd_yields; [tauto|assumption]].
  assert (exists ents size names' tl', write_u Little w v ++ concat (map (bsd_ent w) vs) ++ write_u Little w nsz ++ names ++ tl4 =
    write_u Little w size ++ concat (map (fun '(s, o) => write_u Little w s ++ write_u Little w o) ents) ++
      write_u Little w (zlen names') ++ names' ++ tl' /\
      zlen ents = zlen vs /\ size / (2 * Z.of_nat w) = zlen vs /\ 0 <= size < 2 ^ (8 * Z.of_nat w) /\ zlen names' < 2 ^ (8 * Z.of_nat w) /\
      Forall (fun '(s, o) => 0 <= s < 2 ^ (8 * Z.of_nat w) /\ 0 <= o < 2 ^ (8 * Z.of_nat w)) ents /\
      (forall i name o, bsd_sym vs names i name o <-> exists s, zget ents i = Some (s, o) /\ string_at names' s name)) as G.
  { exists vs, v, names, tl4. rewrite map_ent, H2. split; [reflexivity|]. split; [reflexivity|]. split; [symmetry; assumption|]. split; [assumption|]. split; [lia|].
    split; [apply Forall_ent; assumption|]. intros. reflexivity. }
  destruct Hk as [(-> & -> & ->)|(-> & -> & ->)]; exact G.
Qed.
Lemma bsd_enc mk w k T n sym : (k = AKBsd /\ mk = SBsd /\ w = 4%nat) \/ (k = AKBsd64 /\ mk = SBsd64 /\ w = 8%nat) ->
  zlen T < 2 ^ 63 -> sym_table T k n sym -> exists it, table_of T k = Ok it /\ yields it n sym.
Proof.
  intros Hk Hl Hs. assert (Hw : (0 < w)%nat) by lia.
  assert (exists ents size names tl, T = write_u Little w size ++ concat (map (fun '(s, o) => write_u Little w s ++ write_u Little w o) ents) ++
      write_u Little w (zlen names) ++ names ++ tl /\
      zlen ents = n /\ size / (2 * Z.of_nat w) = n /\ 0 <= size < 2 ^ (8 * Z.of_nat w) /\ zlen names < 2 ^ (8 * Z.of_nat w) /\
      Forall (fun '(s, o) => 0 <= s < 2 ^ (8 * Z.of_nat w) /\ 0 <= o < 2 ^ (8 * Z.of_nat w)) ents /\
      (forall i name o, sym i name o <-> exists s, zget ents i = Some (s, o) /\ string_at names s name)) as (ents & size & names & tl & ET & Hn & Hd & Hz & Hnm & Hf & Hsym).
  { destruct Hk as [(-> & -> & ->)|(-> & -> & ->)]; exact Hs. }
  rewrite (bsd_table mk w) by assumption. subst T. rewrite map_ent in *. apply Forall_ent in Hf.
  destruct (read_num_enc Little w size (concat (map (bsd_ent w) ents) ++ write_u Little w (zlen names) ++ names ++ tl) Hz) as [E1 E2]. rewrite E1. cbn [rd]. rewrite E2, Hd.
  assert (Hfl : Forall (fun c => zlen c = 2 * Z.of_nat w) (map (bsd_ent w) ents)).
  { rewrite Forall_map. apply Forall_forall. intros. apply bsd_ent_len. }
  rewrite b_read_slice_app; [|lia|assumption|rewrite zlen_map_w; lia|].
  2:{ apply zlen_cut, zlen_cut1 in Hl. rewrite (zlen_concat_const (2 * Z.of_nat w)) in Hl by assumption. lia. }
  cbn [rd]. pose proof (zlen_nonneg names).
  destruct (read_num_enc Little w (zlen names) (names ++ tl)) as [E3 E4]; [lia|]. rewrite E3. cbn [rd]. rewrite E4.
  rewrite b_read_bytes_app by reflexivity. cbn [rd]. eexists. split; [reflexivity|]. rewrite <- Hn.
  eapply yields_ext; [|apply bsd_yields; [tauto|assumption]]. intros. rewrite Hsym. reflexivity.
Qed.
Lemma coff_dec T it : bytes_ok T -> zlen T < 2 ^ 63 -> table_of T AKCoff = Ok it -> exists n sym, sym_table T AKCoff n sym /\ yields it n sym.
Proof.
  intros HT Hl. rewrite table_eq. change 4 with (Z.of_nat 4). change 2 with (Z.of_nat 2).
  destruct (read_num Little 4 T HT ltac:(lia)) as [(v & tl & -> & Hv & -> & Hr & Ht)|(_ & ->)]; [|discriminate]. cbn [rd]. rewrite Hr. apply zlen_cut in Hl.
  destruct (read_nums Little 4 tl v Ht ltac:(lia) ltac:(lia) Hl) as [(offs & tl2 & -> & Hn & Hf & -> & Ht2)|(_ & ->)]; [|discriminate]. cbn [rd]. apply zlen_cut in Hl.
  destruct (read_num Little 4 tl2 Ht2 ltac:(lia)) as [(v2 & tl3 & -> & Hv2 & -> & Hr2 & Ht3)|(_ & ->)]; [|discriminate]. cbn [rd]. rewrite Hr2. apply zlen_cut in Hl.
  destruct (read_nums Little 2 tl3 v2 Ht3 ltac:(lia) ltac:(lia) Hl) as [(idx & names & -> & Hn2 & Hf2 & -> & Ht4)|(_ & ->)]; [|discriminate]. cbn [rd].
  intros [= <-]. exists v2, (coff_sym offs idx names). split.
  - cbn [sym_table]. exists offs, idx, names. rewrite Hn. split; [reflexivity|]. split; [assumption|].
    change (8 * Z.of_nat 4) with 32 in *. change (8 * Z.of_nat 2) with 16 in *.
    split; [lia|]. split; [lia|]. split; [assumption|]. split; [assumption|]. intros. reflexivity.
  - rewrite <- Hn2. apply coff_yields; assumption.
Qed.
Lemma coff_enc T n sym : zlen T < 2 ^ 63 -> sym_table T AKCoff n sym -> exists it, table_of T AKCoff = Ok it /\ yields it n sym.
Proof.
  intros Hl (offs & idx & names & -> & Hn & Hb & Hb2 & Hf & Hf2 & Hsym). rewrite table_eq. change 4 with (Z.of_nat 4). change 2 with (Z.of_nat 2).
  pose proof (zlen_nonneg offs). pose proof (zlen_nonneg idx).
  match goal with |- context [b_read (write_u Little 4 ?v ++ ?t) _] => destruct (read_num_enc Little 4 v t) as [E1 E2]; [change (8 * Z.of_nat 4) with 32; lia|] end.
  rewrite E1. cbn [rd]. rewrite E2. apply zlen_cut in Hl.
  rewrite read_nums_enc; [|lia|reflexivity|apply zlen_cut1 in Hl; exact Hl]. cbn [rd]. apply zlen_cut in Hl.
  match goal with |- context [b_read (write_u Little 4 ?v ++ ?t) _] => destruct (read_num_enc Little 4 v t) as [E3 E4]; [change (8 * Z.of_nat 4) with 32; lia|] end.
  rewrite E3. cbn [rd]. rewrite E4. apply zlen_cut in Hl.
  rewrite read_nums_enc; [|lia|lia|apply zlen_cut1 in Hl; exact Hl]. cbn [rd]. eexists. split; [reflexivity|]. rewrite <- Hn.
  eapply yields_ext; [|apply coff_yields; assumption]. intros. rewrite Hsym. reflexivity.
Qed.
Lemma none_results n (sym : Z -> bytes -> Z -> Prop) : n = 0 -> (forall i name o, ~ sym i name o) -> yields SNone n sym.
Proof.
  intros -> H. split; [reflexivity|]. exists []. split; [eapply res_end; reflexivity|]. split; [reflexivity|]. intros i name o. split.
  - intro Hg. apply zget_Some_lt in Hg. change (zlen (@nil (option asym))) with 0 in Hg. lia.
  - intro Hs. exfalso. eapply H; eauto.
Qed.
Lemma table_dec T k it : bytes_ok T -> zlen T < 2 ^ 63 -> table_of T k = Ok it -> exists n sym, sym_table T k n sym /\ yields it n sym.
Proof.
  intros HT Hl. destruct k.
  1,7,8: rewrite table_eq; intros [= <-]; exists 0, (fun _ _ _ => False); (split; [split; [reflexivity|tauto]|apply none_results; [reflexivity|tauto]]).
  - eapply gnu_dec with (mk := SGnu) (w := 4%nat); auto.
  - eapply gnu_dec with (mk := SGnu64) (w := 8%nat); auto.
  - eapply bsd_dec with (mk := SBsd) (w := 4%nat); auto.
  - eapply bsd_dec with (mk := SBsd64) (w := 8%nat); auto.
  - apply coff_dec; assumption.
Qed.
Lemma table_enc T k n sym : zlen T < 2 ^ 63 -> sym_table T k n sym -> exists it, table_of T k = Ok it /\ yields it n sym.
Proof.
  intros Hl. destruct k.
  1,7,8: intros [H1 H2]; rewrite table_eq; eexists; (split; [reflexivity|]); apply none_results; assumption.
  - eapply gnu_enc with (mk := SGnu) (w := 4%nat); auto.
  - eapply gnu_enc with (mk := SGnu64) (w := 8%nat); auto.
  - eapply bsd_enc with (mk := SBsd) (w := 4%nat); auto.
  - eapply bsd_enc with (mk := SBsd64) (w := 8%nat); auto.
  - apply coff_enc; assumption.
Qed.
Lemma rd_no_panic {A B} (m : out A * bytes) (k : A -> bytes -> out B) : fst m <> Panic -> (forall a s, k a s <> Panic) -> rd m k <> Panic.
Proof. destruct m as [[a| |] s]; cbn; auto; congruence. Qed.
Lemma b_read_np s n : fst (b_read s n) <> Panic.
Proof. unfold b_read. destruct (from_bytes s n) as [[? ?]| |]; discriminate. Qed.
Lemma b_read_slice_np s n k : fst (b_read_slice s n k) <> Panic.
Proof. unfold b_read_slice. destruct (slice_from_bytes s n k) as [[? ?]| |]; discriminate. Qed.
Lemma b_read_bytes_np s n : fst (b_read_bytes s n) <> Panic.
Proof. unfold b_read_bytes. destruct (get_to s n), (get_from s n); discriminate. Qed.
Lemma symiter_new_no_panic k F off size : symiter_new k F off size <> Panic.
Proof.
  unfold symiter_new. pose proof (rr_read_bytes_at_no_panic F off size) as Hp. destruct (rr_read_bytes_at F off size) as [T| |]; [|discriminate|contradiction]. cbn [bind].
  destruct k; try discriminate; repeat (apply rd_no_panic; [first [apply b_read_np|apply b_read_slice_np|apply b_read_bytes_np]|intros]); discriminate.
Qed.
