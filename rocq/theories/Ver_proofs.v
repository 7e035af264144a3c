From Verif Require Import Core_proofs Str_proofs Util_proofs Hash_proofs Rel_proofs Pod_proofs Ver_spec.

Lemma fld_ztake e off n sz data : 0 <= off -> 0 <= n -> off + n <= sz -> fld e off n (zslice 0 sz data) = fld e off n data.
Proof.
  intros. unfold fld, zslice. f_equal. rewrite zdrop_0. unfold ztake, zdrop.
  rewrite skipn_firstn_comm, firstn_firstn. f_equal. lia.
Qed.
Lemma verdef_of_take e data : verdef_of e (zslice 0 20 data) = verdef_of e data.
Proof. unfold verdef_of. rewrite !fld_ztake by lia. reflexivity. Qed.
Lemma verneed_of_take e data : verneed_of e (zslice 0 16 data) = verneed_of e data.
Proof. unfold verneed_of. rewrite !fld_ztake by lia. reflexivity. Qed.
Lemma verdaux_of_take e data : verdaux_of e (zslice 0 8 data) = verdaux_of e data.
Proof. unfold verdaux_of. rewrite !fld_ztake by lia. reflexivity. Qed.
Lemma vernaux_of_take e data : vernaux_of e (zslice 0 16 data) = vernaux_of e data.
Proof. unfold vernaux_of. rewrite !fld_ztake by lia. reflexivity. Qed.

Lemma verdef_parse_eq e data : bytes_ok data ->
  let vd := verdef_of e data in
  if (20 <=? zlen data) && (vd_aux vd <=? zlen data) && (vd_next vd <=? zlen data) then
    verdef_parse e data = (Ok (vd, (zdrop (vd_aux vd) data, vd_cnt vd)), if vd_next vd =? 0 then [] else zdrop (vd_next vd) data)
  else exists d, verdef_parse e data = (Err, d).
Proof.
  intros Hb vd. unfold verdef_parse. rewrite b_read_at_eq by lia. change (0 + 20) with 20.
  destruct (20 <=? zlen data); cbn [andb]; [|eauto]. rewrite verdef_of_take. fold vd.
  assert (0 <= vd_aux vd) by apply (proj1 (fld_bound e 12 4 data Hb ltac:(lia) ltac:(lia))). assert (0 <= vd_next vd) by apply (proj1 (fld_bound e 16 4 data Hb ltac:(lia) ltac:(lia))).
  rewrite b_skip_eq by lia. destruct (vd_aux vd <=? zlen data); cbn [andb]; [|eauto].
  destruct (Z.eqb_spec (vd_next vd) 0); cbn [negb].
  - destruct (Z.leb_spec (vd_next vd) (zlen data)); [reflexivity|]. pose proof (zlen_nonneg data). lia.
  - rewrite b_skip_eq by lia. destruct (vd_next vd <=? zlen data); cbn [bs]; eauto.
Qed.
Lemma verneed_parse_eq e data : bytes_ok data ->
  let vn := verneed_of e data in
  if (16 <=? zlen data) && (vn_aux vn <=? zlen data) && (vn_next vn <=? zlen data) then
    verneed_parse e data = (Ok (vn, (zdrop (vn_aux vn) data, vn_cnt vn)), if vn_next vn =? 0 then [] else zdrop (vn_next vn) data)
  else exists d, verneed_parse e data = (Err, d).
Proof.
  intros Hb vn. unfold verneed_parse. rewrite b_read_at_eq by lia. change (0 + 16) with 16.
  destruct (16 <=? zlen data); cbn [andb]; [|eauto]. rewrite verneed_of_take. fold vn.
  assert (0 <= vn_aux vn) by apply (proj1 (fld_bound e 8 4 data Hb ltac:(lia) ltac:(lia))). assert (0 <= vn_next vn) by apply (proj1 (fld_bound e 12 4 data Hb ltac:(lia) ltac:(lia))).
  rewrite b_skip_eq by lia. destruct (vn_aux vn <=? zlen data); cbn [andb]; [|eauto].
  destruct (Z.eqb_spec (vn_next vn) 0); cbn [negb].
  - destruct (Z.leb_spec (vn_next vn) (zlen data)); [reflexivity|]. pose proof (zlen_nonneg data). lia.
  - rewrite b_skip_eq by lia. destruct (vn_next vn <=? zlen data); cbn [bs]; eauto.
Qed.
Lemma verdaux_parse_eq e data : bytes_ok data ->
  let x := verdaux_of e data in
  if (8 <=? zlen data) && (vda_next x <=? zlen data) then verdaux_parse e data = (Ok x, zdrop (vda_next x) data)
  else exists d, verdaux_parse e data = (Err, d).
Proof.
  intros Hb x. unfold verdaux_parse. rewrite b_read_at_eq by lia. change (0 + 8) with 8.
  destruct (8 <=? zlen data); cbn [andb]; [|eauto]. rewrite verdaux_of_take. fold x.
  assert (0 <= vda_next x) by apply (proj1 (fld_bound e 4 4 data Hb ltac:(lia) ltac:(lia))). rewrite b_skip_eq by lia.
  destruct (vda_next x <=? zlen data); cbn [bs]; eauto.
Qed.
Lemma vernaux_parse_eq e data : bytes_ok data ->
  let x := vernaux_of e data in
  if (16 <=? zlen data) && (vna_next x <=? zlen data) then vernaux_parse e data = (Ok x, zdrop (vna_next x) data)
  else exists d, vernaux_parse e data = (Err, d).
Proof.
  intros Hb x. unfold vernaux_parse. rewrite b_read_at_eq by lia. change (0 + 16) with 16.
  destruct (16 <=? zlen data); cbn [andb]; [|eauto]. rewrite vernaux_of_take. fold x.
  assert (0 <= vna_next x) by apply (proj1 (fld_bound e 12 4 data Hb ltac:(lia) ltac:(lia))). rewrite b_skip_eq by lia.
  destruct (vna_next x <=? zlen data); cbn [bs]; eauto.
Qed.

(** * Chains *)
Lemma chain_runs {A} (parse : bytes -> out A * bytes) (item : Z -> A) data (fits : Z -> Prop) next :
  (forall o, 0 <= o < zlen data -> fits o -> 0 <= next o /\ o + next o <= zlen data /\
     parse (zdrop o data) = (Ok (item o), if next o =? 0 then [] else zdrop (o + next o) data)) ->
  (forall o, 0 <= o < zlen data -> ~ fits o -> exists d, parse (zdrop o data) = (Err, d)) ->
  (forall o, fits o \/ ~ fits o) ->
  forall o, 0 <= o <= zlen data -> exists l er,
    chain (zlen data) fits next o l er /\ runs (seq_next parse) (zdrop o data) (map item l) er [].
Proof.
  intros Hf Hn Hdec o Ho. remember (Z.to_nat (zlen data - o)) as k eqn:Ek.
  revert o Ho Ek. induction k as [k IH] using lt_wf_ind; intros o Ho Ek.
  destruct (Z.eq_dec o (zlen data)) as [E|Hne].
  { rewrite E. exists [], false. split; [constructor|]. apply runs_done. rewrite zdrop_all by lia. reflexivity. }
  assert (Hs : forall r d, parse (zdrop o data) = (r, d) -> seq_next parse (zdrop o data) =
     match r with Ok x => (Ok (Some x), d) | Err => (Err, []) | Panic => (Panic, d) end).
  { intros r d E. unfold seq_next. assert (zlen (zdrop o data) <> 0) by (rewrite zlen_zdrop; lia).
    destruct (zdrop o data) eqn:Ed; [contradiction|]. rewrite E. destruct r; reflexivity. }
  destruct (Hdec o) as [F|F].
  - destruct (Hf o) as (H1 & H2 & H3); [lia|assumption|]. apply Hs in H3. destruct (Z.eqb_spec (next o) 0) as [E0|E0].
    + exists [o], false. split; [apply ch_last; (assumption || lia)|]. eapply runs_more; [exact H3|]. apply runs_done. reflexivity.
    + destruct (IH (Z.to_nat (zlen data - (o + next o))) ltac:(lia) (o + next o) ltac:(lia) eq_refl) as (l & er & C & R).
      exists (o :: l), er. split; [apply ch_next; (assumption || lia)|]. eapply runs_more; [exact H3|exact R].
  - destruct (Hn o) as (d & H3); [lia|assumption|]. apply Hs in H3. exists [], true. split; [apply ch_bad; (assumption || lia)|].
    apply runs_err. exact H3.
Qed.
Definition aux_next_of {A} (parse : bytes -> out A * bytes) (st : aux_iter) : out (option A) * aux_iter :=
  let '(data, count) := st in
  if count =? 0 then (Ok None, st) else
  match parse data with
  | (Ok x, data) => match psub count 1 with
                    | Ok count => (Ok (Some x), (data, count))
                    | _ => (Panic, (data, count))
                    end
  | (Err, data) => (Err, (data, 0))
  | (Panic, data) => (Panic, (data, count))
  end.
Lemma aux_runs {A} (parse : bytes -> out A * bytes) (item : Z -> A) data (fits : Z -> Prop) next :
  (forall o, 0 <= o <= zlen data -> fits o -> 0 <= next o /\ o + next o <= zlen data /\
     parse (zdrop o data) = (Ok (item o), zdrop (o + next o) data)) ->
  (forall o, 0 <= o <= zlen data -> ~ fits o -> exists d, parse (zdrop o data) = (Err, d)) ->
  (forall o, fits o \/ ~ fits o) ->
  forall cnt o, 0 <= o <= zlen data -> 0 <= cnt -> exists l er st,
    aux_chain fits next o cnt l er /\ runs (aux_next_of parse) (zdrop o data, cnt) (map item l) er st /\ zlen l <= cnt.
Proof.
  intros Hf Hn Hdec cnt o Ho Hc. remember (Z.to_nat cnt) as k eqn:Ek. revert o cnt Ho Hc Ek.
  induction k as [|k IH]; intros o cnt Ho Hc Ek.
  { assert (cnt = 0) by lia. subst cnt. exists [], false. eexists. split; [constructor|]. split; [apply runs_done; reflexivity|cbn; lia]. }
  destruct (Hdec o) as [F|F].
  - destruct (Hf o Ho F) as (H1 & H2 & H3).
    destruct (IH (o + next o) (cnt - 1)) as (l & er & st & C & R & L); [lia..|].
    exists (o :: l), er, st. split; [apply ac_next; (assumption || lia)|]. split; [|rewrite zlen_cons; lia].
    eapply runs_more; [|exact R]. unfold aux_next_of. destruct (Z.eqb_spec cnt 0); [lia|]. rewrite H3. unfold psub. destruct (Z.leb_spec 1 cnt); [reflexivity|lia].
  - destruct (Hn o Ho F) as (d & H3). exists [], true. eexists. split; [apply ac_bad; (assumption || lia)|]. split; [|cbn; lia].
    eapply runs_err. unfold aux_next_of. destruct (Z.eqb_spec cnt 0); [lia|]. rewrite H3. reflexivity.
Qed.

Lemma verdef_chain e data o : bytes_ok data -> 0 <= o <= zlen data -> exists l er,
  chain (zlen data) (verdef_fits e data) (fun o => vd_next (at_ verdef_of e data o)) o l er /\
  runs (verdef_next e) (zdrop o data)
    (map (fun o => let vd := at_ verdef_of e data o in (vd, (zdrop (o + vd_aux vd) data, vd_cnt vd))) l) er [].
Proof.
  intros Hb Ho. apply (chain_runs (verdef_parse e) (fun o => let vd := at_ verdef_of e data o in (vd, (zdrop (o + vd_aux vd) data, vd_cnt vd)))); [| |unfold verdef_fits; intros; lia|exact Ho].
  - intros x Hx (F1 & F2 & F3). assert (Hb' : bytes_ok (zdrop x data)) by (apply bytes_ok_zdrop; exact Hb).
    pose proof (verdef_parse_eq e (zdrop x data) Hb') as H. cbv zeta in H. fold (at_ verdef_of e data x) in H. rewrite zlen_zdrop in H by lia.
    assert (0 <= vd_next (at_ verdef_of e data x)) by apply (proj1 (fld_bound e 16 4 _ Hb' ltac:(lia) ltac:(lia))).
    assert (0 <= vd_aux (at_ verdef_of e data x)) by apply (proj1 (fld_bound e 12 4 _ Hb' ltac:(lia) ltac:(lia))).
    destruct (_ && _) eqn:E in H; [|lia]. split; [assumption|]. split; [assumption|]. cbv zeta. rewrite H, !zdrop_zdrop by lia.
    rewrite !(Z.add_comm x). reflexivity.
  - intros x Hx F. assert (Hb' : bytes_ok (zdrop x data)) by (apply bytes_ok_zdrop; exact Hb).
    pose proof (verdef_parse_eq e (zdrop x data) Hb') as H. cbv zeta in H. fold (at_ verdef_of e data x) in H. rewrite zlen_zdrop in H by lia.
    destruct (_ && _) eqn:E in H; [|exact H]. exfalso. apply F. unfold verdef_fits. lia.
Qed.
Lemma verneed_chain e data o : bytes_ok data -> 0 <= o <= zlen data -> exists l er,
  chain (zlen data) (verneed_fits e data) (fun o => vn_next (at_ verneed_of e data o)) o l er /\
  runs (verneed_next e) (zdrop o data)
    (map (fun o => let vn := at_ verneed_of e data o in (vn, (zdrop (o + vn_aux vn) data, vn_cnt vn))) l) er [].
Proof.
  intros Hb Ho. apply (chain_runs (verneed_parse e) (fun o => let vn := at_ verneed_of e data o in (vn, (zdrop (o + vn_aux vn) data, vn_cnt vn)))); [| |unfold verneed_fits; intros; lia|exact Ho].
  - intros x Hx (F1 & F2 & F3). assert (Hb' : bytes_ok (zdrop x data)) by (apply bytes_ok_zdrop; exact Hb).
    pose proof (verneed_parse_eq e (zdrop x data) Hb') as H. cbv zeta in H. fold (at_ verneed_of e data x) in H. rewrite zlen_zdrop in H by lia.
    assert (0 <= vn_next (at_ verneed_of e data x)) by apply (proj1 (fld_bound e 12 4 _ Hb' ltac:(lia) ltac:(lia))).
    assert (0 <= vn_aux (at_ verneed_of e data x)) by apply (proj1 (fld_bound e 8 4 _ Hb' ltac:(lia) ltac:(lia))).
    destruct (_ && _) eqn:E in H; [|lia]. split; [assumption|]. split; [assumption|]. cbv zeta. rewrite H, !zdrop_zdrop by lia.
    rewrite !(Z.add_comm x). reflexivity.
  - intros x Hx F. assert (Hb' : bytes_ok (zdrop x data)) by (apply bytes_ok_zdrop; exact Hb).
    pose proof (verneed_parse_eq e (zdrop x data) Hb') as H. cbv zeta in H. fold (at_ verneed_of e data x) in H. rewrite zlen_zdrop in H by lia.
    destruct (_ && _) eqn:E in H; [|exact H]. exfalso. apply F. unfold verneed_fits. lia.
Qed.
Lemma verdaux_chain e data o cnt : bytes_ok data -> 0 <= o <= zlen data -> 0 <= cnt -> exists l er st,
  aux_chain (verdaux_fits e data) (fun o => vda_next (at_ verdaux_of e data o)) o cnt l er /\
  runs (verdaux_next e) (zdrop o data, cnt) (map (at_ verdaux_of e data) l) er st /\ zlen l <= cnt.
Proof.
  intros Hb Ho Hc. apply (aux_runs (verdaux_parse e) (at_ verdaux_of e data)); [| |unfold verdaux_fits; intros; lia|exact Ho|exact Hc].
  - intros x Hx (F1 & F2). assert (Hb' : bytes_ok (zdrop x data)) by (apply bytes_ok_zdrop; exact Hb).
    pose proof (verdaux_parse_eq e (zdrop x data) Hb') as H. cbv zeta in H. fold (at_ verdaux_of e data x) in H. rewrite zlen_zdrop in H by lia.
    assert (0 <= vda_next (at_ verdaux_of e data x)) by apply (proj1 (fld_bound e 4 4 _ Hb' ltac:(lia) ltac:(lia))).
    destruct (_ && _) eqn:E in H; [|lia]. split; [assumption|]. split; [assumption|]. cbv zeta. rewrite H, !zdrop_zdrop by lia.
    rewrite !(Z.add_comm x). reflexivity.
  - intros x Hx F. assert (Hb' : bytes_ok (zdrop x data)) by (apply bytes_ok_zdrop; exact Hb).
    pose proof (verdaux_parse_eq e (zdrop x data) Hb') as H. cbv zeta in H. fold (at_ verdaux_of e data x) in H. rewrite zlen_zdrop in H by lia.
    destruct (_ && _) eqn:E in H; [|exact H]. exfalso. apply F. unfold verdaux_fits. lia.
Qed.
Lemma vernaux_chain e data o cnt : bytes_ok data -> 0 <= o <= zlen data -> 0 <= cnt -> exists l er st,
  aux_chain (vernaux_fits e data) (fun o => vna_next (at_ vernaux_of e data o)) o cnt l er /\
  runs (vernaux_next e) (zdrop o data, cnt) (map (at_ vernaux_of e data) l) er st /\ zlen l <= cnt.
Proof.
  intros Hb Ho Hc. apply (aux_runs (vernaux_parse e) (at_ vernaux_of e data)); [| |unfold vernaux_fits; intros; lia|exact Ho|exact Hc].
  - intros x Hx (F1 & F2). assert (Hb' : bytes_ok (zdrop x data)) by (apply bytes_ok_zdrop; exact Hb).
    pose proof (vernaux_parse_eq e (zdrop x data) Hb') as H. cbv zeta in H. fold (at_ vernaux_of e data x) in H. rewrite zlen_zdrop in H by lia.
    assert (0 <= vna_next (at_ vernaux_of e data x)) by apply (proj1 (fld_bound e 12 4 _ Hb' ltac:(lia) ltac:(lia))).
    destruct (_ && _) eqn:E in H; [|lia]. split; [assumption|]. split; [assumption|]. cbv zeta. rewrite H, !zdrop_zdrop by lia.
    rewrite !(Z.add_comm x). reflexivity.
  - intros x Hx F. assert (Hb' : bytes_ok (zdrop x data)) by (apply bytes_ok_zdrop; exact Hb).
    pose proof (vernaux_parse_eq e (zdrop x data) Hb') as H. cbv zeta in H. fold (at_ vernaux_of e data x) in H. rewrite zlen_zdrop in H by lia.
    destruct (_ && _) eqn:E in H; [|exact H]. exfalso. apply F. unfold vernaux_fits. lia.
Qed.

(** * Loops *)
Lemma while_let_runs {S A B} (next : S -> out (option A) * S) (body : B -> A -> out B) st l er st' :
  runs next st l er st' -> forall fuel acc, (length l < fuel)%nat ->
  while_let fuel next st body acc = (a <- each body acc l ;; if er then Err else Ok a).
Proof.
  induction 1 as [st st' E|st st' E|st st1 st' x l e E R IH]; intros fuel acc Hf; (destruct fuel as [|fuel]; [cbn in Hf; lia|]); cbn [while_let each bind]; rewrite E; try reflexivity.
  destruct (body acc x) as [a| |]; cbn [bind]; try reflexivity. apply IH. cbn in Hf; lia.
Qed.
Lemma each_app {A B} (f : A -> B -> out A) a l1 l2 : each f a (l1 ++ l2) = (a' <- each f a l1 ;; each f a' l2).
Proof. revert a; induction l1 as [|x l1 IH]; intro a; cbn [app each bind]; [reflexivity|]. destruct (f a x); cbn [bind]; auto. Qed.
(** Length of a verdef/verneed run *)
Lemma chain_length len fits next o l er : chain len fits next o l er -> 0 <= o -> zlen l <= len - o + 1 /\ (o <= len -> zlen l <= len - o).
Proof.
  induction 1 as [|o H F|o H F E|o l er H F E C IH]; intros Ho.
  - change (zlen (@nil Z)) with 0. lia.
  - change (zlen (@nil Z)) with 0. lia.
  - change (zlen [o]) with 1. lia.
  - rewrite zlen_cons. destruct IH; [lia|]. split; [lia|]. intros.
    inversion C; subst; lia.
Qed.
Definition def_good (p : verdef * aux_iter) := bytes_ok (fst (snd p)) /\ 0 <= snd (snd p) /\ 0 <= vd_ndx (fst p) < 2 ^ 16.
Definition need_good (p : verneed * aux_iter) := bytes_ok (fst (snd p)) /\ 0 <= snd (snd p).
Definition naux_good (a : vernaux) := 0 <= vna_other a < 2 ^ 16.
Lemma verdef_items e data : bytes_ok data -> exists l er,
  runs (verdef_next e) data l er [] /\ (length l < fuel_of data)%nat /\ Forall def_good l.
Proof.
  intros Hb. pose proof (zlen_nonneg data). destruct (verdef_chain e data 0 Hb) as (l & er & C & R); [lia|]. rewrite zdrop_0 in R.
  eexists _, er. split; [exact R|]. apply chain_length in C; [|lia]. split; [rewrite map_length; unfold fuel_of, zlen in *; lia|].
  rewrite Forall_map. apply Forall_forall. intros o _. unfold def_good. cbn [fst snd].
  assert (Hb' : bytes_ok (zdrop o data)) by (apply bytes_ok_zdrop; exact Hb).
  split; [apply bytes_ok_zdrop; exact Hb|]. split; [apply (fld_bound e 6 2 _ Hb')|apply (fld_bound e 4 2 _ Hb')]; lia.
Qed.
Lemma verneed_items e data : bytes_ok data -> exists l er,
  runs (verneed_next e) data l er [] /\ (length l < fuel_of data)%nat /\ Forall need_good l.
Proof.
  intros Hb. pose proof (zlen_nonneg data). destruct (verneed_chain e data 0 Hb) as (l & er & C & R); [lia|]. rewrite zdrop_0 in R.
  eexists _, er. split; [exact R|]. apply chain_length in C; [|lia]. split; [rewrite map_length; unfold fuel_of, zlen in *; lia|].
  rewrite Forall_map. apply Forall_forall. intros o _. unfold need_good. cbn [fst snd].
  assert (Hb' : bytes_ok (zdrop o data)) by (apply bytes_ok_zdrop; exact Hb).
  split; [apply bytes_ok_zdrop; exact Hb|]. apply (fld_bound e 2 2 _ Hb'); lia.
Qed.
Lemma vernaux_items e (a : aux_iter) : bytes_ok (fst a) -> 0 <= snd a -> exists l er st,
  runs (vernaux_next e) a l er st /\ (length l < aux_fuel a)%nat /\ Forall naux_good l.
Proof.
  destruct a as [data cnt]. cbn [fst snd]. intros Hb Hc. pose proof (zlen_nonneg data).
  destruct (vernaux_chain e data 0 cnt Hb) as (l & er & st & C & R & L); [lia..|]. rewrite zdrop_0 in R.
  eexists _, er, st. split; [exact R|]. split; [rewrite map_length; unfold aux_fuel, zlen in *; cbn [snd]; lia|].
  rewrite Forall_map. apply Forall_forall. intros o _.
  assert (Hb' : bytes_ok (zdrop o data)) by (apply bytes_ok_zdrop; exact Hb). apply (fld_bound e 6 2 _ Hb'); lia.
Qed.
Lemma opt_items {A} (next : bytes -> out (option A) * bytes) (good : A -> Prop) :
  (forall data, bytes_ok data -> exists l er, runs next data l er (@nil Z) /\ (length l < fuel_of data)%nat /\ Forall good l) ->
  forall od, match od with Some d => bytes_ok d | None => True end ->
  exists l (er : bool), Forall good l /\ (forall B (body : B -> A -> out B) acc, opt_loop next od body acc = (a <- each body acc l ;; if er then Err else Ok a)) /\
    (er = false -> opt_runs next od l) /\ (forall l', opt_runs next od l' -> er = false /\ l' = l).
Proof.
  intros H [d|] Hb.
  - destruct (H d Hb) as (l & er & R & L & G). exists l, er. split; [exact G|]. split; [|split].
    + intros B body acc. cbn [opt_loop]. apply (while_let_runs next body d l er (@nil Z)); assumption.
    + intros ->. exact R.
    + intros l' R'. cbn [opt_runs] in R'. destruct (runs_det _ _ _ _ _ R _ _ _ R') as (-> & -> & _). auto.
  - exists [], false. split; [constructor|]. split; [reflexivity|]. split; [reflexivity|]. cbn. intros l' ->. auto.
Qed.

(** * Maximum index *)
Lemma max_def_each l : forall m, 0 <= m < 2 ^ 16 -> Forall def_good l -> exists m', each max_def m l = Ok m' /\ m <= m' < 2 ^ 16 /\
  Forall (fun p => is_base (fst p) = false -> vd_ndx (fst p) <= m') l.
Proof.
  induction l as [|p l IH]; intros m Hm HG; cbn [each]; [exists m; repeat split; [lia..|constructor]|].
  pose proof (Forall_inv HG) as (_ & _ & G). apply Forall_inv_tail in HG. unfold max_def at 1.
  destruct (is_base (fst p)) eqn:Eb; cbn [bind].
  - destruct (IH m Hm HG) as (m' & E & H & F). exists m'. split; [exact E|]. split; [exact H|]. constructor; [congruence|exact F].
  - destruct (Z.ltb_spec m (vd_ndx (fst p))).
    + destruct (IH (vd_ndx (fst p)) ltac:(lia) HG) as (m' & E & ? & F). exists m'. split; [exact E|]. split; [lia|]. constructor; [intros; lia|exact F].
    + destruct (IH m Hm HG) as (m' & E & ? & F). exists m'. split; [exact E|]. split; [lia|]. constructor; [intros; lia|exact F].
Qed.
Lemma versym_index_mod v : versym_index v = v mod 2 ^ 15.
Proof. unfold versym_index. change 32767 with (Z.ones 15). apply Z.land_ones. lia. Qed.
Lemma max_naux_each l : forall m, 0 <= m < 2 ^ 16 -> exists m', each max_naux m l = Ok m' /\ m <= m' < 2 ^ 16 /\
  Forall (fun a => versym_index (vna_other a) <= m') l.
Proof.
  induction l as [|p l IH]; intros m Hm; cbn [each]; [exists m; repeat split; [lia..|constructor]|].
  unfold max_naux at 1. cbn [bind]. assert (0 <= versym_index (vna_other p) < 2 ^ 15) by (rewrite versym_index_mod; apply Z.mod_pos_bound; lia).
  destruct (Z.ltb_spec m (versym_index (vna_other p))).
  - destruct (IH (versym_index (vna_other p)) ltac:(lia)) as (m' & E & ? & F). exists m'. split; [exact E|]. split; [lia|]. constructor; [intros; lia|exact F].
  - destruct (IH m Hm) as (m' & E & ? & F). exists m'. split; [exact E|]. split; [lia|]. constructor; [intros; lia|exact F].
Qed.
Definition need_idx e m (p : verneed * aux_iter) := need_good p /\ exists auxs st, runs (vernaux_next e) (snd p) auxs false st /\
  (length auxs < aux_fuel (snd p))%nat /\ Forall naux_good auxs /\ Forall (fun a => versym_index (vna_other a) <= m) auxs.
Lemma max_need_each e strings l : forall m, 0 <= m < 2 ^ 16 -> Forall need_good l ->
  (exists m', each (max_need e) m l = Ok m' /\ m <= m' < 2 ^ 16 /\ Forall (need_idx e m') l) \/
  (each (max_need e) m l = Err /\ ~ exists ls, Forall2 (need_entry e strings) l ls).
Proof.
  induction l as [|p l IH]; intros m Hm HG; cbn [each]; [left; exists m; repeat split; [lia..|constructor]|].
  pose proof (Forall_inv HG) as G. apply Forall_inv_tail in HG. unfold max_need at 1 3.
  destruct (vernaux_items e (snd p)) as (auxs & er & st & R & L & GA); [apply G|apply G|].
  rewrite (while_let_runs _ _ _ _ _ _ R) by assumption. destruct (max_naux_each auxs m Hm) as (m1 & E1 & H1 & F1). rewrite E1. cbn [bind].
  destruct er; cbn [bind].
  - right. split; [reflexivity|]. intros (ls & Hls). inversion Hls as [|? ? ? ? (auxs' & st' & ls' & R' & _)]; subst.
    destruct (runs_det _ _ _ _ _ R _ _ _ R') as (_ & ? & _). discriminate.
  - destruct (IH m1 ltac:(lia) HG) as [(m' & E & H & F)|(E & N)].
    + left. exists m'. split; [exact E|]. split; [lia|]. constructor; [|exact F]. split; [exact G|]. exists auxs, st. split; [exact R|]. split; [exact L|]. split; [exact GA|].
      eapply Forall_impl; [|exact F1]. cbn. intros; lia.
    + right. split; [exact E|]. intros (ls & Hls). inversion Hls; subst. eauto.
Qed.

(** * Filling the table *)
Definition tinv (m : Z) (vs : list version) (ents : list (Z * version)) : Prop :=
  zlen vs = m + 1 /\ forall i, 2 <= i -> match lookup_last ents i with
    | Some v => zget vs i = Some v /\ v_valid v = true
    | None => match zget vs i with Some v => v_valid v = false | None => True end end.
Lemma each_entries {A} m (f : list version -> A -> out (list version)) (E : A -> list (Z * version) -> Prop) (ok : A -> Prop) :
  (forall vs ents p, ok p -> tinv m vs ents -> match f vs p with
     | Ok vs' => exists le, E p le /\ tinv m vs' (ents ++ le) | Err => ~ exists le, E p le | Panic => False end) ->
  forall l vs ents, Forall ok l -> tinv m vs ents -> match each f vs l with
     | Ok vs' => exists ls, Forall2 E l ls /\ tinv m vs' (ents ++ concat ls) | Err => ~ exists ls, Forall2 E l ls | Panic => False end.
Proof.
  intros H. induction l as [|p l IH]; intros vs ents Hok Hi; cbn [each].
  - exists []. split; [constructor|]. cbn [concat]. rewrite app_nil_r. exact Hi.
  - pose proof (Forall_inv Hok) as Hp. apply Forall_inv_tail in Hok. specialize (H vs ents p Hp Hi). destruct (f vs p) as [vs1| |]; cbn [bind].
    + destruct H as (le & He & Hi1). specialize (IH vs1 _ Hok Hi1). destruct (each f vs1 l) as [vs'| |]; [|intros (ls & Hls); inversion Hls; subst; eauto|exact IH].
      destruct IH as (ls & Hls & Hi'). exists (le :: ls). split; [constructor; assumption|]. cbn [concat]. rewrite app_assoc. exact Hi'.
    + intros (ls & Hls). inversion Hls; subst; eauto.
    + exact H.
Qed.
Lemma lookup_last_app l i j v : lookup_last (l ++ [(j, v)]) i = if j =? i then Some v else lookup_last l i.
Proof.
  induction l as [|[k w] l IH]; cbn [app lookup_last]; [reflexivity|]. rewrite IH. destruct (j =? i); reflexivity.
Qed.
Lemma set_version_inv m vs ents i v : tinv m vs ents -> 2 <= i <= m -> v_valid v = true ->
  exists vs', set_version vs i v = Ok vs' /\ tinv m vs' (ents ++ [(i, v)]).
Proof.
  intros [L H] Hi Hv. unfold set_version. destruct (zget_lt_Some vs i) as (x & Ex); [lia|]. rewrite Ex. cbn [unwrap bind].
  eexists. split; [reflexivity|]. split; [rewrite zlen_zset; lia|]. intros k Hk. rewrite lookup_last_app, zget_zset by lia.
  rewrite (Z.eqb_sym k i). destruct (i =? k); [auto|apply H; exact Hk].
Qed.
Lemma is_base_odd vd : is_base vd = Z.odd (vd_flags vd).
Proof.
  unfold is_base. change 1 with (Z.ones 1) at 1. rewrite Z.land_ones by lia. change (2 ^ 1) with 2. rewrite Zmod_odd.
  destruct (Z.odd (vd_flags vd)); reflexivity.
Qed.
Lemma verdaux_no_panic e (a : aux_iter) : bytes_ok (fst a) -> 0 <= snd a -> fst (verdaux_next e a) <> Panic.
Proof.
  destruct a as [data cnt]. cbn [fst snd]. intros Hb Hc. unfold verdaux_next. destruct (Z.eqb_spec cnt 0); [discriminate|].
  pose proof (verdaux_parse_eq e data Hb) as H. cbv zeta in H. destruct (_ && _); [|destruct H as (d & H)]; rewrite H; [|discriminate].
  unfold psub. destruct (Z.leb_spec 1 cnt); [discriminate|lia].
Qed.
Lemma fill_def_step e strings m : (forall o, strings o <> Panic) -> forall vs ents p,
  (def_good p /\ (is_base (fst p) = false -> vd_ndx (fst p) <= m)) -> tinv m vs ents -> match fill_def e strings vs p with
     | Ok vs' => exists le, def_entry e strings p le /\ tinv m vs' (ents ++ le) | Err => ~ exists le, def_entry e strings p le | Panic => False end.
Proof.
  intros Hs vs ents [vd a] [(G1 & G2 & G3) Hm] Hi. cbn [fst snd] in *. unfold fill_def. rewrite is_base_odd in *.
  destruct (Z.odd (vd_flags vd)) eqn:Eo; [exists []; split; [apply de_skip; auto|rewrite app_nil_r; exact Hi]|].
  unfold is_special. destruct (Z.leb_spec (vd_ndx vd) 1); [exists []; split; [apply de_skip; right; lia|rewrite app_nil_r; exact Hi]|].
  pose proof (verdaux_no_panic e a G1 G2) as Np. destruct (fst (verdaux_next e a)) as [[x|]| |] eqn:Ea; [| | |congruence].
  - destruct (strings (vda_name x)) as [name| |] eqn:En; cbn [bind]; [| |exact (Hs _ En)].
    + destruct (set_version_inv m vs ents (vd_ndx vd) {| v_name := name; v_hash := vd_hash vd; v_valid := true; v_file := None |} Hi) as (vs' & E & Hi'); [lia|reflexivity|].
      rewrite E. eexists. split; [|exact Hi']. eapply de_name; eauto. lia.
    + intros (le & He). inversion He as [? ? [?|?]|? ? ?|? ? ? ? ? ? ? ?]; subst; try congruence; lia.
  - exists []. split; [apply de_none; exact Ea|rewrite app_nil_r; exact Hi].
  - intros (le & He). inversion He as [? ? [?|?]|? ? ?|? ? ? ? ? ? ? ?]; subst; try congruence; lia.
Qed.
Lemma fill_naux_step strings vn m : (forall o, strings o <> Panic) -> forall vs ents a,
  (naux_good a /\ versym_index (vna_other a) <= m) -> tinv m vs ents -> match fill_naux strings vn vs a with
     | Ok vs' => exists le, naux_entry strings vn a le /\ tinv m vs' (ents ++ le) | Err => ~ exists le, naux_entry strings vn a le | Panic => False end.
Proof.
  intros Hs vs ents a (G & Hm) Hi. unfold fill_naux. rewrite versym_index_mod in *. set (ix := vna_other a mod 2 ^ 15) in *.
  unfold is_special. destruct (Z.leb_spec ix 1); [exists []; split; [apply ne_skip; fold ix; lia|rewrite app_nil_r; exact Hi]|].
  destruct (strings (vna_name a)) as [name| |] eqn:En; cbn [bind]; [| |exact (Hs _ En)].
  2:{ intros (le & He). inversion He; subst; [fold ix in H0; lia|congruence]. }
  destruct (strings (vn_file vn)) as [file| |] eqn:Ef; cbn [bind]; [| |exact (Hs _ Ef)].
  2:{ intros (le & He). inversion He; subst; [fold ix in H0; lia|congruence]. }
  destruct (set_version_inv m vs ents ix {| v_name := name; v_hash := vna_hash a; v_valid := true; v_file := Some file |} Hi) as (vs' & E & Hi'); [lia|reflexivity|].
  rewrite E. eexists. split; [|exact Hi']. apply ne_name; fold ix; (assumption || lia).
Qed.
Lemma fill_need_step e strings m : (forall o, strings o <> Panic) -> forall vs ents p,
  need_idx e m p -> tinv m vs ents -> match fill_need e strings vs p with
     | Ok vs' => exists le, need_entry e strings p le /\ tinv m vs' (ents ++ le) | Err => ~ exists le, need_entry e strings p le | Panic => False end.
Proof.
  intros Hs vs ents p (G & auxs & st & R & L & GA & Hm) Hi. unfold fill_need. rewrite (while_let_runs _ _ _ _ _ _ R) by assumption.
  pose proof (each_entries m (fill_naux strings (fst p)) (naux_entry strings (fst p)) _ (fill_naux_step strings (fst p) m Hs) auxs vs ents) as H.
  destruct (each _ vs auxs) as [vs'| |]; cbn [bind].
  - destruct H as (ls & Hl & Hi'); [apply Forall_forall; intros x Hx; rewrite Forall_forall in GA, Hm; auto|exact Hi|].
    exists (concat ls). split; [|exact Hi']. exists auxs, st, ls. auto.
  - intros (le & auxs' & st' & ls & R' & Hl & ->). destruct (runs_det _ _ _ _ _ R _ _ _ R') as (<- & _ & _).
    apply H; [apply Forall_forall; intros x Hx; rewrite Forall_forall in GA, Hm; auto|exact Hi|eauto].
  - apply H; [apply Forall_forall; intros x Hx; rewrite Forall_forall in GA, Hm; auto|exact Hi].
Qed.
Definition opt_ok (d : option bytes) : Prop := match d with Some d => bytes_ok d | None => True end.
Lemma vt_parse_spec e versyms verdefs verneeds strings : opt_ok verdefs -> opt_ok verneeds -> (forall o, strings o <> Panic) ->
  match vt_parse e versyms verdefs verneeds strings with
  | Ok t => vt_symbols t = versyms /\ exists l, table_entries e verdefs verneeds strings l /\
      forall i, 0 <= i -> vt_version t i = if i <? 2 then Ok None else match lookup_last l i with Some v => Ok (Some v) | None => Err end
  | Err => ~ exists l, table_entries e verdefs verneeds strings l
  | Panic => False
  end.
Proof.
  intros Hd Hn Hs. unfold vt_parse.
  destruct (opt_items (verdef_next e) def_good (verdef_items e) verdefs Hd) as (defs & er1 & GD & LD & RD & RD').
  destruct (opt_items (verneed_next e) need_good (verneed_items e) verneeds Hn) as (needs & er2 & GN & LN & RN & RN').
  rewrite !LD. destruct (max_def_each defs 0) as (m1 & E1 & H1 & F1); [lia|exact GD|]. rewrite E1. cbn [bind].
  destruct er1; cbn [bind].
  { intros (l & defs' & ? & ? & ? & R & _). destruct (RD' _ R). discriminate. }
  rewrite LN. destruct (max_need_each e strings needs m1) as [(m & E2 & H2 & F2)|(E2 & N)]; [lia|exact GN| |]; rewrite E2; cbn [bind].
  2:{ intros (l & ? & needs' & ? & ? & _ & R & _ & Hx & _). destruct (RN' _ R) as [_ ->]. eauto. }
  destruct er2; cbn [bind].
  { intros (l & ? & ? & ? & ? & _ & R & _). destruct (RN' _ R). discriminate. }
  assert (Hi : tinv m (repeat version_default (Z.to_nat (m + 1))) []).
  { split; [rewrite zlen_repeat; lia|]. intros i Hi. cbn [lookup_last]. destruct (zget _ i) eqn:E; [|exact I].
    apply zget_In, repeat_spec in E. subst. reflexivity. }
  rewrite LD. pose proof (each_entries m _ _ _ (fill_def_step e strings m Hs) defs (repeat version_default (Z.to_nat (m + 1))) []) as H.
  assert (GD' : Forall (fun p => def_good p /\ (is_base (fst p) = false -> vd_ndx (fst p) <= m)) defs).
  { apply Forall_forall. intros p Hp. rewrite Forall_forall in GD, F1. split; [auto|]. intro Eb. specialize (F1 p Hp Eb). lia. }
  specialize (H GD' Hi). destruct (each (fill_def e strings) _ defs) as [vs1| |]; cbn [bind]; [| |exact H].
  2:{ intros (l & defs' & ? & lds & ? & R & _ & Hx & _). destruct (RD' _ R) as [_ ->]. eauto. }
  destruct H as (lds & Hlds & Hi1). cbn [app] in Hi1. rewrite LN. 
  pose proof (each_entries m _ _ _ (fill_need_step e strings m Hs) needs vs1 _ F2 Hi1) as H.
  destruct (each (fill_need e strings) vs1 needs) as [vs2| |]; cbn [bind]; [| |exact H].
  2:{ intros (l & ? & needs' & ? & ? & _ & R & _ & Hx & _). destruct (RN' _ R) as [_ ->]. eauto. }
  destruct H as (lns & Hlns & L2 & Hi2). split; [reflexivity|]. exists (concat lds ++ concat lns).
  split; [exists defs, needs, lds, lns; repeat split; auto|]. intros i H0. unfold vt_version, is_special. cbn [vt_versions].
  destruct (Z.leb_spec i 1), (Z.ltb_spec i 2); try lia; [reflexivity|]. specialize (Hi2 i ltac:(lia)).
  destruct (lookup_last _ i) as [v|].
  - destruct Hi2 as [-> ->]. reflexivity.
  - destruct (zget vs2 i); [rewrite Hi2|]; reflexivity.
Qed.

(** * Round trip *)
Fixpoint abytes (e : endian) (nf : list (Z * bool)) : bytes :=
  match nf with [] => [] | (n, f) :: tl => gnu_verdaux e f n ++ abytes e tl end.
Fixpoint nf_ok (nf : list (Z * bool)) : Prop :=
  match nf with [] => True | (n, f) :: tl => u32_ok n /\ (tl <> [] -> f = true) /\ nf_ok tl end.
Lemma zlen_gnu_verdaux e f n : zlen (gnu_verdaux e f n) = 8.
Proof. unfold gnu_verdaux. rewrite zlen_app, !zlen_write_u. reflexivity. Qed.
Lemma zlen_abytes e nf : zlen (abytes e nf) = 8 * zlen nf.
Proof. induction nf as [|[n f] tl IH]; cbn [abytes]; [reflexivity|]. rewrite zlen_app, zlen_gnu_verdaux, zlen_cons, IH. lia. Qed.
Lemma bytes_ok_gnu_verdaux e f n : bytes_ok (gnu_verdaux e f n).
Proof. unfold gnu_verdaux. rewrite bytes_ok_app. split; apply bytes_ok_write_u. Qed.
Lemma bytes_ok_abytes e nf : bytes_ok (abytes e nf).
Proof. induction nf as [|[n f] tl IH]; cbn [abytes]; [constructor|]. rewrite bytes_ok_app. split; [apply bytes_ok_gnu_verdaux|exact IH]. Qed.
Lemma verdaux_of_enc e f n rest : u32_ok n -> verdaux_of e (gnu_verdaux e f n ++ rest) = {| vda_name := n; vda_next := if f then 8 else 0 |}.
Proof.
  intros Hn. unfold verdaux_of, gnu_verdaux. unfold u32_ok in Hn. destruct f; fld_norm; reflexivity.
Qed.
Lemma aux_read e nf1 : forall nf2 rest, bytes_ok rest -> nf_ok (nf1 ++ nf2) -> exists st,
  runs (verdaux_next e) (abytes e (nf1 ++ nf2) ++ rest, zlen nf1) (map (fun p : Z * bool => {| vda_name := fst p; vda_next := if snd p then 8 else 0 |}) nf1) false st.
Proof.
  induction nf1 as [|[n f] tl IH]; intros nf2 rest Hb Hok; cbn [app map fst snd].
  { eexists. apply runs_done. reflexivity. }
  cbn [app nf_ok] in Hok. destruct Hok as (Hn & Hf & Hok). destruct (IH nf2 rest Hb Hok) as (st & R).
  assert (Hp : verdaux_parse e ((gnu_verdaux e f n ++ abytes e (tl ++ nf2)) ++ rest) =
    (Ok {| vda_name := n; vda_next := if f then 8 else 0 |}, if f then abytes e (tl ++ nf2) ++ rest else (gnu_verdaux e f n ++ abytes e (tl ++ nf2)) ++ rest)).
  { rewrite <- app_assoc. set (r := abytes e (tl ++ nf2) ++ rest).
    assert (Hbr : bytes_ok (gnu_verdaux e f n ++ r)) by (unfold r; rewrite !bytes_ok_app; split; [apply bytes_ok_gnu_verdaux|split; [apply bytes_ok_abytes|exact Hb]]).
    pose proof (verdaux_parse_eq e _ Hbr) as H. cbv zeta in H. rewrite verdaux_of_enc in H by exact Hn. cbn [vda_next] in H.
    rewrite zlen_app, zlen_gnu_verdaux in H. pose proof (zlen_nonneg r). destruct f.
    - destruct (_ && _) eqn:E in H; [|lia]. rewrite H. f_equal. apply zdrop_app_eq. rewrite zlen_gnu_verdaux. reflexivity.
    - destruct (_ && _) eqn:E in H; [|lia]. rewrite H. f_equal. }
  destruct tl as [|p tl].
  - eexists. apply (runs_more _ _ (if f then abytes e nf2 ++ rest else (gnu_verdaux e f n ++ abytes e nf2) ++ rest, 0)); [|apply runs_done; reflexivity].
    cbn [app] in *. unfold verdaux_next. change (zlen [(n, f)]) with 1. cbn [Z.eqb abytes]. rewrite Hp. reflexivity.
  - rewrite Hf in * by (cbn; discriminate). exists st. eapply runs_more; [|exact R]. cbn [abytes]. unfold verdaux_next.
    pose proof (zlen_nonneg tl). change (zlen ((n, true) :: p :: tl)) with (zlen ([(n, true)] ++ p :: tl)). rewrite zlen_app. change (zlen [(n, true)]) with 1.
    assert (0 <= zlen (p :: tl)) by apply zlen_nonneg. destruct (Z.eqb_spec (1 + zlen (p :: tl)) 0); [lia|].
    cbn [app] in Hp |- *. rewrite Hp. unfold psub. destruct (Z.leb_spec 1 (1 + zlen (p :: tl))); [|lia]. repeat f_equal. lia.
Qed.

Definition hdr_ok (d : wverdef) := u16_ok (wd_version d) /\ u16_ok (wd_flags d) /\ u16_ok (wd_index d) /\ u16_ok (wd_aux_count d) /\ u32_ok (wd_hash d).
Lemma verdef_of_enc e d a n rest : hdr_ok d -> u32_ok a -> u32_ok n -> verdef_of e (verdef_bytes e d a n ++ rest) =
  {| vd_version := wd_version d; vd_flags := wd_flags d; vd_ndx := wd_index d; vd_cnt := wd_aux_count d; vd_hash := wd_hash d; vd_aux := a; vd_next := n |}.
Proof.
  intros (H1 & H2 & H3 & H4 & H5) Ha Hn. unfold verdef_of, verdef_bytes, u16_ok, u32_ok in *. fld_norm. reflexivity.
Qed.
Lemma zlen_verdef_bytes e d a n : zlen (verdef_bytes e d a n) = 20.
Proof. unfold verdef_bytes. rewrite !zlen_app, !zlen_write_u. reflexivity. Qed.
Lemma bytes_ok_verdef_bytes e d a n : bytes_ok (verdef_bytes e d a n).
Proof. unfold verdef_bytes. rewrite !bytes_ok_app. repeat split; apply bytes_ok_write_u. Qed.
Lemma verdef_read e d a n rest aux : hdr_ok d -> u32_ok a -> u32_ok n -> bytes_ok rest ->
  a <= 20 + zlen rest -> n <= 20 + zlen rest -> aux = zdrop a (verdef_bytes e d a n ++ rest) ->
  seq_next (verdef_parse e) (verdef_bytes e d a n ++ rest) =
  (Ok (Some ({| vd_version := wd_version d; vd_flags := wd_flags d; vd_ndx := wd_index d; vd_cnt := wd_aux_count d; vd_hash := wd_hash d; vd_aux := a; vd_next := n |},
     (aux, wd_aux_count d))), if n =? 0 then [] else zdrop n (verdef_bytes e d a n ++ rest)).
Proof.
  intros Hd Ha Hn Hb La Ln ->. set (data := verdef_bytes e d a n ++ rest).
  assert (Hbd : bytes_ok data) by (unfold data; rewrite bytes_ok_app; split; [apply bytes_ok_verdef_bytes|exact Hb]).
  assert (Ld : zlen data = 20 + zlen rest) by (unfold data; rewrite zlen_app, zlen_verdef_bytes; reflexivity).
  pose proof (verdef_parse_eq e data Hbd) as H. cbv zeta in H. assert (Ev := verdef_of_enc e d a n rest Hd Ha Hn). fold data in Ev. rewrite !Ev in H.
  cbn [vd_aux vd_next vd_cnt] in H. pose proof (zlen_nonneg rest).
  rewrite Ld in H. destruct (_ && _) eqn:E in H; [|lia]. unfold seq_next. destruct data eqn:Edd; [change (zlen (@nil Z)) with 0 in Ld; lia|].
  rewrite <- Edd in *. rewrite H. reflexivity.
Qed.

Fixpoint sec (e : endian) (l : list (bool * def_view * list bool)) : bytes :=
  match l with
  | [] => []
  | (sh, d, fl) :: tl =>
    if sh : bool then gnu_verdef_shared e (wverdef_of d) ++ sec e tl
    else verdef_bytes e (wverdef_of d) 20 (match tl with [] => 0 | _ => 20 + zlen (dv_names d) * 8 end) ++
         abytes e (combine (dv_names d) fl) ++ sec e tl
  end.
Definition own_ok (x : bool * def_view * list bool) : Prop :=
  fst (fst x) = false -> length (snd x) = length (dv_names (snd (fst x))) /\ nf_ok (combine (dv_names (snd (fst x))) (snd x)).
Definition reads_def' (e : endian) (it : verdef * aux_iter) (x : bool * def_view * list bool) : Prop :=
  let '(sh, d, fl) := x in reads_def e it d /\
  (sh = false -> exists auxs st, runs (verdaux_next e) (snd it) auxs false st /\ map vda_next auxs = map (fun f : bool => if f then 8 else 0) fl).
Lemma bytes_ok_sec e l : bytes_ok (sec e l).
Proof.
  induction l as [|[[sh d] fl] tl IH]; cbn [sec]; [constructor|]. destruct sh.
  - rewrite bytes_ok_app. split; [apply bytes_ok_verdef_bytes|exact IH].
  - rewrite !bytes_ok_app. split; [apply bytes_ok_verdef_bytes|]. split; [apply bytes_ok_abytes|exact IH].
Qed.
Lemma hdr_ok_of d : def_ok d -> hdr_ok (wverdef_of d).
Proof.
  intros (H1 & H2 & H3 & H4 & H5 & H6 & _). unfold hdr_ok, wverdef_of; cbn [wd_version wd_flags wd_index wd_aux_count wd_hash].
  split; [exact H1|]. split; [exact H2|]. split; [exact H3|]. split; [unfold u16_ok; pose proof (zlen_nonneg (dv_names d)); lia|exact H4].
Qed.
Lemma map_fst_combine {A B} (a : list A) (b : list B) : length b = length a -> map fst (combine a b) = a.
Proof. revert b; induction a as [|x a IH]; intros [|y b] H; cbn in *; try discriminate; [reflexivity|]. f_equal. apply IH. lia. Qed.
Lemma map_snd_combine {A B} (a : list A) (b : list B) : length b = length a -> map snd (combine a b) = b.
Proof. revert b; induction a as [|x a IH]; intros [|y b] H; cbn in *; try discriminate; [reflexivity|]. f_equal. apply IH. lia. Qed.
Lemma sec_read e l : Forall (fun x => def_ok (snd (fst x))) l -> items_wf (map fst l) -> Forall own_ok l ->
  exists its, runs (verdef_next e) (sec e l) its false [] /\ Forall2 (reads_def' e) its l.
Proof.
  induction l as [|[[sh d] fl] tl IH]; intros Hd Hw Ho.
  { exists []. split; [apply runs_done; reflexivity|constructor]. }
  pose proof (Forall_inv Hd) as Hd1. apply Forall_inv_tail in Hd. pose proof (Forall_inv Ho) as Ho1. apply Forall_inv_tail in Ho. cbn [fst snd] in Hd1.
  assert (Hw' : items_wf (map fst tl)).
  { cbn [map fst items_wf] in Hw. destruct sh; [|exact Hw]. destruct tl as [|[[[] d'] fl'] tl']; cbn [map fst] in *; [destruct Hw..|apply Hw]. }
  destruct (IH Hd Hw' Ho) as (its & R & F). pose proof (hdr_ok_of d Hd1) as Hh.
  pose proof Hd1 as (_ & _ & _ & _ & Hne & Hln & _). pose proof (zlen_nonneg (dv_names d)) as Hl0.
  cbn [sec]. destruct sh.
  - (* shared *)
    cbn [map fst items_wf] in Hw. destruct tl as [|[[[] d'] fl'] tl']; [destruct Hw..|]. cbn [map fst] in Hw. destruct Hw as ((more & Hmore) & _).
    cbn [sec] in R |- *. set (nx := match tl' with [] => 0 | _ => _ end) in *. set (h' := verdef_bytes e (wverdef_of d') 20 nx) in *.
    set (ab := abytes e (combine (dv_names d') fl')) in *. set (rest := sec e tl') in *.
    assert (Lh' : zlen h' = 20) by apply zlen_verdef_bytes.
    eexists. split.
    + eapply runs_more; [|exact R]. unfold verdef_next. unfold gnu_verdef_shared. rewrite (verdef_read e _ (2 * 20) 20 (h' ++ ab ++ rest) (ab ++ rest) Hh).
      * change (20 =? 0) with false. cbn iota. rewrite zdrop_app_eq by (rewrite zlen_verdef_bytes; reflexivity). reflexivity.
      * unfold u32_ok; lia.
      * unfold u32_ok; lia.
      * unfold h', ab, rest. rewrite !bytes_ok_app. split; [apply bytes_ok_verdef_bytes|]. split; [apply bytes_ok_abytes|apply bytes_ok_sec].
      * rewrite zlen_app. pose proof (zlen_nonneg (ab ++ rest)). lia.
      * pose proof (zlen_nonneg (h' ++ ab ++ rest)). lia.
      * rewrite app_assoc. symmetry. apply zdrop_app_eq. rewrite zlen_app, zlen_verdef_bytes. lia.
    + constructor; [|exact F]. split; [|discriminate]. cbn [reads_def vd_version vd_flags vd_ndx vd_hash vd_cnt wverdef_of wd_version wd_flags wd_index wd_hash wd_aux_count].
      repeat (split; [reflexivity|]). pose proof (Forall_inv Ho) as Ho'. unfold own_ok in Ho'. cbn [fst snd] in Ho'. destruct (Ho' eq_refl) as (Hfl & Hnf).
      set (nf := combine (dv_names d') fl') in *. set (k := length (dv_names d)).
      assert (Enf : nf = firstn k nf ++ skipn k nf) by (symmetry; apply firstn_skipn).
      assert (Efst : map fst (firstn k nf) = dv_names d).
      { rewrite <- firstn_map. unfold nf. rewrite map_fst_combine by assumption. rewrite <- Hmore. unfold k. rewrite firstn_app, Nat.sub_diag, firstn_all. cbn [firstn]. apply app_nil_r. }
      destruct (aux_read e (firstn k nf) (skipn k nf) rest) as (st & Ra); [apply bytes_ok_sec|rewrite <- Enf; exact Hnf|].
      rewrite <- Enf in Ra. exists (map (fun p : Z * bool => {| vda_name := fst p; vda_next := if snd p then 8 else 0 |}) (firstn k nf)), st. split.
      * unfold ab. replace (zlen (dv_names d)) with (zlen (firstn k nf)); [exact Ra|]. rewrite <- Efst, zlen_map. reflexivity.
      * rewrite map_map. cbn [vda_name]. exact Efst.
  - (* own names *)
    unfold own_ok in Ho1. cbn [fst snd] in Ho1. destruct (Ho1 eq_refl) as (Hfl & Hnf). set (nx := match tl with [] => 0 | _ => _ end) in *.
    set (nf := combine (dv_names d) fl) in *. assert (Lnf : zlen nf = zlen (dv_names d)) by (rewrite <- (map_fst_combine (dv_names d) fl Hfl), zlen_map; reflexivity).
    assert (Lab : zlen (abytes e nf) = 8 * zlen (dv_names d)) by (rewrite zlen_abytes; lia).
    assert (Hnx : nx = 0 \/ nx = 20 + zlen (dv_names d) * 8) by (unfold nx; destruct tl; auto).
    assert (Hnx' : nx = 0 -> tl = []) by (unfold nx; destruct tl; [auto|]; intro; lia).
    exists (({| vd_version := dv_version d; vd_flags := dv_flags d; vd_ndx := dv_index d; vd_cnt := zlen (dv_names d); vd_hash := dv_hash d; vd_aux := 20; vd_next := nx |}, (abytes e nf ++ sec e tl, zlen (dv_names d))) :: its).
    split.
    + eapply runs_more; [|exact R]. unfold verdef_next. rewrite (verdef_read e _ 20 nx (abytes e nf ++ sec e tl) (abytes e nf ++ sec e tl) Hh).
      * f_equal. destruct (Z.eqb_spec nx 0) as [E|E]; [rewrite (Hnx' E); reflexivity|]. destruct Hnx as [?|Hnx]; [contradiction|].
        rewrite app_assoc. apply zdrop_app_eq. rewrite zlen_app, zlen_verdef_bytes. lia.
      * unfold u32_ok; lia.
      * unfold u32_ok; lia.
      * rewrite bytes_ok_app. split; [apply bytes_ok_abytes|apply bytes_ok_sec].
      * pose proof (zlen_nonneg (abytes e nf ++ sec e tl)). lia.
      * rewrite zlen_app. pose proof (zlen_nonneg (sec e tl)). lia.
      * symmetry. apply zdrop_app_eq. rewrite zlen_verdef_bytes. reflexivity.
    + destruct (aux_read e nf [] (sec e tl)) as (st & Ra); [apply bytes_ok_sec|rewrite app_nil_r; exact Hnf|]. rewrite app_nil_r, Lnf in Ra.
      constructor; [|exact F]. split.
      * cbn [reads_def vd_version vd_flags vd_ndx vd_hash vd_cnt]. repeat (split; [reflexivity|]). eexists _, st. split; [exact Ra|]. rewrite map_map. cbn [vda_name]. apply map_fst_combine. exact Hfl.
      * intros _. eexists _, st. split; [exact Ra|]. rewrite map_map. cbn [vda_next]. rewrite <- (map_map snd (fun f : bool => if f then 8 else 0)). unfold nf. rewrite map_snd_combine by assumption. reflexivity.
Qed.
Definition wflags (d : def_view) : list bool := match dv_names d with [_] => [false] | l => map (fun _ => true) l end.
Definition annot (it : bool * def_view) : bool * def_view * list bool := (it, wflags (snd it)).
Lemma each_verdaux e names : forall w, zlen names < w_daux_rem w ->
  exists w', each (write_gnu_verdaux e) w names = Ok w' /\ w_buf w' = w_buf w ++ abytes e (map (fun n => (n, true)) names) /\ w_def_rem w' = w_def_rem w.
Proof.
  induction names as [|n names IH]; intros w Hw; cbn [each map abytes].
  { exists w. rewrite app_nil_r. auto. }
  rewrite zlen_cons in Hw. pose proof (zlen_nonneg names). unfold write_gnu_verdaux at 1. destruct (Z.eqb_spec (w_daux_rem w) 0); [lia|]. cbn [bind].
  destruct (Z.eqb_spec (w_daux_rem w - 1) 0); [lia|]. cbn [negb].
  edestruct IH as (w' & E & Eb & Er); [|rewrite E; exists w'; split; [reflexivity|]; rewrite Eb, Er; cbn [w_buf w_def_rem]; rewrite <- app_assoc; auto].
  cbn [w_daux_rem]. lia.
Qed.
Lemma user_item_ok e w it : def_ok (snd it) -> 0 < w_def_rem w -> (fst it = true -> 1 < w_def_rem w) ->
  exists w', user_item e w it = Ok w' /\ w_def_rem w' = w_def_rem w - 1 /\
    w_buf w' = w_buf w ++ if fst it then gnu_verdef_shared e (wverdef_of (snd it)) else
      verdef_bytes e (wverdef_of (snd it)) 20 (if w_def_rem w =? 1 then 0 else 20 + zlen (dv_names (snd it)) * 8) ++ abytes e (combine (dv_names (snd it)) (wflags (snd it))).
Proof.
  destruct it as [sh d]. cbn [fst snd]. intros (_ & _ & _ & _ & Hne & Hln & _) Hw Hs.
  assert (Hnz : zlen (dv_names d) <> 0) by (intro E; apply zlen_0_nil in E; contradiction).
  assert (Hc : wd_aux_count (wverdef_of d) = zlen (dv_names d)) by reflexivity.
  unfold user_item. cbn [fst snd]. destruct sh.
  - unfold write_gnu_verdef_shared. destruct (Z.eqb_spec (w_def_rem w) 0); [lia|]. destruct (Z.eqb_spec (w_def_rem w - 1) 0); [specialize (Hs eq_refl); lia|].
    rewrite Hc. destruct (Z.eqb_spec (zlen (dv_names d)) 0); [lia|]. eexists. split; [reflexivity|]. split; reflexivity.
  - unfold user_def, write_gnu_verdef. destruct (Z.eqb_spec (w_def_rem w) 0); [lia|]. rewrite Hc. destruct (Z.eqb_spec (zlen (dv_names d)) 0); [lia|]. cbn [bind].
    assert (Hb : negb (w_def_rem w - 1 =? 0) = negb (w_def_rem w =? 1)) by (destruct (Z.eqb_spec (w_def_rem w - 1) 0), (Z.eqb_spec (w_def_rem w) 1); try lia; reflexivity).
    rewrite Hb. destruct (dv_names d) as [|n1 names] eqn:En; [contradiction|]. cbn [tl].
    edestruct (each_verdaux e names) as (w' & E & Eb & Er); [|rewrite E; exists w'; split; [reflexivity|]; split; [rewrite Er; reflexivity|]].
    { cbn [w_daux_rem]. rewrite zlen_cons. lia. }
    rewrite Eb. cbn [w_buf]. rewrite <- app_assoc. f_equal. unfold gnu_verdef. rewrite Hc. rewrite <- !app_assoc.
    assert (Ev : wd_name (wverdef_of d) = n1) by (unfold wverdef_of; cbn [wd_name]; rewrite En; reflexivity). rewrite Ev.
    assert (Ewf : wflags d = match names with [] => [false] | _ => true :: map (fun _ => true) names end) by (unfold wflags; rewrite En; destruct names; reflexivity).
    assert (Eif : (if negb (w_def_rem w =? 1) then 20 + zlen (n1 :: names) * 8 else 0) = (if w_def_rem w =? 1 then 0 else 20 + zlen (n1 :: names) * 8)) by (destruct (w_def_rem w =? 1); reflexivity).
    rewrite Eif. f_equal. rewrite Ewf. destruct names as [|n2 names].
    + reflexivity.
    + change (combine (n1 :: n2 :: names) (true :: map (fun _ => true) (n2 :: names))) with ((n1, true) :: combine (n2 :: names) (map (fun _ => true) (n2 :: names))).
      cbn [abytes]. rewrite zlen_cons. pose proof (zlen_nonneg names). destruct (Z.ltb_spec 1 (1 + zlen (n2 :: names))); [|rewrite zlen_cons in *; lia].
      f_equal. f_equal. clear. induction (n2 :: names) as [|x l IH]; [reflexivity|]. cbn [map combine]. rewrite IH. reflexivity.
Qed.
Lemma each_user_item e l : forall w, Forall (fun it => def_ok (snd it)) l -> items_wf l -> w_def_rem w = zlen l ->
  exists w', each (user_item e) w l = Ok w' /\ w_buf w' = w_buf w ++ sec e (map annot l) /\ w_def_rem w' = 0.
Proof.
  induction l as [|it l IH]; intros w Hd Hw Hr; cbn [each map].
  { exists w. cbn [sec]. rewrite app_nil_r. auto. }
  pose proof (Forall_inv Hd) as Hd1. apply Forall_inv_tail in Hd. rewrite zlen_cons in Hr. pose proof (zlen_nonneg l).
  assert (Hw' : items_wf l /\ (fst it = true -> l <> [])).
  { destruct it as [[] d]; cbn [items_wf] in Hw; [|split; [exact Hw|discriminate]]. destruct l as [|[[] d'] l]; [destruct Hw..|]. split; [apply Hw|discriminate]. }
  destruct Hw' as [Hw' Hne].
  destruct (user_item_ok e w it Hd1) as (w1 & E & Er & Eb); [lia|intro Es; specialize (Hne Es); destruct l; [contradiction|rewrite zlen_cons in Hr; pose proof (zlen_nonneg l); lia]|].
  rewrite E. cbn [bind]. destruct (IH w1 Hd Hw') as (w' & E' & Eb' & Er'); [lia|]. exists w'. split; [exact E'|]. split; [|exact Er'].
  rewrite Eb', Eb. destruct it as [sh d]. cbn [sec annot fst snd]. unfold annot at 1. cbn [snd]. rewrite <- app_assoc. f_equal. destruct sh; [reflexivity|].
  rewrite <- !app_assoc. f_equal. destruct l as [|x l]; cbn [map]; [change (zlen (@nil (bool * def_view))) with 0 in Hr|rewrite zlen_cons in Hr; pose proof (zlen_nonneg l)];
    (destruct (Z.eqb_spec (w_def_rem w) 1); [lia || reflexivity|try lia; try reflexivity]).
Qed.
Lemma nf_ok_true l : Forall u32_ok l -> nf_ok (combine l (map (fun _ => true) l)).
Proof. induction 1; cbn [map combine nf_ok]; auto. Qed.
Lemma own_ok_annot it : def_ok (snd it) -> own_ok (annot it).
Proof.
  intros (_ & _ & _ & _ & _ & _ & H). unfold own_ok, annot, wflags. cbn [fst snd]. intros _. destruct (dv_names (snd it)) as [|n [|m l]] eqn:E.
  - split; [reflexivity|exact I].
  - split; [reflexivity|]. cbn [combine nf_ok]. split; [exact (Forall_inv H)|]. split; [tauto|exact I].
  - split; [rewrite map_length; reflexivity|apply nf_ok_true; exact H].
Qed.
Lemma zlen_sec e l : Forall own_ok l -> zlen (sec e l) = gnu_verdef_size (zlen l) (own_names (map fst l)).
Proof.
  unfold gnu_verdef_size. induction 1 as [|[[sh d] fl] l Ho _ IH]; cbn [sec map fst own_names]; [reflexivity|]. rewrite zlen_cons. destruct sh.
  - rewrite zlen_app, IH. unfold gnu_verdef_shared. rewrite zlen_verdef_bytes. lia.
  - rewrite !zlen_app, IH, zlen_verdef_bytes, zlen_abytes. unfold own_ok in Ho. cbn [fst snd] in Ho. destruct (Ho eq_refl) as [Hl _].
    rewrite <- (zlen_map fst), map_fst_combine by exact Hl. lia.
Qed.
Lemma verdef_roundtrip e buf l w : Forall (fun it => def_ok (snd it)) l -> items_wf l -> w_def_rem w = zlen l -> w_buf w = buf ->
  exists w' data its, each (user_item e) w l = Ok w' /\ w_buf w' = buf ++ data /\ w_def_rem w' = 0 /\
    zlen data = gnu_verdef_size (zlen l) (own_names l) /\
    runs (verdef_next e) data its false [] /\ Forall2 (reads_def e) its (map snd l).
Proof.
  intros Hd Hw Hr <-. destruct (each_user_item e l w Hd Hw Hr) as (w' & E & Eb & Er).
  assert (Ho : Forall own_ok (map annot l)) by (rewrite Forall_map; eapply Forall_impl; [|exact Hd]; intros; apply own_ok_annot; assumption).
  assert (Ef : map fst (map annot l) = l) by (rewrite map_map; apply map_id).
  destruct (sec_read e (map annot l)) as (its & R & F); [rewrite Forall_map; exact Hd|rewrite Ef; exact Hw|exact Ho|].
  exists w', (sec e (map annot l)), its. split; [exact E|]. split; [exact Eb|]. split; [exact Er|]. split; [rewrite zlen_sec, Ef, zlen_map by exact Ho; reflexivity|].
  split; [exact R|]. clear - F. revert its F. induction l as [|[sh d] l IH]; intros its F; inversion F; subst; cbn [map snd]; constructor; [|apply IH; assumption].
  match goal with H : reads_def' _ _ _ |- _ => apply H end.
Qed.
Fixpoint eflags (l : list Z) : list bool := match l with [] => [] | _ :: tl => match tl with [] => false | _ => true end :: eflags tl end.
Lemma length_eflags l : length (eflags l) = length l.
Proof. induction l; cbn [eflags length]; congruence. Qed.
Lemma enc_names_eq e l : enc_names e l = abytes e (combine l (eflags l)).
Proof. induction l as [|n l IH]; [reflexivity|]. cbn [enc_names eflags combine abytes]. rewrite IH. reflexivity. Qed.
Lemma nf_ok_eflags l : Forall u32_ok l -> nf_ok (combine l (eflags l)).
Proof.
  induction 1 as [|n l Hn Hl IH]; [exact I|]. cbn [eflags combine nf_ok]. split; [exact Hn|]. split; [|exact IH].
  destruct l; [cbn; tauto|reflexivity].
Qed.
Lemma enc_defs_eq e l : Forall def_ok l -> enc_defs e l = sec e (map (fun d => (false, d, eflags (dv_names d))) l).
Proof.
  induction 1 as [|d l (_ & _ & _ & _ & Hne & _) _ IH]; [reflexivity|]. cbn [enc_defs map sec]. rewrite IH. unfold gnu_verdef. rewrite <- !app_assoc.
  assert (Hc : wd_aux_count (wverdef_of d) = zlen (dv_names d)) by reflexivity. rewrite Hc. f_equal; [destruct l; reflexivity|]. rewrite app_assoc. f_equal.
  rewrite <- enc_names_eq. unfold wverdef_of; cbn [wd_name]. destruct (dv_names d) as [|n names]; [contradiction|]. cbn [hd tl enc_names]. f_equal. f_equal.
  rewrite zlen_cons. destruct names; [reflexivity|]. rewrite zlen_cons. pose proof (zlen_nonneg names). destruct (Z.ltb_spec 1 (1 + (1 + zlen names))); [reflexivity|lia].
Qed.
(** the distances written between auxiliary entries *)
Fixpoint links (l : list Z) : list Z := match l with [] => [] | _ :: tl => match tl with [] => 0 | _ => 8 end :: links tl end.
Lemma encoder_roundtrip e l : Forall def_ok l ->
  exists its, runs (verdef_next e) (enc_defs e l) its false [] /\
    Forall2 (fun it d => reads_def e it d /\ exists auxs st, runs (verdaux_next e) (snd it) auxs false st /\ map vda_next auxs = links (dv_names d)) its l.
Proof.
  intros Hd. rewrite enc_defs_eq by exact Hd.
  destruct (sec_read e (map (fun d => (false, d, eflags (dv_names d))) l)) as (its & R & F).
  - rewrite Forall_map. exact Hd.
  - rewrite map_map. cbn [fst]. clear. induction l; [exact I|exact IHl].
  - rewrite Forall_map. eapply Forall_impl; [|exact Hd]. intros d (_ & _ & _ & _ & _ & _ & H). unfold own_ok. cbn [fst snd]. intros _. split; [apply length_eflags|apply nf_ok_eflags; exact H].
  - exists its. split; [exact R|]. clear - F. revert its F. induction l as [|d l IH]; intros its F; inversion F as [|it ? its' ? H F']; subst; constructor; [|apply IH; assumption].
    destruct H as [H1 H2]. split; [exact H1|]. destruct (H2 eq_refl) as (auxs & st & Ra & El). exists auxs, st. split; [exact Ra|]. rewrite El. clear.
    induction (dv_names d) as [|n names IH]; [reflexivity|]. cbn [eflags map links]. rewrite IH. destruct names; reflexivity.
Qed.

(** ** Needs *)
Fixpoint nbytes (e : endian) (l : list naux_view) : bytes :=
  match l with [] => [] | a :: tl => gnu_vernaux e (match tl with [] => false | _ => true end) (wvernaux_of a) ++ nbytes e tl end.
Lemma zlen_gnu_vernaux e f a : zlen (gnu_vernaux e f a) = 16.
Proof. unfold gnu_vernaux. rewrite !zlen_app, !zlen_write_u. reflexivity. Qed.
Lemma bytes_ok_gnu_vernaux e f a : bytes_ok (gnu_vernaux e f a).
Proof. unfold gnu_vernaux. rewrite !bytes_ok_app. repeat split; apply bytes_ok_write_u. Qed.
Lemma bytes_ok_nbytes e l : bytes_ok (nbytes e l).
Proof. induction l; cbn [nbytes]; [constructor|]. rewrite bytes_ok_app. split; [apply bytes_ok_gnu_vernaux|assumption]. Qed.
Lemma zlen_nbytes e l : zlen (nbytes e l) = 16 * zlen l.
Proof. induction l; cbn [nbytes]; [reflexivity|]. rewrite zlen_app, zlen_gnu_vernaux, zlen_cons, IHl. lia. Qed.
Definition raw_naux (f : bool) (a : naux_view) : vernaux :=
  {| vna_hash := nv_hash a; vna_flags := nv_flags a; vna_other := nv_index a; vna_name := nv_name a; vna_next := if f then 16 else 0 |}.
Lemma vernaux_of_enc e f a rest : naux_ok a -> vernaux_of e (gnu_vernaux e f (wvernaux_of a) ++ rest) = raw_naux f a.
Proof.
  intros (H1 & H2 & H3 & H4). unfold vernaux_of, gnu_vernaux, wvernaux_of, raw_naux. cbn [wa_hash wa_flags wa_index wa_name].
  unfold u16_ok, u32_ok in *. destruct f; fld_norm; reflexivity.
Qed.
Lemma naux_read e l : forall rest, bytes_ok rest -> Forall naux_ok l -> exists auxs st,
  runs (vernaux_next e) (nbytes e l ++ rest, zlen l) auxs false st /\
  map (fun x => {| nv_flags := vna_flags x; nv_index := vna_other x; nv_name := vna_name x; nv_hash := vna_hash x |}) auxs = l /\ map vna_next auxs = nlinks l.
Proof.
  induction l as [|a l IH]; intros rest Hb Hok.
  { exists []. eexists. split; [apply runs_done; reflexivity|split; reflexivity]. }
  pose proof (Forall_inv Hok) as Ha. apply Forall_inv_tail in Hok. destruct (IH rest Hb Hok) as (auxs & st & R & M & M').
  cbn [nbytes]. set (f := match l with [] => false | _ => true end). rewrite <- app_assoc. set (r := nbytes e l ++ rest) in *.
  assert (Hbr : bytes_ok (gnu_vernaux e f (wvernaux_of a) ++ r)) by (unfold r; rewrite !bytes_ok_app; split; [apply bytes_ok_gnu_vernaux|split; [apply bytes_ok_nbytes|exact Hb]]).
  pose proof (vernaux_parse_eq e _ Hbr) as H. cbv zeta in H. rewrite vernaux_of_enc in H by exact Ha. rewrite zlen_app, zlen_gnu_vernaux in H. pose proof (zlen_nonneg r).
  assert (Hif : (16 <=? 16 + zlen r) && (vna_next (raw_naux f a) <=? 16 + zlen r) = true) by (cbn [raw_naux vna_next]; destruct f; lia).
  rewrite Hif in H.
  assert (Hn : vernaux_next e (gnu_vernaux e f (wvernaux_of a) ++ r, zlen (a :: l)) =
     (Ok (Some (raw_naux f a)), (zdrop (vna_next (raw_naux f a)) (gnu_vernaux e f (wvernaux_of a) ++ r), zlen l))).
  { unfold vernaux_next. rewrite zlen_cons. pose proof (zlen_nonneg l). destruct (Z.eqb_spec (1 + zlen l) 0); [lia|]. rewrite H. unfold psub. destruct (Z.leb_spec 1 (1 + zlen l)); [|lia].
    repeat f_equal. lia. }
  destruct l as [|a2 l].
  - exists [raw_naux f a]. eexists. split; [eapply runs_more; [exact Hn|apply runs_done; reflexivity]|]. destruct a; split; reflexivity.
  - exists (raw_naux f a :: auxs), st. split; [|cbn [map]; rewrite M, M'; destruct a; split; reflexivity]. eapply runs_more; [exact Hn|]. unfold f at 1. cbn [raw_naux vna_next].
    rewrite zdrop_app_eq by (rewrite zlen_gnu_vernaux; reflexivity). exact R.
Qed.
Fixpoint nsec (e : endian) (l : list need_view) : bytes :=
  match l with [] => [] | n :: tl => gnu_verneed e (match tl with [] => false | _ => true end) (wverneed_of n) ++ nbytes e (nd_auxs n) ++ nsec e tl end.
Lemma zlen_gnu_verneed e f n : zlen (gnu_verneed e f n) = 16.
Proof. unfold gnu_verneed. rewrite !zlen_app, !zlen_write_u. reflexivity. Qed.
Lemma bytes_ok_gnu_verneed e f n : bytes_ok (gnu_verneed e f n).
Proof. unfold gnu_verneed. rewrite !bytes_ok_app. repeat split; apply bytes_ok_write_u. Qed.
Lemma bytes_ok_nsec e l : bytes_ok (nsec e l).
Proof. induction l; cbn [nsec]; [constructor|]. rewrite !bytes_ok_app. split; [apply bytes_ok_gnu_verneed|]. split; [apply bytes_ok_nbytes|assumption]. Qed.
Lemma verneed_of_enc e f n rest : u16_ok (nd_version n) -> u32_ok (nd_file n) -> zlen (nd_auxs n) < 2 ^ 16 ->
  verneed_of e (gnu_verneed e f (wverneed_of n) ++ rest) =
  {| vn_version := nd_version n; vn_cnt := zlen (nd_auxs n); vn_file := nd_file n; vn_aux := if zlen (nd_auxs n) =? 0 then 0 else 16;
     vn_next := if f then 16 + zlen (nd_auxs n) * 16 else 0 |}.
Proof.
  intros H1 H2 H3. unfold verneed_of, gnu_verneed, wverneed_of. cbn [wn_version wn_aux_count wn_file]. unfold u16_ok, u32_ok in *.
  pose proof (zlen_nonneg (nd_auxs n)). set (c := zlen (nd_auxs n)) in *. clearbody c.
  destruct (Z.eqb_spec c 0); cbn [negb]; destruct f; fld_norm; reflexivity.
Qed.
Lemma nsec_read e l : Forall need_ok l -> exists its, runs (verneed_next e) (nsec e l) its false [] /\ Forall2 (reads_need e) its l.
Proof.
  induction l as [|n l IH]; intros Hok.
  { exists []. split; [apply runs_done; reflexivity|constructor]. }
  pose proof (Forall_inv Hok) as (H1 & H2 & H3 & H4). apply Forall_inv_tail in Hok. destruct (IH Hok) as (its & R & F).
  cbn [nsec]. set (f := match l with [] => false | _ => true end). set (ab := nbytes e (nd_auxs n)). set (rest := nsec e l) in *.
  set (hd := gnu_verneed e f (wverneed_of n)). assert (Lh : zlen hd = 16) by apply zlen_gnu_verneed. assert (La : zlen ab = 16 * zlen (nd_auxs n)) by apply zlen_nbytes.
  assert (Hb : bytes_ok (hd ++ ab ++ rest)) by (unfold hd, ab, rest; rewrite !bytes_ok_app; split; [apply bytes_ok_gnu_verneed|split; [apply bytes_ok_nbytes|apply bytes_ok_nsec]]).
  pose proof (verneed_parse_eq e _ Hb) as H. cbv zeta in H. assert (Ev := verneed_of_enc e f n (ab ++ rest) H1 H2 H3). fold hd in Ev. rewrite Ev in H. cbn [vn_aux vn_next vn_cnt] in H.
  rewrite !zlen_app, Lh, La in H. pose proof (zlen_nonneg rest). pose proof (zlen_nonneg (nd_auxs n)).
  assert (Hif : (16 <=? 16 + (16 * zlen (nd_auxs n) + zlen rest)) && ((if zlen (nd_auxs n) =? 0 then 0 else 16) <=? 16 + (16 * zlen (nd_auxs n) + zlen rest)) &&
     ((if f then 16 + zlen (nd_auxs n) * 16 else 0) <=? 16 + (16 * zlen (nd_auxs n) + zlen rest)) = true) by (destruct (zlen (nd_auxs n) =? 0), f; lia).
  rewrite Hif in H.
  eexists (_ :: its). split.
  - eapply runs_more; [|exact R]. unfold verneed_next, seq_next. destruct (hd ++ ab ++ rest) eqn:Ed; [apply (f_equal zlen) in Ed; rewrite !zlen_app in Ed; change (zlen (@nil Z)) with 0 in Ed; pose proof (zlen_nonneg ab); lia|].
    rewrite <- Ed in *. rewrite H. f_equal. unfold f, rest. destruct l as [|n2 l]; [reflexivity|].
    destruct (Z.eqb_spec (16 + zlen (nd_auxs n) * 16) 0); [lia|]. rewrite app_assoc. apply zdrop_app_eq. rewrite zlen_app. lia.
  - constructor; [|exact F]. cbn [reads_need vn_version vn_file vn_cnt]. repeat (split; [reflexivity|]).
    destruct (Z.eqb_spec (zlen (nd_auxs n)) 0) as [E0|E0].
    + rewrite E0. apply zlen_0_nil in E0. rewrite E0. exists []. eexists. split; [apply runs_done; reflexivity|split; reflexivity].
    + rewrite zdrop_app_eq by lia. apply naux_read; [apply bytes_ok_nsec|exact H4].
Qed.
Lemma each_vernaux e l : forall w, w_naux_rem w = zlen l \/ l = [] ->
  exists w', each (fun w a => write_gnu_vernaux e w (wvernaux_of a)) w l = Ok w' /\ w_buf w' = w_buf w ++ nbytes e l /\ w_need_rem w' = w_need_rem w.
Proof.
  induction l as [|n l IH]; intros w Hw; cbn [each nbytes].
  { exists w. rewrite app_nil_r. auto. }
  destruct Hw as [Hw|Hw]; [|discriminate]. rewrite zlen_cons in Hw. pose proof (zlen_nonneg l). unfold write_gnu_vernaux at 1. destruct (Z.eqb_spec (w_naux_rem w) 0); [lia|]. cbn [bind].
  edestruct IH as (w' & E & Eb & Er); [|rewrite E; exists w'; split; [reflexivity|]; rewrite Eb, Er; cbn [w_buf w_need_rem]; rewrite <- app_assoc; split; [|reflexivity]].
  { cbn [w_naux_rem]. left. lia. }
  do 3 f_equal. destruct l; [change (zlen (@nil naux_view)) with 0 in Hw|rewrite zlen_cons in Hw; pose proof (zlen_nonneg l)]; destruct (Z.eqb_spec (w_naux_rem w - 1) 0); try lia; reflexivity.
Qed.
Lemma each_user_need e l : forall w, w_need_rem w = zlen l ->
  exists w', each (user_need e) w l = Ok w' /\ w_buf w' = w_buf w ++ nsec e l /\ w_need_rem w' = 0.
Proof.
  induction l as [|n l IH]; intros w Hr; cbn [each nsec].
  { exists w. rewrite app_nil_r. auto. }
  rewrite zlen_cons in Hr. pose proof (zlen_nonneg l). pose proof (zlen_nonneg (nd_auxs n)).
  unfold user_need at 1, write_gnu_verneed. destruct (Z.eqb_spec (w_need_rem w) 0); [lia|]. cbn [bind].
  edestruct (each_vernaux e (nd_auxs n)) as (w1 & E1 & Eb1 & Er1); [|rewrite E1; cbn [bind]].
  { cbn [w_naux_rem wverneed_of wn_aux_count]. destruct (Z.eqb_spec (zlen (nd_auxs n)) 0) as [E0|]; cbn [negb]; [right; apply zlen_0_nil; exact E0|left; reflexivity]. }
  destruct (IH w1) as (w' & E & Eb & Er); [rewrite Er1; cbn [w_need_rem]; lia|]. exists w'. split; [exact E|]. split; [|exact Er].
  rewrite Eb, Eb1. cbn [w_buf]. rewrite <- !app_assoc. do 3 f_equal.
  destruct l; [change (zlen (@nil need_view)) with 0 in Hr|rewrite zlen_cons in Hr; pose proof (zlen_nonneg l)]; destruct (Z.eqb_spec (w_need_rem w - 1) 0); try lia; reflexivity.
Qed.
Lemma zlen_nsec e l : zlen (nsec e l) = gnu_verneed_size (zlen l) (all_auxs l).
Proof.
  unfold gnu_verneed_size. induction l as [|n l IH]; cbn [nsec all_auxs]; [reflexivity|]. rewrite !zlen_app, zlen_gnu_verneed, zlen_nbytes, IH, zlen_cons. lia.
Qed.
Lemma verneed_roundtrip e buf l w : Forall need_ok l -> w_need_rem w = zlen l -> w_buf w = buf ->
  exists w' data its, each (user_need e) w l = Ok w' /\ w_buf w' = buf ++ data /\ w_need_rem w' = 0 /\
    zlen data = gnu_verneed_size (zlen l) (all_auxs l) /\
    runs (verneed_next e) data its false [] /\ Forall2 (reads_need e) its l.
Proof.
  intros Hd Hr <-. destruct (each_user_need e l w Hr) as (w' & E & Eb & Er). destruct (nsec_read e l Hd) as (its & R & F).
  exists w', (nsec e l), its. split; [exact E|]. split; [exact Eb|]. split; [exact Er|]. split; [apply zlen_nsec|auto].
Qed.
Lemma land_pow2 v k : 0 <= k -> Z.land v (2 ^ k) = if Z.testbit v k then 2 ^ k else 0.
Proof.
  intros Hk. apply Z.bits_inj'. intros n Hn. rewrite Z.land_spec, Z.pow2_bits_eqb by lia.
  destruct (Z.eqb_spec k n) as [<-|Hne].
  - rewrite andb_true_r. destruct (Z.testbit v k); [rewrite Z.pow2_bits_eqb, Z.eqb_refl by lia; reflexivity|rewrite Z.bits_0; reflexivity].
  - rewrite andb_false_r. destruct (Z.testbit v k); [rewrite Z.pow2_bits_eqb by lia; destruct (Z.eqb_spec k n); [lia|reflexivity]|rewrite Z.bits_0; reflexivity].
Qed.
Lemma hidden_bit v : 0 <= v < 2 ^ 16 -> versym_is_hidden v = (2 ^ 15 <=? v).
Proof.
  intros Hv. unfold versym_is_hidden. change 32768 with (2 ^ 15).
  rewrite land_pow2 by lia. destruct (Z.testbit v 15) eqn:E.
  - rewrite Z.testbit_eqb in E by lia. apply Z.eqb_eq in E. destruct (Z.leb_spec (2 ^ 15) v) as [?|H]; [reflexivity|].
    rewrite Z.div_small in E by lia. cbn in E. discriminate.
  - rewrite Z.testbit_eqb in E by lia. apply Z.eqb_neq in E. destruct (Z.leb_spec (2 ^ 15) v) as [H|?]; [|reflexivity].
    exfalso. apply E. replace (v / 2 ^ 15) with 1; [reflexivity|]. apply Z.div_unique with (v - 2 ^ 15); lia.
Qed.
Lemma matches_spec t sym need : Forall u16_ok (vt_symbols t) ->
  let v := match zget (vt_symbols t) sym with Some v => v | None => 1 end in
  vt_matches t sym need = true <-> exists def, vt_version t (v mod 2 ^ 15) = Ok def /\
    match def, need with
    | Some def, Some need => v_hash need = v_hash def /\ v_name need = v_name def
    | None, Some _ => False
    | Some _, None => v < 2 ^ 15
    | None, None => True
    end.
Proof.
  intros Hs v. unfold vt_matches, vt_version_index. fold v. rewrite versym_index_mod.
  assert (Hv : 0 <= v < 2 ^ 16).
  { unfold v. destruct (zget (vt_symbols t) sym) eqn:E; [|lia]. apply zget_In in E. rewrite Forall_forall in Hs. exact (Hs _ E). }
  rewrite hidden_bit by exact Hv.
  destruct (vt_version t (v mod 2 ^ 15)) as [def| |]; [|split; [discriminate|intros (? & ? & _); discriminate]..].
  split.
  - intros H. exists def. split; [reflexivity|]. destruct def, need; try discriminate; [|lia|exact I].
    apply andb_true_iff in H as [H1 H2]. apply bytes_eqb_eq in H2. split; [lia|exact H2].
  - intros (d & E & H). inversion E; subst d. destruct def, need; try contradiction; [|destruct (Z.leb_spec (2 ^ 15) v); [lia|reflexivity]|reflexivity].
    destruct H as [-> ->]. rewrite Z.eqb_refl, bytes_eqb_refl. reflexivity.
Qed.
