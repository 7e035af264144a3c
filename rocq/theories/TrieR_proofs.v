(** Exports tries: iteration *)
From Verif Require Import Core_proofs Util_proofs File_proofs Ar_proofs ArSym_proofs Rel_proofs.
From Verif Require Import Trie_spec Trie_proofs.

Fixpoint somes {A} (l : list (option A)) : list A := match l with [] => [] | Some x :: l => x :: somes l | None :: l => somes l end.
Lemma somes_app {A} (a b : list (option A)) : somes (a ++ b) = somes a ++ somes b.
Proof. induction a as [|[x|] a IH]; cbn [somes app]; [reflexivity|rewrite IH; reflexivity|exact IH]. Qed.
Fixpoint child_exports (name : bytes) (l : list (bytes * trie)) : list tsym :=
  match l with [] => [] | (s, t) :: l => trie_exports (name ++ s) t ++ child_exports name l end.
Definition own (name : bytes) (e : option (Z * tdata)) : option tsym := option_map (fun '(flags, x) => {| ts_name := name; ts_flags := flags; ts_data := x |}) e.
Lemma exports_eq name e ch : trie_exports name (Node e ch) = somes [own name e] ++ child_exports name ch.
Proof.
  cbn [trie_exports]. f_equal; [destruct e as [[? ?]|]; reflexivity|]. induction ch as [|[s t] ch IH]; [reflexivity|]. cbn [child_exports]. rewrite IH. reflexivity.
Qed.
Lemma runs_same {S A} (next : S -> out (option A) * S) s1 s2 l e st : next s1 = next s2 -> runs next s2 l e st -> runs next s1 l e st.
Proof. intros E R. destruct R as [s s' H|s s' H|s s1' s' x l e H R]; [apply runs_done|apply runs_err|eapply runs_more; [|exact R]]; congruence. Qed.
Lemma pigeon (l : list Z) n : 0 <= n -> NoDup l -> Forall (fun x => 0 <= x < n) l -> zlen l <= n.
Proof.
  intros Hn N F. unfold zlen. assert (I : incl l (map Z.of_nat (seq 0 (Z.to_nat n)))).
  { intros x Hx. rewrite Forall_forall in F. apply F in Hx. apply in_map_iff. exists (Z.to_nat x). split; [lia|]. apply in_seq. lia. }
  apply (NoDup_incl_length N) in I. rewrite map_length, seq_length in I. lia.
Qed.

Section trie.
Context (D : bytes) (HD : bytes_ok D) (HL : zlen D < 2 ^ 63).
Definition at_stack (stack : list tframe) (name : bytes) : nodeit := {| ni_first := false; ni_stack := stack; ni_name := name |}.
Lemma next_eq stack name : node_next D (at_stack stack name) = node_loop D stack name.
Proof. reflexivity. Qed.
Lemma push_eq stack name o : push_node D (at_stack stack name) o =
  match node_parse D o with
  | Ok (e, n, d) => (Ok (own name e), at_stack ({| fr_data := d; fr_offset := o; fr_left := n; fr_len := zlen name |} :: stack) name)
  | Err => (Err, at_stack stack name)
  | Panic => (Panic, at_stack stack name)
  end.
Proof. reflexivity. Qed.
Definition frame_ok (f : tframe) (tl : list tframe) : Prop :=
  NoDup (map fr_offset (f :: tl)) /\ Forall (fun x => 0 <= x < zlen D) (map fr_offset (f :: tl)) /\ bytes_ok (fr_data f) /\ 0 <= fr_left f < 256 /\
  (forall o, edge_at (fr_data f) (fr_left f) o -> child_of D (fr_offset f) o) /\ (forall g, In g tl -> way D (fr_offset g) (fr_offset f)).
Lemma run_frame m : forall f tl name P, ztake (fr_len f) name = P -> zlen P = fr_len f -> frame_ok f tl -> zlen D <= Z.of_nat m + zlen (f :: tl) ->
  exists l (e : bool), zlen l <= fr_left f * 256 ^ Z.of_nat m /\
    if e then (exists st', runs (node_next D) (at_stack (f :: tl) name) l true st') /\ (forall ch, edges D (fr_data f) ch -> zlen ch <> fr_left f)
    else (forall l2 e2 st2, runs (node_next D) (at_stack tl P) l2 e2 st2 -> runs (node_next D) (at_stack (f :: tl) name) (l ++ l2) e2 st2) /\
         exists ch, edges D (fr_data f) ch /\ zlen ch = fr_left f /\ somes l = child_exports P ch.
Proof.
  induction m as [m IHm] using (well_founded_induction Nat.lt_wf_0). intros f tl name P EP LP OK HM. remember (Z.to_nat (fr_left f)) as n eqn:En.
  revert f tl name P EP LP OK HM En. induction n as [|n IHn]; intros f tl name P EP LP OK HM En; pose proof OK as (OK1 & OK2 & OK3 & OK4 & OK5 & OK6).
  - assert (Z0 : fr_left f = 0) by lia. exists [], false. rewrite Z0. split; [reflexivity|]. split.
    + intros l2 e2 st2 R. cbn [app]. apply (runs_same _ _ (at_stack tl P)); [|exact R]. rewrite !next_eq. cbn [node_loop]. rewrite Z0, EP. reflexivity.
    + exists []. split; [constructor|]. split; reflexivity.
  - assert (Hp : 0 < fr_left f) by lia. assert (P256 : 0 < 256 ^ Z.of_nat m) by (apply Z.pow_pos_nonneg; lia).
    assert (EL : node_next D (at_stack (f :: tl) name) =
      match b_read_string (fr_data f) with
      | (Ok s, d) => match read_uleb128 d with
        | (Ok o, d) => let st := at_stack ({| fr_data := d; fr_offset := fr_offset f; fr_left := fr_left f - 1; fr_len := fr_len f |} :: tl) (P ++ s) in
          if existsb (fun g => fr_offset g =? o) (ni_stack st) then (Err, st) else let '(r, st) := push_node D st o in (x <- r ;; Ok (Some x), st)
        | (Err, d) => (Err, at_stack ({| fr_data := d; fr_offset := fr_offset f; fr_left := fr_left f; fr_len := fr_len f |} :: tl) P)
        | (Panic, d) => (Panic, at_stack ({| fr_data := d; fr_offset := fr_offset f; fr_left := fr_left f; fr_len := fr_len f |} :: tl) P)
        end
      | (Err, d) => (Err, at_stack ({| fr_data := d; fr_offset := fr_offset f; fr_left := fr_left f; fr_len := fr_len f |} :: tl) P)
      | (Panic, d) => (Panic, at_stack ({| fr_data := d; fr_offset := fr_offset f; fr_left := fr_left f; fr_len := fr_len f |} :: tl) P)
      end).
    { rewrite next_eq. cbn [node_loop]. rewrite EP. destruct (Z.eqb_spec (fr_left f) 0); [lia|]. reflexivity. }
    assert (fail : forall st', node_next D (at_stack (f :: tl) name) = (Err, st') -> (forall s x o t ch d, edge (fr_data f) s o d -> encodes D o t -> fr_data f = s ++ 0 :: x ++ d -> uleb_bytes x o -> edges D d ch -> False) ->
      exists l (e : bool), zlen l <= fr_left f * 256 ^ Z.of_nat m /\
        if e then (exists st', runs (node_next D) (at_stack (f :: tl) name) l true st') /\ (forall ch, edges D (fr_data f) ch -> zlen ch <> fr_left f)
        else (forall l2 e2 st2, runs (node_next D) (at_stack tl P) l2 e2 st2 -> runs (node_next D) (at_stack (f :: tl) name) (l ++ l2) e2 st2) /\
             exists ch, edges D (fr_data f) ch /\ zlen ch = fr_left f /\ somes l = child_exports P ch).
    { intros st' E N. exists [], true. change (zlen (@nil (option tsym))) with 0. split; [nia|]. split; [exists st'; apply runs_err; exact E|].
      intros ch Hc Lc. inversion Hc as [d Ed|s x o t ch' d N0 U Ht Hd Ed]; subst ch; [change (zlen (@nil (bytes * trie))) with 0 in Lc; lia|]. apply (N s x o t ch' d); try assumption; [|congruence]. split; [exact N0|]. exists x. split; [exact U|congruence]. }
    destruct (string_cases (fr_data f)) as [(s & r & Es & Ed & Ns)|(r & Es & Ns)]; rewrite Es in EL.
    2: { eapply fail; [exact EL|]. intros s x o t ch d _ _ E _ _. apply Ns. rewrite E. apply in_app_iff. right. left. reflexivity. }
    assert (Hr : bytes_ok r) by (rewrite Ed in OK3; apply bytes_ok_app in OK3 as [_ OK3]; inversion OK3; assumption).
    destruct (uleb_cases r Hr) as [(o & d & Eu)|(d & Eu)]; rewrite Eu in EL.
    2: { eapply fail; [exact EL|]. intros s' x o t ch d' (N' & _) _ E U _. pose proof (b_read_string_app s' (x ++ d') N') as B. rewrite <- E, Es in B. injection B as -> ->. rewrite (uleb_app x o d' Hr U) in Eu. discriminate. }
    apply uleb_iff in Eu as (x & Er & U); [|exact Hr]. assert (Hd : bytes_ok d) by (rewrite Er in Hr; apply bytes_ok_app in Hr as [_ Hr]; exact Hr).
    assert (ED : edge (fr_data f) s o d) by (split; [exact Ns|]; exists x; split; [exact U|congruence]).
    assert (Ho : 0 <= o) by exact (uleb_denotes_nonneg _ _ (proj1 U)).
    assert (CO : child_of D (fr_offset f) o) by (apply OK5; eapply ea_here; [exact Hp|exact ED]).
    cbv zeta in EL. set (f' := {| fr_data := d; fr_offset := fr_offset f; fr_left := fr_left f - 1; fr_len := fr_len f |}) in *.
    change (ni_stack (at_stack (f' :: tl) (P ++ s))) with (f' :: tl) in EL.
    destruct (existsb (fun g => fr_offset g =? o) (f' :: tl)) eqn:Ex.
    { eapply fail; [exact EL|]. intros s' x' o' t ch d' E' Ht _ _ _. destruct (edge_unique _ _ _ _ _ _ _ ED E') as (<- & <- & <-). apply existsb_exists in Ex as (g & Hg & Eg). apply Z.eqb_eq in Eg.
      apply (no_cycle D HD HL o t); [|exact Ht]. destruct Hg as [<-|Hg]; [change (fr_offset f') with (fr_offset f) in Eg; rewrite <- Eg; apply way_1; rewrite Eg at 2; exact CO|]. rewrite <- Eg at 1. eapply way_last; [exact (OK6 g Hg)|exact CO]. }
    assert (Nin : ~ In o (map fr_offset (f :: tl))).
    { intro Hin. apply in_map_iff in Hin as (g & Eg & Hg). assert (existsb (fun g => fr_offset g =? o) (f' :: tl) = true); [|congruence]. apply existsb_exists. destruct Hg as [<-|Hg]; [exists f'; split; [left; reflexivity|apply Z.eqb_eq; exact Eg]|exists g; split; [right; exact Hg|apply Z.eqb_eq; exact Eg]]. }
    rewrite push_eq in EL. destruct (node_parse D o) as [[[e nn] dd]| |] eqn:En'; cbn [bind] in EL.
    2: { eapply fail; [exact EL|]. intros s' x' o' t ch d' E' Ht _ _ _. destruct (edge_unique _ _ _ _ _ _ _ ED E') as (<- & <- & <-). inversion Ht as [? ? ? ? Hh _]; subst. apply node_iff in Hh; [congruence|exact HD|exact Ho]. }
    2: { exfalso. exact (node_np D HD o En'). }
    apply node_iff in En'; [|exact HD|exact Ho]. pose proof (head_bound D HD HL _ _ _ _ En') as (B1 & B2 & B3).
    set (g := {| fr_data := dd; fr_offset := o; fr_left := nn; fr_len := zlen (P ++ s) |}) in *.
    assert (OKg : frame_ok g (f' :: tl)).
    { split; [|split; [|split; [exact B3|split; [exact B2|split]]]].
      - change (NoDup (o :: map fr_offset (f :: tl))). constructor; assumption.
      - change (Forall (fun x => 0 <= x < zlen D) (o :: map fr_offset (f :: tl))). constructor; assumption.
      - intros o' Ho'. exists e, nn, dd. split; assumption.
      - intros h [<-|Hh]; [apply way_1; exact CO|]. eapply way_last; [exact (OK6 h Hh)|exact CO]. }
    assert (Lst : zlen (g :: f' :: tl) = 1 + zlen (f :: tl)) by (rewrite !zlen_cons; reflexivity).
    assert (Mpos : (0 < m)%nat).
    { destruct OKg as (N & F & _). pose proof (pigeon _ (zlen D) (zlen_nonneg D) N F) as Pg. assert (zlen (map fr_offset (g :: f' :: tl)) = zlen (g :: f' :: tl)) by (unfold zlen; rewrite map_length; reflexivity). lia. }
    assert (Eg : ztake (fr_len g) (P ++ s) = P ++ s) by (apply ztake_all; cbn [fr_len g]; lia).
    destruct (IHm (m - 1)%nat ltac:(lia) g (f' :: tl) (P ++ s) (P ++ s) Eg eq_refl OKg ltac:(lia)) as (lg & eg & Bg & Rg).
    assert (Pm : 256 ^ Z.of_nat m = 256 * 256 ^ Z.of_nat (m - 1)) by (replace (Z.of_nat m) with (1 + Z.of_nat (m - 1)) by lia; rewrite Z.pow_add_r by lia; reflexivity).
    assert (P256' : 0 < 256 ^ Z.of_nat (m - 1)) by (apply Z.pow_pos_nonneg; lia).
    change (fr_left g) with nn in Bg. change (fr_data g) with dd in Rg. change (fr_left g) with nn in Rg.
    assert (Bg' : 1 + zlen lg <= 256 ^ Z.of_nat m) by nia.
    destruct eg.
    + destruct Rg as [(st' & Rg) Ng]. exists (own (P ++ s) e :: lg), true. rewrite zlen_cons. split; [nia|]. split; [exists st'; eapply runs_more; [exact EL|exact Rg]|].
      intros ch Hc Lc. inversion Hc as [d0 Ed0|s' x' o' t ch' d' N0 U' Ht Hd' Ed']; subst ch; [change (zlen (@nil (bytes * trie))) with 0 in Lc; lia|].
      assert (E' : edge (fr_data f) s' o' d') by (split; [exact N0|]; exists x'; split; [exact U'|congruence]). destruct (edge_unique _ _ _ _ _ _ _ ED E') as (<- & <- & <-).
      inversion Ht as [? e1 ch1 d1 Hh Hc1]; subst. destruct (head_unique D HD HL _ _ _ _ _ _ _ En' Hh) as (_ & -> & ->). exact (Ng _ Hc1 eq_refl).
    + destruct Rg as [Rg (chg & Hcg & Lcg & Sg)].
      assert (OKf' : frame_ok f' tl).
      { split; [exact OK1|]. split; [exact OK2|]. split; [exact Hd|]. split; [cbn [fr_left f']; lia|]. split; [|exact OK6]. intros o' Ho'. apply OK5. eapply ea_later; [exact Hp|exact ED|exact Ho']. }
      assert (Ef' : ztake (fr_len f') (P ++ s) = P) by (apply ztake_app_eq; symmetry; exact LP).
      destruct (IHn f' tl (P ++ s) P Ef' LP OKf' HM ltac:(cbn [fr_left f']; lia)) as (lf & ef & Bf & Rf). change (fr_left f') with (fr_left f - 1) in *. change (fr_data f') with d in Rf.
      exists (own (P ++ s) e :: lg ++ lf), ef. rewrite zlen_cons, zlen_app. split; [nia|]. destruct ef.
      * destruct Rf as [(st' & Rf) Nf]. split; [exists st'; eapply runs_more; [exact EL|]; exact (Rg _ _ _ Rf)|].
        intros ch Hc Lc. inversion Hc as [d0 Ed0|s' x' o' t ch' d' N0 U' Ht Hd' Ed']; subst ch; [change (zlen (@nil (bytes * trie))) with 0 in Lc; lia|].
        assert (E' : edge (fr_data f) s' o' d') by (split; [exact N0|]; exists x'; split; [exact U'|congruence]). destruct (edge_unique _ _ _ _ _ _ _ ED E') as (<- & <- & <-).
        rewrite zlen_cons in Lc. apply (Nf _ Hd'). lia.
      * destruct Rf as [Rf (chf & Hcf & Lcf & Sf)]. split.
        -- intros l2 e2 st2 R2. cbn [app]. eapply runs_more; [exact EL|]. rewrite <- app_assoc. apply Rg. apply Rf. exact R2.
        -- exists ((s, Node e chg) :: chf). split; [|split].
           ++ rewrite Ed, Er. apply (edges_cons D s x o); [exact Ns|exact U| |exact Hcf]. econstructor; [|exact Hcg]. rewrite Lcg. exact En'.
           ++ rewrite zlen_cons. lia.
           ++ cbn [child_exports]. rewrite exports_eq. change (own (P ++ s) e :: lg ++ lf) with ([own (P ++ s) e] ++ lg ++ lf). rewrite !somes_app, Sg, Sf, <- !app_assoc. reflexivity.
Qed.
(** The nodes of a trie *)
Lemma run_nodes : exists l (e : bool) st', runs (node_next D) node_new l e st' /\ zlen l < 256 ^ (zlen D + 1) /\
  if e then forall t, ~ encodes D 0 t else exists t, encodes D 0 t /\ somes l = trie_exports [] t.
Proof.
  pose proof (zlen_nonneg D) as N. assert (P256 : 0 < 256 ^ zlen D) by (apply Z.pow_pos_nonneg; lia).
  assert (B : 256 ^ (zlen D + 1) = 256 * 256 ^ zlen D) by (rewrite Z.pow_add_r by lia; apply Z.mul_comm).
  assert (E : node_next D node_new = let '(r, st) := push_node D (at_stack [] []) 0 in (x <- r ;; Ok (Some x), st)) by reflexivity. rewrite push_eq in E.
  destruct (node_parse D 0) as [[[e n] d]| |] eqn:En; cbn [bind] in E.
  2: { exists [], true. eexists. split; [apply runs_err; exact E|]. change (zlen (@nil (option tsym))) with 0. split; [lia|]. intros t Ht. inversion Ht as [? ? ? ? Hh _]; subst. apply node_iff in Hh; [congruence|exact HD|lia]. }
  2: { exfalso. exact (node_np D HD 0 En). }
  apply node_iff in En; [|exact HD|lia]. pose proof (head_bound D HD HL _ _ _ _ En) as (B1 & B2 & B3). set (f := {| fr_data := d; fr_offset := 0; fr_left := n; fr_len := zlen (@nil Z) |}) in *.
  assert (OK : frame_ok f []).
  { split; [repeat constructor; intros []|]. split; [constructor; [exact B1|constructor]|]. split; [exact B3|]. split; [exact B2|]. split; [|intros g []]. intros o Ho. exists e, n, d. split; assumption. }
  destruct (run_frame (Z.to_nat (zlen D - 1)) f [] [] [] eq_refl eq_refl OK) as (l & er & Bl & R). { change (zlen [f]) with 1. lia. }
  change (fr_left f) with n in *. change (fr_data f) with d in R.
  assert (Pd : 256 ^ Z.of_nat (Z.to_nat (zlen D - 1)) <= 256 ^ zlen D) by (apply Z.pow_le_mono_r; lia).
  assert (Y : 256 ^ 1 <= 256 ^ zlen D) by (apply Z.pow_le_mono_r; lia). change (256 ^ 1) with 256 in Y.
  assert (X0 : 0 < 256 ^ Z.of_nat (Z.to_nat (zlen D - 1))) by (apply Z.pow_pos_nonneg; lia).
  assert (BL : 1 + zlen l < 256 ^ (zlen D + 1)) by (rewrite B; nia).
  exists (own [] e :: l), er. destruct er.
  - destruct R as [(st' & R) Ne]. exists st'. split; [eapply runs_more; [exact E|exact R]|]. rewrite zlen_cons. split; [exact BL|]. intros t Ht. inversion Ht as [? e1 ch1 d1 Hh Hc1]; subst. destruct (head_unique D HD HL _ _ _ _ _ _ _ En Hh) as (_ & -> & ->). exact (Ne _ Hc1 eq_refl).
  - destruct R as [R (ch & Hc & Lc & Sc)]. eexists. split; [eapply runs_more; [exact E|]; rewrite <- (app_nil_r l); apply R; apply runs_done; reflexivity|]. rewrite zlen_cons. split; [exact BL|].
    exists (Node e ch). split; [econstructor; [rewrite Lc; exact En|exact Hc]|]. rewrite exports_eq, <- Sc. destruct (own [] e); reflexivity.
Qed.
(** * From nodes to exports *)
Lemma loop_none_inv k : forall st s1, exp_loop k D st = (None, s1) -> forall l e s', runs (node_next D) st l e s' ->
  exists l', somes l = somes l' /\ zlen l = 2 ^ Z.of_nat k + zlen l' /\ runs (node_next D) s1 l' e s'.
Proof.
  induction k as [|k IH]; intros st s1 E l e s' R; cbn [exp_loop] in E.
  - destruct R as [s s2 En|s s2 En|s s2 s3 x l e En R]; rewrite En in E; [discriminate|discriminate|]. destruct x as [x|]; [discriminate|]. injection E as <-. exists l. split; [reflexivity|]. split; [rewrite zlen_cons; reflexivity|exact R].
  - destruct (exp_loop k D st) as [[r|] s2] eqn:E1; [discriminate|]. destruct (IH _ _ E1 _ _ _ R) as (l1 & S1 & L1 & R1). destruct (IH _ _ E _ _ _ R1) as (l2 & S2 & L2 & R2).
    exists l2. split; [congruence|]. split; [|exact R2]. rewrite L1, L2. replace (Z.of_nat (S k)) with (1 + Z.of_nat k) by lia. rewrite Z.pow_add_r by lia. change (2 ^ 1) with 2. lia.
Qed.
Lemma loop_runs k st r st' : exp_loop k D st = (Some r, st') -> forall l e s', runs (node_next D) st l e s' ->
  match r with
  | Ok None => somes l = [] /\ e = false /\ s' = st'
  | Ok (Some x) => exists l', somes l = x :: somes l' /\ zlen l' < zlen l /\ runs (node_next D) st' l' e s'
  | Err => somes l = [] /\ e = true /\ s' = st'
  | Panic => False
  end.
Proof.
  revert st r st'. induction k as [|k IH]; intros st r st' E l e s' R; cbn [exp_loop] in E.
  - destruct R as [s s1 En|s s1 En|s s1 s2 x l e En R]; rewrite En in E.
    + injection E as <- <-. auto.
    + injection E as <- <-. auto.
    + destruct x as [x|]; [|discriminate]. injection E as <- <-. exists l. split; [reflexivity|]. split; [rewrite zlen_cons; lia|exact R].
  - destruct (exp_loop k D st) as [[r'|] s1] eqn:E1; [injection E as <- <-; exact (IH _ _ _ E1 _ _ _ R)|].
    destruct (loop_none_inv k st s1 E1 l e s' R) as (l' & Hl & Ls & R'). specialize (IH _ _ _ E _ _ _ R'). rewrite Hl.
    destruct r as [[x|]| |]; [|exact IH..]. destruct IH as (l2 & S2 & L2 & R2). exists l2. split; [exact S2|]. split; [lia|exact R2].
Qed.
Lemma exports_run l e s' : forall st, runs (node_next D) st l e s' -> zlen l < 2 ^ Z.of_nat (8 * (length D + 2)) -> runs (exp_next D) st (somes l) e s'.
Proof.
  remember (length l) as n eqn:En. revert l En. induction n as [n IH] using (well_founded_induction Nat.lt_wf_0). intros l En st R B. subst n.
  assert (X : exp_next D st = match exp_loop (8 * (length D + 2)) D st with (Some r, st) => (r, st) | (None, st) => (Panic, st) end) by reflexivity.
  destruct (exp_loop (8 * (length D + 2)) D st) as [[r|] s1] eqn:E.
  - pose proof (loop_runs _ _ _ _ E _ _ _ R) as H. destruct r as [[x|]| |].
    + destruct H as (l' & -> & Ll & R'). eapply runs_more; [exact X|]. eapply IH; [|reflexivity|exact R'|lia]. unfold zlen in Ll. lia.
    + destruct H as (-> & -> & ->). apply runs_done. exact X.
    + destruct H as (-> & -> & ->). apply runs_err. exact X.
    + contradiction.
  - destruct (loop_none_inv _ _ _ E _ _ _ R) as (l' & _ & L & _). pose proof (zlen_nonneg l'). lia.
Qed.
Lemma exports_total : exists l (e : bool) st', runs (exp_next D) node_new l e st' /\ if e then forall t, ~ encodes D 0 t else exists t, encodes D 0 t /\ l = trie_exports [] t.
Proof.
  destruct run_nodes as (l & e & st' & R & B & H). exists (somes l), e, st'. split.
  - apply exports_run; [exact R|]. replace (Z.of_nat (8 * (length D + 2))) with (8 * (zlen D + 2)) by (unfold zlen; lia). rewrite Z.pow_mul_r by (pose proof (zlen_nonneg D); lia). change (2 ^ 8) with 256.
    pose proof (zlen_nonneg D). assert (256 ^ (zlen D + 1) <= 256 ^ (zlen D + 2)) by (apply Z.pow_le_mono_r; lia). lia.
  - destruct e; exact H.
Qed.
(** a trie is determined by the data *)
Scheme enc_ind := Induction for encodes Sort Prop with edg_ind := Induction for edges Sort Prop.
Lemma encodes_unique off t : encodes D off t -> forall t', encodes D off t' -> t = t'.
Proof.
  intro H. induction H as [off e ch d Hh Hc IH|d|s x o t ch d N U Ht IHt Hd IHd] using enc_ind with (P0 := fun d ch (_ : edges D d ch) => forall ch', edges D d ch' -> zlen ch' = zlen ch -> ch = ch').
  - intros t' H'. inversion H' as [? e' ch' d' Hh' Hc']; subst. destruct (head_unique D HD HL _ _ _ _ _ _ _ Hh Hh') as (-> & L & ->). f_equal. apply IH; [exact Hc'|symmetry; exact L].
  - intros ch' _ L. symmetry. apply zlen_0_nil. exact L.
  - intros ch' H' L. rewrite zlen_cons in L. remember (s ++ 0 :: x ++ d) as D0 eqn:ED. destruct H' as [d0|s' x' o' t' ch' d' N' U' Ht' Hd']; [change (zlen (@nil (bytes * trie))) with 0 in L; pose proof (zlen_nonneg ch); lia|].
    assert (E1 : edge (s ++ 0 :: x ++ d) s o d) by (split; [exact N|]; exists x; auto). assert (E2 : edge (s ++ 0 :: x ++ d) s' o' d') by (split; [exact N'|]; exists x'; auto).
    destruct (edge_unique _ _ _ _ _ _ _ E1 E2) as (<- & <- & <-). rewrite zlen_cons in L. f_equal; [f_equal; apply IHt; exact Ht'|apply IHd; [exact Hd'|lia]].
Qed.
End trie.
