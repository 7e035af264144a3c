(** Proofs about the imports in bind operations, the exports in tries, and which of the sources is used. *)
From Verif Require Import Base Core_proofs Util_proofs File_proofs Hash_proofs Iter_proofs Rel_proofs Ar_proofs Trie_proofs Coff_spec CoffR_proofs Mach_spec Mach_proofs MachP_proofs Dyld_spec Dyld_proofs DyldR_proofs DyldB_proofs.
From Verif Require Import Imp_spec Imp_proofs.

(** * Bind operations *)
Section Dyld.
Context (libs : list bytes).
Lemma last_snoc {A} (sets : bop -> option A) i pre o : last_set sets i (pre ++ [o]) = match sets o with Some x => x | None => last_set sets i pre end.
Proof. unfold last_set. rewrite fold_left_app. reflexivity. Qed.
Definition inv (lazy : bool) dy p pre (s : dimp) : Prop :=
  dm_lazy s = lazy /\ dm_dylib s = last_set (sets_dylib lazy) dy pre /\ dm_symbol s = last_set (sets_symbol lazy) None pre /\ dm_unbound s = last_set sets_pending p pre.
Definition result_of (r : list (option mimport)) : option (out mimport) := match r with [] => None | Some i :: _ => Some (Ok i) | None :: _ => Some Err end.
Lemma bind_ok lazy dy p pre o s : inv lazy dy p pre s -> is_bind o = true -> (forall n, o <> BSetOrdinal n) -> o <> BDone -> sets_pending o = Some false -> sets_dylib lazy o = None -> sets_symbol lazy o = None ->
  exists s', dm_bind libs s = (result_of (report libs lazy dy p pre o), s') /\ (length (report libs lazy dy p pre o) <= 1)%nat /\ inv lazy dy p (pre ++ [o]) s' /\ dm_binds s' = dm_binds s /\ dm_index s' = dm_index s.
Proof.
  intros (I1 & I2 & I3 & I4) Hb Hn Hd Sp Sd Ss.
  assert (Er : report libs lazy dy p pre o = if dm_unbound s then match dm_symbol s, dm_dylib s with
      | Some (flags, name), Some d => let imp library := Some {| im_library := library; im_name := name; im_weak := Z.testbit flags 0; im_flags := MFBind d flags |} in
        if d =? 0 then [] else if d <? 0 then [imp []] else match zget libs d with Some library => [imp library] | None => [None] end
      | _, _ => [None] end else []).
  { rewrite I2, I3, I4. unfold report. destruct o; try (rewrite Hb; reflexivity); try discriminate Hb. }
  rewrite Er. clear Er. unfold dm_bind.
  assert (INV : forall u, u = false -> inv lazy dy p (pre ++ [o]) (dm_with s (dm_dylib s) (dm_symbol s) u)).
  { intros u ->. unfold inv. rewrite !last_snoc, Sp, Sd, Ss. cbn. auto. }
  destruct (dm_unbound s) eqn:Eu.
  - cbn [dm_with dm_symbol dm_dylib]. exists (dm_with s (dm_dylib s) (dm_symbol s) false).
    assert (R : inv lazy dy p (pre ++ [o]) (dm_with s (dm_dylib s) (dm_symbol s) false)) by (apply INV; reflexivity).
    destruct (dm_symbol s) as [[flags name]|] eqn:Es; [|split; [reflexivity|split; [cbn; lia|split; [exact R|split; reflexivity]]]]. destruct (dm_dylib s) as [d|] eqn:Edy; [|split; [reflexivity|split; [cbn; lia|split; [exact R|split; reflexivity]]]].
    cbn zeta. change 1 with (2 ^ 0). rewrite fl_has_bit by lia. unfold bind_library.
    destruct (Z.eqb_spec d 0); [split; [reflexivity|split; [cbn; lia|split; [exact R|split; reflexivity]]]|].
    destruct (Z.ltb_spec d 0); [replace (d <=? 0) with true by lia|replace (d <=? 0) with false by lia]; cbn [bind]; [split; [reflexivity|split; [cbn; lia|split; [exact R|split; reflexivity]]]|].
    destruct (zget libs d); (split; [reflexivity|]); (split; [cbn; lia|]); (split; [exact R|]); split; reflexivity.
  - exists s. split; [reflexivity|]. split; [cbn; lia|]. split; [|split; reflexivity]. unfold inv. rewrite !last_snoc, Sp, Sd, Ss. auto.
Qed.
Lemma op_ok lazy dy p pre o s : inv lazy dy p pre s -> (lazy = false -> o <> BDone) ->
  exists s', dm_op libs s o = (result_of (report libs lazy dy p pre o), s') /\ (length (report libs lazy dy p pre o) <= 1)%nat /\ inv lazy dy p (pre ++ [o]) s' /\ dm_binds s' = dm_binds s /\ dm_index s' = dm_index s.
Proof.
  intros I Hd. pose proof I as (I1 & I2 & I3 & I4).
  destruct o; cbn [dm_op]; try (match goal with |- context [dm_bind] => apply bind_ok; (exact I || reflexivity || discriminate) end).
  - destruct lazy; [|exfalso; apply Hd; reflexivity]. rewrite I1. eexists. split; [reflexivity|]. split; [cbn; lia|]. split; [|split; reflexivity]. unfold inv. rewrite !last_snoc. cbn. auto.
  - cbn [report]. destruct (ordinal <? 2 ^ 31) eqn:En; eexists; (split; [reflexivity|]); (split; [cbn; lia|]); (split; [|split; reflexivity]); unfold inv; rewrite !last_snoc; cbn [sets_dylib sets_symbol sets_pending is_bind]; rewrite En; cbn; auto.
  - eexists. split; [reflexivity|]. split; [cbn; lia|]. split; [|split; reflexivity]. unfold inv. rewrite !last_snoc. cbn. auto.
  - eexists. split; [reflexivity|]. split; [cbn; lia|]. split; [|split; reflexivity]. unfold inv. rewrite !last_snoc. cbn. auto.
  - eexists. split; [reflexivity|]. split; [cbn; lia|]. split; [|split; reflexivity]. unfold inv. rewrite !last_snoc. cbn. auto.
  - eexists. split; [reflexivity|]. split; [cbn; lia|]. split; [|split; reflexivity]. unfold inv. rewrite !last_snoc. cbn. auto.
  - eexists. split; [reflexivity|]. split; [cbn; lia|]. split; [|split; reflexivity]. unfold inv. rewrite !last_snoc. cbn. auto.
  - eexists. split; [reflexivity|]. split; [cbn; lia|]. split; [|split; reflexivity]. unfold inv. rewrite !last_snoc. cbn. auto.
  - destruct (Z.eqb_spec count 0) as [->|N].
    + eexists. split; [reflexivity|]. split; [cbn; lia|]. split; [|split; reflexivity]. unfold inv. rewrite !last_snoc. cbn. auto.
    + assert (Eb : is_bind (BSkipping count skip) = true) by (cbn [is_bind]; lia). apply bind_ok; try exact I; try discriminate; try reflexivity; try exact Eb. unfold sets_pending. rewrite Eb. reflexivity.
Qed.
Definition nxt (rest : list bytes) (i : Z) (u : bool) : dimp :=
  {| dm_binds := rest; dm_index := i + 1; dm_lazy := i + 1 =? 2; dm_dylib := if i + 1 =? 1 then Some (-3) else None; dm_symbol := None; dm_unbound := u |}.
Lemma nxt_eq s : dm_next_index s = nxt (tl (dm_binds s)) (dm_index s) (dm_unbound s). Proof. reflexivity. Qed.
Lemma size_cons d r : dm_size (d :: r) = Datatypes.S (length d + dm_size r). Proof. reflexivity. Qed.
Lemma op_binds s o : forall r s', dm_op libs s o = (r, s') -> dm_binds s' = dm_binds s \/ dm_binds s' = tl (dm_binds s).
Proof.
  assert (B : forall r s', dm_bind libs s = (r, s') -> dm_binds s' = dm_binds s).
  { intros r s'. unfold dm_bind. destruct (dm_unbound s); [|intros [= _ <-]; reflexivity]. cbn [dm_with dm_symbol dm_dylib]. destruct (dm_symbol s) as [[? ?]|]; [|intros [= _ <-]; reflexivity].
    destruct (dm_dylib s) as [d|]; [|intros [= _ <-]; reflexivity]. destruct (d =? 0); intros [= _ <-]; reflexivity. }
  intros r s'. destruct o; cbn [dm_op]; intros E; try (left; eapply B; exact E); try (injection E as _ <-; left; reflexivity).
  - destruct (dm_lazy s); injection E as _ <-; [left|right]; reflexivity.
  - destruct (ordinal <? 2 ^ 31); injection E as _ <-; left; reflexivity.
  - destruct (count =? 0); [injection E as _ <-; left; reflexivity|left; eapply B; exact E].
Qed.
Lemma loop_fuel : forall n m s, Forall bytes_ok (dm_binds s) -> (dm_size (dm_binds s) < n)%nat -> (dm_size (dm_binds s) < m)%nat -> dm_loop n libs s = dm_loop m libs s.
Proof.
  induction n as [|n IH]; intros m s B Hn Hm; [lia|]. destruct m as [|m]; [lia|]. cbn [dm_loop]. destruct (dm_binds s) as [|d rest] eqn:Eb; [reflexivity|].
  inversion B as [|? ? Bd Br]; subst. rewrite size_cons in Hn, Hm. destruct (bop_next d) as [[[[c op]|]| |] d'] eqn:En; try reflexivity.
  - destruct (bop_step _ _ _ _ Bd En) as (Bd' & Ld & _). destruct (dm_op libs (dm_set_data s d') op) as [[r|] s'] eqn:Eo; [reflexivity|].
    destruct (op_binds _ _ _ _ Eo) as [E|E]; cbn [dm_set_data dm_binds tl] in E; rewrite Eb in E; cbn [tl] in E; apply IH; rewrite E; try (constructor; assumption); try assumption; rewrite ?size_cons; lia.
  - rewrite nxt_eq, Eb. cbn [tl]. apply IH; cbn [nxt dm_binds]; [exact Br|lia|lia].
Qed.
(** [dm_next], one operation at a time *)
Lemma next_eq s d rest : Forall bytes_ok (dm_binds s) -> dm_binds s = d :: rest ->
  dm_next libs s = match bop_next d with
    | (Ok (Some (_, op)), d') => match dm_op libs (dm_set_data s d') op with (Some r, s) => (i <- r ;; Ok (Some i), s) | (None, s) => dm_next libs s end
    | (Ok None, _) => dm_next libs (dm_next_index s)
    | (Err, d') => (Err, dm_set_data s d')
    | (Panic, d') => (Panic, dm_set_data s d')
    end.
Proof.
  intros B Eb. pose proof B as B'. rewrite Eb in B'. inversion B' as [|? ? Bd Br]; subst. unfold dm_next at 1. cbn [dm_loop]. rewrite Eb. rewrite size_cons.
  destruct (bop_next d) as [[[[c op]|]| |] d'] eqn:En; try reflexivity.
  - destruct (bop_step _ _ _ _ Bd En) as (Bd' & Ld & _). destruct (dm_op libs (dm_set_data s d') op) as [[r|] s'] eqn:Eo; [reflexivity|]. unfold dm_next.
    destruct (op_binds _ _ _ _ Eo) as [E|E]; cbn [dm_set_data dm_binds tl] in E; rewrite Eb in E; cbn [tl] in E; apply loop_fuel; rewrite E; try (constructor; assumption); try assumption; rewrite ?size_cons; lia.
  - unfold dm_next. rewrite nxt_eq, Eb. cbn [tl]. apply loop_fuel; cbn [nxt dm_binds]; [exact Br|lia|lia].
Qed.
Lemma err_empty d d' : bop_next d = (Err, d') -> d' = [].
Proof. unfold bop_next, seq_next. destruct d; [discriminate|]. destruct (bop_parse _) as [[?| |] ?]; intros [= <-]; reflexivity. Qed.
Lemma stream_ok lazy dy p rest d ops err d' : runs bop_next d ops err d' -> bytes_ok d -> Forall bytes_ok rest -> forall s pre, dm_binds s = d :: rest -> inv lazy dy p pre s ->
  exists l bad, (if lazy then l = map snd ops /\ bad = err else ~ In BDone l /\ ((exists post, map snd ops = l ++ BDone :: post /\ bad = false) \/ (map snd ops = l /\ bad = err))) /\
  forall L, results (dm_next libs) (nxt rest (dm_index s) (last_set sets_pending p (pre ++ l))) L -> results (dm_next libs) s (reports libs lazy dy p pre l ++ bad_end bad ++ L).
Proof.
  induction 1 as [d d' E|d d' E|d d1 d' [c op] l err E R IH]; intros Bd Br s pre Eb I.
  - exists [], false. split; [destruct lazy; cbn; tauto|]. intros L RL. cbn [reports bad_end app]. eapply results_eq; [|exact RL]. rewrite (next_eq s d rest) by (rewrite ?Eb; auto). rewrite E. rewrite nxt_eq, Eb. cbn [tl]. rewrite app_nil_r. destruct I as (_ & _ & _ & ->). reflexivity.
  - exists [], true. split; [destruct lazy; cbn; tauto|]. intros L RL. cbn [reports bad_end app]. eapply res_err; [rewrite (next_eq s d rest) by (rewrite ?Eb; auto); rewrite E; reflexivity|].
    rewrite (err_empty _ _ E). eapply results_eq; [|exact RL]. rewrite (next_eq _ [] rest); [|cbn [dm_set_data dm_binds]; rewrite Eb; constructor; [constructor|exact Br]|cbn [dm_set_data dm_binds]; rewrite Eb; reflexivity].
    change (bop_next []) with (@Ok (option (Z * bop)) None, @nil Z). cbv iota beta. rewrite nxt_eq. cbn [dm_set_data dm_binds dm_index dm_unbound tl]. rewrite Eb. cbn [tl]. rewrite app_nil_r. destruct I as (_ & _ & _ & ->). reflexivity.
  - destruct (bop_step _ _ _ _ Bd E) as (Bd' & _).
    assert (ST : dm_next libs s = match dm_op libs (dm_set_data s d1) op with (Some r, s) => (i <- r ;; Ok (Some i), s) | (None, s) => dm_next libs s end) by (rewrite (next_eq s d rest) by (rewrite ?Eb; auto); rewrite E; reflexivity).
    assert (I' : inv lazy dy p pre (dm_set_data s d1)) by exact I.
    destruct (lazy || match op with BDone => false | _ => true end) eqn:Ego.
    + assert (Hd : lazy = false -> op <> BDone) by (intros ->; destruct op; discriminate).
      destruct (op_ok lazy dy p pre op _ I' Hd) as (s' & Eo & Lr & I'' & Eb' & Ei'). cbn [dm_set_data dm_binds dm_index] in Eb', Ei'. rewrite Eb in Eb'. cbn [tl] in Eb'.
      destruct (IH Bd' Br s' (pre ++ [op]) Eb' I'') as (l' & bad & Q & K). exists (op :: l'), bad. split.
      * destruct lazy; [cbn [map snd]; destruct Q as (-> & ->); tauto|]. specialize (Hd eq_refl). destruct Q as (N & Q). split; [intros [H|H]; [congruence|tauto]|]. cbn [map snd].
        destruct Q as [(post & -> & ->)|(-> & ->)]; [left; exists post; auto|right; auto].
      * intros L RL. cbn [reports]. rewrite <- app_assoc. rewrite Ei' in K. replace (pre ++ op :: l') with ((pre ++ [op]) ++ l') in RL by (rewrite <- app_assoc; reflexivity). specialize (K L RL).
        rewrite Eo in ST. destruct (report libs lazy dy p pre op) as [|r rs] eqn:Er; cbn [result_of app] in *.
        -- eapply results_eq; eassumption.
        -- assert (rs = []) as -> by (destruct rs; [reflexivity|cbn [length] in Lr; lia]). destruct r as [i|]; cbn [bind app] in *; [eapply res_ok|eapply res_err]; eassumption.
    + destruct lazy; [discriminate Ego|]. assert (op = BDone) as -> by (destruct op; discriminate || reflexivity). exists [], false. split.
      * cbn. split; [tauto|]. left. eexists. auto.
      * intros L RL. cbn [reports bad_end app]. eapply results_eq; [|exact RL]. rewrite ST. cbn [dm_op]. destruct I' as (-> & _ & _ & Hu). rewrite nxt_eq, Hu. cbn [dm_set_data dm_binds dm_index tl]. rewrite Eb. cbn [tl]. rewrite app_nil_r. reflexivity.
Qed.
Definition dyld_start (b w z : bytes) : dimp := {| dm_binds := [b; w; z]; dm_index := 0; dm_lazy := false; dm_dylib := None; dm_symbol := None; dm_unbound := false |}.
Lemma dyld_exists b w z : bytes_ok b -> bytes_ok w -> bytes_ok z -> exists L, results (dm_next libs) (dyld_start b w z) L /\ dyld_imports libs b w z L.
Proof.
  intros Bb Bw Bz. destruct (proj2 bops_ok b Bb) as (ops1 & e1 & post1 & R1 & _). destruct (proj2 bops_ok w Bw) as (ops2 & e2 & post2 & R2 & _). destruct (proj2 bops_ok z Bz) as (ops3 & e3 & post3 & R3 & _).
  destruct (stream_ok false None false [w; z] _ _ _ _ R1 Bb ltac:(auto) (dyld_start b w z) [] eq_refl ltac:(repeat split)) as (l1 & b1 & Q1 & K1). cbn [app dm_index dyld_start] in K1.
  set (p1 := last_set sets_pending false l1) in *.
  destruct (stream_ok false (Some (-3)) p1 [z] _ _ _ _ R2 Bw ltac:(auto) (nxt [w; z] 0 p1) [] eq_refl ltac:(repeat split)) as (l2 & b2 & Q2 & K2). cbn [app dm_index nxt] in K2. change (0 + 1) with 1 in K2.
  set (p2 := last_set sets_pending p1 l2) in *.
  destruct (stream_ok true None p2 [] _ _ _ _ R3 Bz ltac:(auto) (nxt [z] 1 p2) [] eq_refl ltac:(repeat split)) as (l3 & b3 & Q3 & K3). cbn [app dm_index nxt] in K3. change (1 + 1) with 2 in K3.
  eexists. split.
  - apply K1, K2, K3. eapply res_end. reflexivity.
  - exists l1, b1, l2, b2, l3, b3. split; [eexists _, _, _; split; [exact R1|exact Q1]|]. split; [eexists _, _, _; split; [exact R2|exact Q2]|]. split; [eexists _, _, _; split; [exact R3|exact Q3]|].
    cbn zeta. fold p1. fold p2. rewrite app_nil_r. reflexivity.
Qed.
Lemma first_done l l' post post' : ~ In BDone l -> ~ In BDone l' -> l ++ BDone :: post = l' ++ BDone :: post' -> l = l'.
Proof.
  revert l'. induction l as [|x l IH]; intros [|y l'] N N' E; cbn [app] in E; [reflexivity|injection E as <- _; exfalso; apply N'; left; reflexivity|injection E as -> _; exfalso; apply N; left; reflexivity|].
  injection E as -> E. f_equal. apply IH; [intros H; apply N; right; exact H|intros H; apply N'; right; exact H|exact E].
Qed.
Lemma stream_fun lazy d l b l' b' : stream lazy d l b -> stream lazy d l' b' -> l = l' /\ b = b'.
Proof.
  intros (ops & e & st & R & Q) (ops' & e' & st' & R' & Q'). destruct (runs_det _ _ _ _ _ R _ _ _ R') as (<- & <- & _). destruct lazy; [destruct Q, Q'; split; congruence|].
  destruct Q as (N & [(post & E & ->)|(E & ->)]), Q' as (N' & [(post' & E' & ->)|(E' & ->)]).
  - split; [|reflexivity]. rewrite E in E'. eapply first_done; eassumption.
  - exfalso. apply N'. rewrite <- E', E. apply in_or_app. right. left. reflexivity.
  - exfalso. apply N. rewrite <- E, E'. apply in_or_app. right. left. reflexivity.
  - split; congruence.
Qed.
Lemma dyld_iff b w z L : bytes_ok b -> bytes_ok w -> bytes_ok z -> results (dm_next libs) (dyld_start b w z) L <-> dyld_imports libs b w z L.
Proof.
  intros Bb Bw Bz. destruct (dyld_exists b w z Bb Bw Bz) as (L0 & R0 & D0). split.
  - intros R. rewrite <- (results_fun _ _ _ R0 _ R). exact D0.
  - intros D. enough (L = L0) as -> by exact R0. destruct D0 as (l1 & b1 & l2 & b2 & l3 & b3 & S1 & S2 & S3 & ->). destruct D as (l1' & b1' & l2' & b2' & l3' & b3' & S1' & S2' & S3' & ->).
    destruct (stream_fun _ _ _ _ _ _ S1 S1') as (-> & ->). destruct (stream_fun _ _ _ _ _ _ S2 S2') as (-> & ->). destruct (stream_fun _ _ _ _ _ _ S3 S3') as (-> & ->). reflexivity.
Qed.
End Dyld.

(** * Exports trie *)
Lemma trie_export_iff f base s x : trie_export f base s = Ok x <-> trie_export_of f base s x.
Proof.
  unfold trie_export, trie_export_of, trie_target. change 3 with (Z.ones 2). rewrite Z.land_ones by lia. change (2 ^ 2) with 4. change (fl_has (ts_flags s) 4) with (fl_has (ts_flags s) (2 ^ 2)). rewrite fl_has_bit by lia. unfold wrap_u.
  pose proof (Z.mod_pos_bound (ts_flags s) 4 ltac:(lia)) as Hk. set (k := ts_flags s mod 4) in *. clearbody k. cbn zeta.
  assert (G : forall t, (Ok {| xp_name := ts_name s; xp_target := t; xp_weak := Z.testbit (ts_flags s) 2; xp_flags := None |} = Ok x) <-> (xp_name x = ts_name s /\ xp_weak x = Z.testbit (ts_flags s) 2 /\ xp_flags x = None /\ xp_target x = t)).
  { intros t. split; [intros [= <-]; repeat split|]. intros (H1 & H2 & H3 & H4). destruct x; cbn in *. congruence. }
  destruct (ts_data s) as [a|ordinal name|stub resolver].
  - destruct (Z.eqb_spec k 2); [|destruct (Z.eqb_spec k 1); [|destruct (Z.eqb_spec k 0)]]; cbn [bind]; rewrite ?G; try (intuition lia). split; [discriminate|]. intros (_ & _ & _ & H). lia.
  - destruct (mach_libraries f) as [libs| |]; cbn [bind]; [|split; [discriminate|intros (_ & _ & _ & l & y & Q & _); discriminate]..].
    destruct (Z.eqb_spec ordinal 0); cbn [bind]; [split; [discriminate|intros (_ & _ & _ & l & y & _ & Q & _); congruence]|].
    destruct (zget libs ordinal) as [lib|] eqn:El; cbn [of_opt bind]; [rewrite G|]; (split; [|intros (H1 & H2 & H3 & l & y & Q1 & Q2 & Q3 & Q4); injection Q1 as <-; rewrite El in Q3]).
    + intros (H1 & H2 & H3 & H4). repeat split; try assumption. exists libs, lib. repeat split; try assumption.
    + injection Q3 as ->. repeat split; assumption.
    + discriminate.
    + discriminate.
  - destruct (Z.eqb_spec k 0); cbn [negb bind]; rewrite ?G; [split; [intros (H1 & H2 & H3 & H4)|intros (H1 & H2 & H3 & _ & H4)]; repeat split; assumption|]. split; [discriminate|]. intros (_ & _ & _ & H & _). lia.
Qed.
Lemma trie_export_np f base s : mach_libraries f <> Panic -> trie_export f base s <> Panic.
Proof.
  intros N. unfold trie_export, trie_target. destruct (ts_data s) as [a|ordinal name|stub resolver].
  - repeat match goal with |- context [if ?b then _ else _] => destruct b end; discriminate.
  - destruct (mach_libraries f) as [libs| |]; cbn [bind]; [|discriminate|congruence]. destruct (ordinal =? 0); [discriminate|]. destruct (zget libs ordinal); discriminate.
  - destruct (negb _); discriminate.
Qed.
Lemma exp_err_stays f D base st st' : exp_next D st = (Err, st') -> trie_export_next f D base st = (Err, st').
Proof. intros E. unfold trie_export_next. rewrite E. reflexivity. Qed.
Lemma trie_steps f D base st l err st' : mach_libraries f <> Panic -> runs (exp_next D) st l err st' ->
  exists s1 L, steps (trie_export_next f D base) st L s1 /\ picks (fun _ => False) (trie_export_of f base) l L /\ fst (trie_export_next f D base s1) = if err then Err else Ok None.
Proof.
  intros NP. induction 1 as [st st' E|st st' E|st st1 st' x l err E R IH].
  - exists st, []. split; [constructor|]. split; [constructor|]. unfold trie_export_next. rewrite E. reflexivity.
  - exists st, []. split; [constructor|]. split; [constructor|]. unfold trie_export_next. rewrite E. reflexivity.
  - destruct IH as (s1 & L & S1 & P1 & F1). pose proof (trie_export_np f base x NP) as NPx. destruct (trie_export f base x) as [y| |] eqn:Ex; [| |congruence].
    + exists s1, (Some y :: L). split; [eapply st_ok; [unfold trie_export_next; rewrite E, Ex; reflexivity|exact S1]|]. split; [|exact F1]. apply pk_take; [tauto| |exact P1]. apply trie_export_iff. exact Ex.
    + exists s1, (None :: L). split; [eapply st_err; [unfold trie_export_next; rewrite E, Ex; reflexivity|exact S1]|]. split; [|exact F1]. apply pk_bad; [tauto| |exact P1]. intros y Hy. apply trie_export_iff in Hy. congruence.
Qed.

(** * The source *)
Definition lastd (ns : list Z) (n : Z) (l : list lcmd) (a : option bytes) : option bytes := fold_left (fun a c => if zmem (lc_cmd c) ns then Some (ztake n (lc_data c)) else a) l a.
Lemma zmem_iff c ns : zmem (lc_cmd c) ns = true <-> has_number ns c.
Proof. unfold zmem, has_number. rewrite existsb_exists. split; [intros (x & H & E); replace (lc_cmd c) with x by lia; exact H|]. intros H. exists (lc_cmd c). split; [exact H|lia]. Qed.
Lemma lastd_snoc ns n l c a : lastd ns n (l ++ [c]) a = if zmem (lc_cmd c) ns then Some (ztake n (lc_data c)) else lastd ns n l a.
Proof. unfold lastd. rewrite fold_left_app. reflexivity. Qed.
Lemma lastd_spec ns n l : match lastd ns n l None with Some d => exists c, last_with (has_number ns) l c /\ d = ztake n (lc_data c) | None => Forall (fun c => ~ has_number ns c) l end.
Proof.
  induction l as [|c l IH] using rev_ind; [constructor|]. rewrite lastd_snoc. destruct (zmem (lc_cmd c) ns) eqn:E.
  - exists c. split; [|reflexivity]. exists l, []. split; [reflexivity|]. split; [apply zmem_iff; exact E|constructor].
  - assert (N : ~ has_number ns c) by (rewrite <- zmem_iff; congruence). destruct (lastd ns n l None) as [d|].
    + destruct IH as (y & (a & b & -> & P & Fb) & ->). exists y. split; [|reflexivity]. exists a, (b ++ [c]). split; [rewrite <- app_assoc; reflexivity|]. split; [exact P|]. apply Forall_app. auto.
    + apply Forall_app. auto.
Qed.
Lemma last_with_fun P l c c' : last_with P l c -> last_with P l c' -> c = c'.
Proof.
  intros (a & b & -> & Hc & Fb) (a' & b' & E & Hc' & Fb'). revert a' b' E Fb' . induction a as [|x a IH]; intros [|x' a'] b' E Fb'; cbn [app] in E.
  - congruence.
  - injection E as -> E. exfalso. rewrite E in Fb. apply Forall_app in Fb as (_ & Fb). inversion Fb; contradiction.
  - injection E as -> E. exfalso. rewrite <- E in Fb'. apply Forall_app in Fb' as (_ & Fb'). inversion Fb'; contradiction.
  - injection E as -> E. eapply IH; eassumption.
Qed.
Lemma lastd_some ns n l c : last_with (has_number ns) l c -> lastd ns n l None = Some (ztake n (lc_data c)).
Proof.
  intros H. pose proof (lastd_spec ns n l) as Q. destruct (lastd ns n l None) as [d|]; [destruct Q as (c' & H' & ->); do 2 f_equal; rewrite (last_with_fun _ _ _ _ H' H); reflexivity|].
  destruct H as (a & b & -> & Hc & _). apply Forall_app in Q as (_ & Q). inversion Q; contradiction.
Qed.
Lemma lastd_none ns n l : Forall (fun c => ~ has_number ns c) l -> lastd ns n l None = None.
Proof.
  intros H. pose proof (lastd_spec ns n l) as Q. destruct (lastd ns n l None) as [d|]; [|reflexivity]. destruct Q as (c & (a & b & -> & Hc & _) & _). apply Forall_app in H as (_ & H). inversion H; contradiction.
Qed.
Definition pick_step (f1 f2 : lcmd -> out (option bytes)) (acc : option bytes * option bytes) (c : lcmd) : out (option bytes * option bytes) :=
  x <- f1 c ;; match x with Some _ => Ok (x, snd acc) | None => y <- f2 c ;; Ok (match y with Some _ => (fst acc, y) | None => acc end) end.
Lemma struct_take c n b : 0 <= n -> lc_struct c n = Ok b <-> n <= zlen (lc_data c) /\ b = ztake n (lc_data c).
Proof.
  intros Hn. rewrite struct_iff by exact Hn. split.
  - intros (L & tl & E). rewrite E, zlen_app. pose proof (zlen_nonneg tl). split; [lia|]. rewrite ztake_app_eq by (symmetry; exact L). reflexivity.
  - intros (L & ->). split; [apply zlen_ztake; lia|]. exists (zdrop n (lc_data c)). symmetry. apply ztake_zdrop.
Qed.
Lemma pick_fold f1 f2 ns1 n1 ns2 n2 : 0 <= n1 -> 0 <= n2 ->
  (forall c, f1 c = if zmem (lc_cmd c) ns1 then b <- lc_struct c n1 ;; Ok (Some b) else Ok None) -> (forall c, f2 c = if zmem (lc_cmd c) ns2 then b <- lc_struct c n2 ;; Ok (Some b) else Ok None) ->
  (forall x, zmem x ns1 = true -> zmem x ns2 = false) -> forall l a b r, fold_o (pick_step f1 f2) l (a, b) = Ok r <-> sized ns1 n1 l /\ sized ns2 n2 l /\ r = (lastd ns1 n1 l a, lastd ns2 n2 l b).
Proof.
  intros H1 H2 E1 E2 Dj. induction l as [|c l IH]; intros a b r; cbn [fold_o bind].
  - split; [intros [= <-]; repeat split; constructor|intros (_ & _ & ->); reflexivity].
  - unfold sized. rewrite !Forall_cons_iff. rewrite <- !zmem_iff. unfold pick_step. rewrite E1, E2. unfold lastd. cbn [fold_left]. destruct (zmem (lc_cmd c) ns1) eqn:Z1.
    + pose proof (Dj _ Z1) as Z2. rewrite Z2. pose proof (struct_take c n1) as ST. destruct (lc_struct c n1) as [d| |] eqn:Es; cbn [bind snd].
      * destruct (proj1 (ST d H1) eq_refl) as (L & ->). rewrite IH. unfold sized, lastd. intuition discriminate.
      * split; [discriminate|]. intros ((Q & _) & _). specialize (Q eq_refl). pose proof (proj2 (ST _ H1) (conj Q eq_refl)). discriminate.
      * split; [discriminate|]. intros ((Q & _) & _). specialize (Q eq_refl). pose proof (proj2 (ST _ H1) (conj Q eq_refl)). discriminate.
    + cbn [bind]. destruct (zmem (lc_cmd c) ns2) eqn:Z2.
      * pose proof (struct_take c n2) as ST. destruct (lc_struct c n2) as [d| |] eqn:Es; cbn [bind fst].
        -- destruct (proj1 (ST d H2) eq_refl) as (L & ->). rewrite IH. unfold sized, lastd. intuition discriminate.
        -- split; [discriminate|]. intros (_ & (Q & _) & _). specialize (Q eq_refl). pose proof (proj2 (ST _ H2) (conj Q eq_refl)). discriminate.
        -- split; [discriminate|]. intros (_ & (Q & _) & _). specialize (Q eq_refl). pose proof (proj2 (ST _ H2) (conj Q eq_refl)). discriminate.
      * cbn [bind]. rewrite IH. unfold sized, lastd. intuition discriminate.
Qed.
