(** Evaluation of bind streams: proofs. *)
From Verif Require Import Core_proofs Util_proofs Iter_proofs Trie_proofs Rel_proofs.
From Verif Require Import Dyld_spec Dyld_proofs DyldR_proofs.

Definition bop_ok (op : bop) : Prop :=
  match op with
  | BSetSegment _ o => 0 <= o < 2 ^ 64 | BSkipping n _ => 0 <= n | BBindScaled n => 0 <= n < 16 | _ => True
  end.
Lemma bop_enc_fit c op b : bop_enc (c, op) b -> bop_ok op /\ b <> [].
Proof.
  intro E. remember (c, op) as x. destruct E; injection Heqx as <- <-; (split; [|discriminate]); unfold imm in *; cbn [bop_ok]; try exact I; try lia;
  match goal with H : uleb_bytes _ ?v |- _ <= ?v => apply uleb_range in H; lia | H : uleb_bytes _ ?v |- _ <= ?v < _ => apply uleb_range in H; lia end.
Qed.
Lemma bop_step d c op d' : bytes_ok d -> bop_next d = (Ok (Some (c, op)), d') -> bytes_ok d' /\ (length d' < length d)%nat /\ bop_ok op.
Proof.
  intros K E. unfold bop_next, seq_next in E. destruct d as [|z d]; [discriminate|]. destruct (bop_parse (z :: d)) as [[x| |] r] eqn:P; try discriminate. injection E as -> ->.
  destruct (bop_inv _ _ _ K P) as (b & Eb & E). destruct (bop_enc_fit _ _ _ Eb) as (H & N). rewrite E in K. apply bytes_ok_app in K. split; [apply K|]. split; [|exact H].
  rewrite E, app_length. destruct b; [congruence|cbn [length]; lia].
Qed.

Section B.
Context (lazy : bool) (ptr : Z).
Lemma bi_fuel f1 : forall f2 it, bytes_ok (bi_ops it) -> (length (bi_ops it) < f1)%nat -> (length (bi_ops it) < f2)%nat -> bi_loop lazy ptr f1 it = bi_loop lazy ptr f2 it.
Proof.
  induction f1 as [|f1 IH]; intros [|f2] it K H1 H2; try lia. cbn [bi_loop]. destruct (bop_next (bi_ops it)) as [[[[c op]|]| |] d] eqn:E; try reflexivity.
  destruct (bop_step _ _ _ _ K E) as (K' & L & _). destruct op; try reflexivity; try (apply IH; cbn [bi_ops bi_with_ops bi_with]; assumption || lia).
  - destruct lazy; [|reflexivity]. apply IH; cbn [bi_ops bdit_lazy bdit_internal]; assumption || lia.
  - destruct (ordinal <? 2 ^ 31); [|reflexivity]. apply IH; cbn [bi_ops bi_with_ops bi_with]; assumption || lia.
  - destruct (count =? 0); [|reflexivity]. apply IH; cbn [bi_ops bi_with_ops bi_with]; assumption || lia.
Qed.
Definition bfix (r : out (option bind_) * bdit) : out (option bind_) * bdit :=
  match r with (Err, it) => (Err, bi_with_count (bi_with_ops it []) 0 (bi_advance it)) | r => r end.
Lemma bn_loop it : bi_remaining it = 0 -> bdit_next lazy ptr it = bfix (bi_loop lazy ptr (S (length (bi_ops it))) it).
Proof. intro E. unfold bdit_next. rewrite E. reflexivity. Qed.
Lemma bn_emits it : bi_remaining it <> 0 -> bdit_next lazy ptr it = bfix (bi_emit it).
Proof. intro E. unfold bdit_next. destruct (Z.eqb_spec (bi_remaining it) 0); [contradiction|]. reflexivity. Qed.
Lemma bn_step it it' : bi_remaining it = 0 -> bi_remaining it' = 0 -> bi_loop lazy ptr (S (length (bi_ops it))) it = bi_loop lazy ptr (length (bi_ops it)) it' ->
  (length (bi_ops it') < length (bi_ops it))%nat -> bytes_ok (bi_ops it') -> bdit_next lazy ptr it = bdit_next lazy ptr it'.
Proof. intros E1 E2 L Hl K. rewrite !bn_loop by assumption. rewrite L. f_equal. apply bi_fuel; [exact K|lia|lia]. Qed.
Lemma bn_emit it it' : bi_remaining it = 0 -> bi_remaining it' <> 0 -> bi_loop lazy ptr (S (length (bi_ops it))) it = bi_emit it' -> bdit_next lazy ptr it = bdit_next lazy ptr it'.
Proof. intros E1 E2 L. rewrite bn_loop, bn_emits by assumption. rewrite L. reflexivity. Qed.

Definition bd_moved (b : bind_) (o : Z) : bind_ := bd_at b (bd_segment b) o.
Definition bi_to (it : bdit) (o : Z) : bdit := bi_with it false false false false (bd_moved (bi_bind it) o).
Lemma bemit_runs a l e st (m : nat) : forall it o, bi_set_segment it = true -> bi_set_type it = true -> bi_set_dylib it = true -> bi_set_symbol it = true ->
  bi_remaining it = Z.of_nat m -> bd_offset (bi_bind it) = o mod 2 ^ 64 ->
  bi_advance it mod 2 ^ 64 = a mod 2 ^ 64 -> runs (bdit_next lazy ptr) (bi_with_count (bi_to it ((o + Z.of_nat m * a) mod 2 ^ 64)) 0 (bi_advance it)) l e st ->
  runs (bdit_next lazy ptr) it (map (bd_moved (bi_bind it)) (map (fun j => (o + Z.of_nat j * a) mod 2 ^ 64) (seq 0 m)) ++ l) e st.
Proof.
  induction m as [|m IH]; intros it o S1 S2 S3 S4 Hr Hb Ha R.
  - cbn [seq map app]. replace (bi_with_count _ 0 _) with it in R; [exact R|]. destruct it as [d n av s1 s2 s3 s4 [x y z u v w t]]. cbn in *. subst. unfold bi_with_count, bi_to, bi_with, bd_moved, bd_at. cbn. do 2 f_equal. rewrite Z.add_0_r. reflexivity.
  - cbn [seq map app]. eapply runs_more.
    + rewrite bn_emits by lia. unfold bi_emit. rewrite S1, S2, S3, S4. cbn [negb]. unfold psub. cbn [bi_remaining bi_with]. destruct (Z.leb_spec 1 (bi_remaining it)); [|lia]. cbn [bfix].
      replace (bd_moved (bi_bind it) ((o + Z.of_nat 0 * a) mod 2 ^ 64)) with (bi_bind it); [reflexivity|]. rewrite Z.add_0_r, <- Hb. destruct (bi_bind it). reflexivity.
    + assert (Es : map (fun j => (o + Z.of_nat j * a) mod 2 ^ 64) (seq 1 m) = map (fun j => ((o + a) + Z.of_nat j * a) mod 2 ^ 64) (seq 0 m)) by (rewrite <- seq_shift, map_map; apply map_ext; intro j; f_equal; lia).
      rewrite Es.
      match goal with |- runs _ ?it' _ _ _ => change (map (bd_moved (bi_bind it))) with (map (bd_moved (bi_bind it'))); apply IH end;
      cbn [bi_set_segment bi_set_type bi_set_dylib bi_set_symbol bi_with_count bi_with bi_remaining bi_advance orb]; [exact S1|exact S2|exact S3|exact S4|lia| |exact Ha|].
      * cbn [bi_bind bi_with bi_with_count bd_at bd_offset]. rewrite Hb. unfold wrap_u. rewrite Zplus_mod, Ha, Z.mod_mod, <- Zplus_mod by lia. reflexivity.
      * replace (o + Z.of_nat (S m) * a) with (o + a + Z.of_nat m * a) in R by lia. exact R.
Qed.
Definition isset {A} (o : option A) (set : bool) (P : A -> Prop) : Prop := match o with Some x => set = true /\ P x | None => set = false end.
Definition binv (s : bstate) (it : bdit) : Prop :=
  bi_remaining it = 0 /\
  isset (s_at s) (bi_set_segment it) (fun '(i, o) => bd_segment (bi_bind it) = i /\ bd_offset (bi_bind it) = o /\ 0 <= o < 2 ^ 64) /\
  isset (s_kind s) (bi_set_type it) (eq (bd_kind (bi_bind it))) /\ isset (s_dylib s) (bi_set_dylib it) (eq (bd_dylib (bi_bind it))) /\
  isset (s_symbol s) (bi_set_symbol it) (fun '(f, n) => bd_flags (bi_bind it) = f /\ bd_symbol (bi_bind it) = n) /\ s_addend s = bd_addend (bi_bind it).
Lemma binv_moved s it d x : binv s it -> x = (bd_offset (bi_bind it) + d) mod 2 ^ 64 -> binv (s_moved s d) (bi_to it x).
Proof.
  intros (H1 & H2 & H3) ->. split; [exact H1|]. split; [|exact H3]. cbn [s_at s_moved]. destruct (s_at s) as [[i o]|]; [|exact H2]. destruct H2 as (A & B & C & D). cbn. split; [exact A|]. split; [exact B|]. split; [congruence|]. apply Z.mod_pos_bound. lia.
Qed.
Definition bshows (it : bdit) (r : list bind_ * bool) : Prop := exists st', runs (bdit_next lazy ptr) it (fst r) (snd r) st' /\ (snd r = true -> bdit_next lazy ptr st' = (Ok None, st')).
Lemma bshows_same it it' r : bdit_next lazy ptr it = bdit_next lazy ptr it' -> bshows it' r -> bshows it r.
Proof. intros E (st & R & H). exists st. split; [eapply runs_same; eassumption|exact H]. Qed.
Lemma bcleared it : bdit_next lazy ptr (bi_with_count (bi_with_ops it []) 0 (bi_advance it)) = (Ok None, bi_with_count (bi_with_ops it []) 0 (bi_advance it)).
Proof. reflexivity. Qed.
Lemma bshows_err it it' : bdit_next lazy ptr it = bfix (Err, it') -> bshows it ([], true).
Proof. intro E. eexists. split; [apply runs_err; exact E|]. intros _. apply bcleared. Qed.
Lemma bshows_emit s it n a adv (rest : bstate -> list bind_ * bool) : 0 < n -> binv s it -> adv mod 2 ^ 64 = a mod 2 ^ 64 ->
  (forall it', bi_ops it' = bi_ops it -> binv (s_moved s (n * a)) it' -> bshows it' (rest (s_moved s (n * a)))) ->
  bshows (bi_with_count it n adv)
    (match s_at s, s_kind s, s_dylib s, s_symbol s with
     | Some (i, o), Some k, Some d, Some (f, name) =>
       let '(l, e) := rest (s_moved s (n * a)) in
       (map (fun o => {| bd_segment := i; bd_offset := o; bd_kind := k; bd_dylib := d; bd_symbol := name; bd_flags := f; bd_addend := s_addend s |}) (places n o a) ++ l, e)
     | _, _, _, _ => ([], true)
     end).
Proof.
  intros Hn I Ha IH. pose proof I as (H1 & H2 & H3 & H4 & H5 & H6). assert (N : bi_remaining (bi_with_count it n adv) <> 0) by (cbn; lia).
  destruct (s_at s) as [[i o]|] eqn:Es.
  2: { apply bshows_err with (it' := bi_with_count it n adv). rewrite bn_emits by exact N. unfold bi_emit. cbn [bi_set_segment bi_with_count]. rewrite H2. reflexivity. }
  destruct H2 as (A & B & C & D).
  destruct (s_kind s) as [k|] eqn:Ek.
  2: { apply bshows_err with (it' := bi_with_count it n adv). rewrite bn_emits by exact N. unfold bi_emit. cbn [bi_set_segment bi_set_type bi_with_count]. rewrite A, H3. reflexivity. }
  destruct H3 as (A3 & B3). destruct (s_dylib s) as [dy|] eqn:Ed.
  2: { apply bshows_err with (it' := bi_with_count it n adv). rewrite bn_emits by exact N. unfold bi_emit. cbn [bi_set_segment bi_set_type bi_set_dylib bi_with_count]. rewrite A, A3, H4. reflexivity. }
  destruct H4 as (A4 & B4). destruct (s_symbol s) as [[f nm]|] eqn:Ey.
  2: { apply bshows_err with (it' := bi_with_count it n adv). rewrite bn_emits by exact N. unfold bi_emit. cbn [bi_set_segment bi_set_type bi_set_dylib bi_set_symbol bi_with_count]. rewrite A, A3, A4, H5. reflexivity. }
  destruct H5 as (A5 & B5 & C5).
  specialize (IH (bi_with_count (bi_to (bi_with_count it n adv) ((o + n * a) mod 2 ^ 64)) 0 adv)). destruct IH as (st & R & Q); [reflexivity| |].
  { split; [reflexivity|]. cbn [s_at s_kind s_dylib s_symbol s_addend s_moved]. rewrite Es, Ek, Ed, Ey. cbn [isset].
    split; [|split; [split; [exact A3|exact B3]|split; [split; [exact A4|exact B4]|split; [split; [exact A5|split; [exact B5|exact C5]]|exact H6]]]].
    cbn. split; [exact A|]. split; [exact B|]. split; [reflexivity|]. apply Z.mod_pos_bound. lia. }
  destruct (rest (s_moved s (n * a))) as [l e]. cbn [fst snd] in *. exists st. split; [|exact Q]. unfold places.
  replace (map (fun o0 => {| bd_segment := i; bd_offset := o0; bd_kind := k; bd_dylib := dy; bd_symbol := nm; bd_flags := f; bd_addend := s_addend s |}))
    with (map (bd_moved (bi_bind (bi_with_count it n adv)))).
  2: { f_equal. cbn [bi_bind bi_with_count]. unfold bd_moved, bd_at. rewrite B, B3, B4, B5, C5, H6. reflexivity. }
  eapply bemit_runs with (o := o); cbn [bi_set_segment bi_set_type bi_set_dylib bi_set_symbol bi_remaining bi_bind bi_advance bi_with_count]; [exact A|exact A3|exact A4|exact A5|lia| |exact Ha|].
  - rewrite Z.mod_small by lia. exact C.
  - rewrite Z2Nat.id by lia. exact R.
Qed.
Lemma binds_run d ops e d' : 0 <= ptr < 256 -> runs bop_next d ops e d' -> forall it s, bytes_ok d -> bi_ops it = d -> binv s it -> bshows it (binds lazy ptr s (map snd ops) e).
Proof.
  intros Hp R. induction R as [d d' H|d d' H|d d1 d' [c op] ops e H R IH]; intros it s K E I.
  - cbn [map binds]. pose proof I as (I1 & _). eexists. split; [apply runs_done|discriminate]. rewrite bn_loop by exact I1. cbn [bi_loop]. rewrite E, H. reflexivity.
  - cbn [map binds]. pose proof I as (I1 & _). apply bshows_err with (it' := bi_with_ops it d'). rewrite bn_loop by exact I1. cbn [bi_loop]. rewrite E, H. reflexivity.
  - destruct (bop_step _ _ _ _ K H) as (K1 & L1 & Fo). pose proof I as (I1 & I2 & I3 & I4 & I5 & I6). cbn [map snd].
    assert (Iw : binv s (bi_with_ops it d1)) by exact I.
    assert (Go : forall it' s', bi_ops it' = d1 -> bi_remaining it' = 0 -> bi_loop lazy ptr (S (length (bi_ops it))) it = bi_loop lazy ptr (length (bi_ops it)) it' -> binv s' it' ->
      bshows it (binds lazy ptr s' (map snd ops) e)).
    { intros it' s' E' R' L' I'. eapply bshows_same; [|apply (IH it' s' K1 E' I')]. apply bn_step; [exact I1|exact R'|exact L'|rewrite E, E'; exact L1|rewrite E'; exact K1]. }
    assert (Em : forall n a adv, 0 < n -> adv mod 2 ^ 64 = a mod 2 ^ 64 -> bi_loop lazy ptr (S (length (bi_ops it))) it = bi_emit (bi_with_count (bi_with_ops it d1) n adv) ->
      bshows it (match s_at s, s_kind s, s_dylib s, s_symbol s with
       | Some (i, o), Some k, Some d, Some (f, name) =>
         let '(l, e) := binds lazy ptr (s_moved s (n * a)) (map snd ops) e in
         (map (fun o => {| bd_segment := i; bd_offset := o; bd_kind := k; bd_dylib := d; bd_symbol := name; bd_flags := f; bd_addend := s_addend s |}) (places n o a) ++ l, e)
       | _, _, _, _ => ([], true)
       end)).
    { intros n a adv Hn Ha L'. eapply bshows_same; [apply (bn_emit it (bi_with_count (bi_with_ops it d1) n adv)); [exact I1|cbn; lia|exact L']|].
      apply (bshows_emit s (bi_with_ops it d1) n a adv (fun s' => binds lazy ptr s' (map snd ops) e)); [exact Hn|exact Iw|exact Ha|]. intros it' Ei Ii. apply (IH it' _ K1 Ei Ii). }
    destruct op as [|n|n|f n|k|a|ix o|o| |o|n|n sk]; cbn [bop_ok] in Fo; cbn [binds].
    + assert (El : lazy = true \/ lazy = false) by (destruct lazy; [left|right]; reflexivity). destruct El as [El|El].
      * replace (if lazy then binds lazy ptr s_lazy (map snd ops) e else ([], false)) with (binds lazy ptr s_lazy (map snd ops) e) by (rewrite El; reflexivity).
        apply (Go (bdit_lazy d1)); [reflexivity|reflexivity|cbn [bi_loop]; rewrite E, H, El; reflexivity|]. split; [reflexivity|]. split; [reflexivity|]. split; [split; reflexivity|]. split; [reflexivity|]. split; reflexivity.
      * replace (if lazy then binds lazy ptr s_lazy (map snd ops) e else ([], false)) with (@nil bind_, false) by (rewrite El; reflexivity).
        eexists. split; [apply runs_done|discriminate]. rewrite bn_loop by exact I1. cbn [bi_loop]. rewrite E, H, El. reflexivity.
    + destruct (n <? 2 ^ 31) eqn:Ln.
      * eapply Go; [| |cbn [bi_loop]; rewrite E, H, Ln; reflexivity|]; [reflexivity|exact I1|]. split; [exact I1|]. split; [exact I2|]. split; [exact I3|]. split; [split; reflexivity|]. split; [exact I5|exact I6].
      * apply bshows_err with (it' := bi_with_ops it d1). rewrite bn_loop by exact I1. cbn [bi_loop]. rewrite E, H, Ln. reflexivity.
    + eapply Go; [| |cbn [bi_loop]; rewrite E, H; reflexivity|]; [reflexivity|exact I1|]. split; [exact I1|]. split; [exact I2|]. split; [exact I3|]. split; [split; reflexivity|]. split; [exact I5|exact I6].
    + eapply Go; [| |cbn [bi_loop]; rewrite E, H; reflexivity|]; [reflexivity|exact I1|]. split; [exact I1|]. split; [exact I2|]. split; [exact I3|]. split; [exact I4|]. split; [split; [reflexivity|split; reflexivity]|exact I6].
    + eapply Go; [| |cbn [bi_loop]; rewrite E, H; reflexivity|]; [reflexivity|exact I1|]. split; [exact I1|]. split; [exact I2|]. split; [split; reflexivity|]. split; [exact I4|]. split; [exact I5|exact I6].
    + eapply Go; [| |cbn [bi_loop]; rewrite E, H; reflexivity|]; [reflexivity|exact I1|]. split; [exact I1|]. split; [exact I2|]. split; [exact I3|]. split; [exact I4|]. split; [exact I5|reflexivity].
    + eapply Go; [| |cbn [bi_loop]; rewrite E, H; reflexivity|]; [reflexivity|exact I1|]. split; [exact I1|]. split; [split; [reflexivity|split; [reflexivity|split; [reflexivity|lia]]]|]. split; [exact I3|]. split; [exact I4|]. split; [exact I5|exact I6].
    + eapply Go; [| |cbn [bi_loop]; rewrite E, H; reflexivity|]; [reflexivity|exact I1|]. apply (binv_moved s (bi_with_ops it d1) o); [exact Iw|reflexivity].
    + apply (Em 1 ptr ptr); [lia|reflexivity|cbn [bi_loop]; rewrite E, H; reflexivity].
    + apply (Em 1 (ptr + o) (wrap_u 64 (ptr + o))); [lia|unfold wrap_u; apply Z.mod_mod; lia|cbn [bi_loop]; rewrite E, H; reflexivity].
    + apply (Em 1 (ptr * (n + 1)) (ptr * (n + 1))); [lia|reflexivity|cbn [bi_loop]; rewrite E, H]. unfold padd, pmul. destruct (Z.ltb_spec (n + 1) (2 ^ 64)); [|lia]. cbn [bind]. destruct (Z.ltb_spec (ptr * (n + 1)) (2 ^ 64)); [reflexivity|nia].
    + destruct (Z.eqb_spec n 0) as [->|N0].
      * apply (Go (bi_with_ops it d1)); [reflexivity|exact I1|cbn [bi_loop]; rewrite E, H; reflexivity|exact Iw].
      * apply (Em n (ptr + sk) (wrap_u 64 (ptr + sk))); [lia|unfold wrap_u; apply Z.mod_mod; lia|cbn [bi_loop]; rewrite E, H; destruct (Z.eqb_spec n 0); [contradiction|reflexivity]].
Qed.
End B.
