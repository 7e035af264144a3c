From Verif Require Import Attr_spec Core_proofs Str_proofs Util_proofs Hash_proofs Rel_proofs Iter_proofs.

(** * Reader *)
Lemma sub_parse_complete e s b rest : bytes_ok (b ++ rest) -> sub_enc e s b -> sub_parse e (b ++ rest) = (Ok s, rest).
Proof.
  intros Hb (H1 & H2 & H3 & H4). unfold sub_parse. pose proof (zlen_nonneg b).
  set (w := write_u e 4 (zlen b)) in *. assert (Lw : zlen w = 4) by apply zlen_write_u.
  set (tl := sb_vendor s ++ [0] ++ sb_data s) in *.
  assert (E1 : b_read (b ++ rest) 4 = (Ok w, tl ++ rest)).
  { assert (Hd : b ++ rest = w ++ tl ++ rest) by (rewrite H4 at 1; rewrite <- app_assoc; reflexivity). rewrite Hd. apply b_read_app. lia. }
  rewrite E1. unfold w at 1 2. rewrite !read_write_u_small by (cbn; lia). rewrite b_read_bytes_app by reflexivity. cbn [bs].
  rewrite H4 at 1. rewrite b_skip_app by lia. unfold tl. cbn [app]. rewrite b_read_string_app by assumption.
  do 2 f_equal. destruct s; cbn in *. congruence.
Qed.
Lemma sub_parse_sound e data s rest : bytes_ok data -> sub_parse e data = (Ok s, rest) -> exists b, sub_enc e s b /\ data = b ++ rest.
Proof.
  intros Hb. unfold sub_parse. destruct (b_read data 4) as [r d0] eqn:E0. apply b_read_spec in E0 as [(l & -> & H0 & Ll & E0)|(-> & _)]; [|discriminate].
  assert (Hl : bytes_ok l) by (rewrite E0 in Hb; apply bytes_ok_app in Hb; tauto).
  pose proof (read_u_bound e l Hl) as Bl. rewrite Ll in Bl. change (8 * 4) with 32 in Bl.
  destruct (b_read_bytes data (read_u e l)) as [r d1] eqn:E1. apply b_read_bytes_spec in E1 as [(b & -> & H1 & Lb & E1)|(-> & _)]; [|discriminate].
  cbn [bs]. destruct (b_skip b 4) as [r d2] eqn:E2. apply b_skip_spec in E2 as [(-> & H2 & ->)|(-> & _)]; [|discriminate].
  destruct (b_read_string (zdrop 4 b)) as [r d3] eqn:E3. apply b_read_string_spec in E3 as [(v & -> & E3 & Hv)|(-> & _)]; [|discriminate].
  intro H; inversion H; subst s d1. exists b. split; [|exact E1]. unfold sub_enc. cbn [sb_length sb_vendor sb_data].
  split; [lia|]. split; [lia|]. split; [exact Hv|]. rewrite Lb. rewrite write_read_n by (assumption || lia). cbn [app]. rewrite <- E3.
  rewrite <- (ztake_zdrop 4 b) at 1. f_equal. rewrite E0 in E1. 
  assert (T : ztake 4 (l ++ d0) = ztake 4 (b ++ rest)) by congruence. rewrite ztake_app_eq in T by lia. rewrite ztake_app_le in T by lia. congruence.
Qed.
Ltac np := repeat match goal with
  | |- fst (match b_read ?d ?n with _ => _ end) <> _ => let r := fresh in let s := fresh in let E := fresh in destruct (b_read d n) as [r s] eqn:E; apply b_read_spec in E as [(? & -> & _)|(-> & _)]
  | |- fst (match b_skip ?d ?n with _ => _ end) <> _ => let r := fresh in let s := fresh in let E := fresh in destruct (b_skip d n) as [r s] eqn:E; apply b_skip_spec in E as [(-> & _)|(-> & _)]
  | |- fst (match b_read_string ?d with _ => _ end) <> _ => let r := fresh in let s := fresh in let E := fresh in destruct (b_read_string d) as [r s] eqn:E; apply b_read_string_spec in E as [(? & -> & _)|(-> & _)]
  | |- fst (bs (b_read_bytes ?d ?n) _) <> _ => let r := fresh in let s := fresh in let E := fresh in destruct (b_read_bytes d n) as [r s] eqn:E; apply b_read_bytes_spec in E as [(? & -> & _)|(-> & _)]; cbn [bs]
  | |- fst (if ?c then _ else _) <> _ => destruct c
  | |- fst (_, _) <> _ => cbn [fst]; discriminate
  end.
Theorem subs_decodes e : decodes (sub_enc e) (sub_next e).
Proof.
  apply seq_decodes.
  - intros s b (_ & _ & _ & H) ->. apply (f_equal (@zlen Z)) in H. rewrite zlen_app, zlen_write_u in H. change (zlen (@nil Z)) with 0 in H.
    pose proof (zlen_nonneg (sb_vendor s ++ [0] ++ sb_data s)). lia.
  - intros; apply sub_parse_complete; assumption.
  - intros; apply sub_parse_sound; assumption.
  - intros data _. unfold sub_parse. np.
Qed.

Lemma tag_read data t d0 : b_read data 1 = (Ok t, d0) -> exists x, t = [x] /\ data = x :: d0 /\ read_u Little t = x.
Proof.
  rewrite b_read_1. destruct data as [|x data]; [discriminate|]. intro H; inversion H; subst. exists x. rewrite read_u_1. auto.
Qed.
Lemma subsub_parse_complete e s b rest : bytes_ok (b ++ rest) -> subsub_enc e s b -> subsub_parse e (b ++ rest) = (Ok s, rest).
Proof.
  intros Hb (H1 & H2 & H3). unfold subsub_parse. pose proof (zlen_nonneg b).
  set (w := write_u e 4 (zlen b)) in *. assert (Lw : zlen w = 4) by apply zlen_write_u.
  assert (exists tl, b = [ss_tag s] ++ w ++ tl) as [tl E].
  { destruct H3 as [(Ht & _ & E)|(_ & _ & E)]; [exists (ss_data s); rewrite E at 1; rewrite Ht; reflexivity|eexists; exact E]. }
  assert (E1 : b_read (b ++ rest) 1 = (Ok [ss_tag s], w ++ tl ++ rest)).
  { assert (Hd : b ++ rest = [ss_tag s] ++ (w ++ tl ++ rest)) by (rewrite E at 1; rewrite <- !app_assoc; reflexivity). rewrite Hd. apply b_read_app. reflexivity. }
  rewrite E1, read_u_1. rewrite b_read_app by lia.
  replace (read_u e w) with (zlen b) by (unfold w; rewrite read_write_u_small by (cbn; lia); reflexivity).
  rewrite b_read_bytes_app by reflexivity. cbn [bs].
  assert (Es : b_skip b (1 + 4) = (Ok tt, tl)).
  { rewrite E at 1. rewrite app_assoc. apply b_skip_app. rewrite zlen_app. change (zlen [ss_tag s]) with 1. lia. }
  rewrite Es. destruct H3 as [(Ht & Hi & E')|(Ht & Hi & E')].
  - rewrite Ht. cbn [Z.eqb orb Pos.eqb]. assert (tl = ss_data s) as ->.
    { rewrite Ht in E. rewrite E in E' at 1. apply app_inv_head in E'. apply app_inv_head in E'. exact E'. }
    do 2 f_equal. destruct s as [t0 l0 i0 d0]; cbn [ss_tag ss_length ss_indices ss_data] in *; congruence.
  - assert (tl = ss_indices s ++ [0] ++ ss_data s) as ->.
    { rewrite E in E' at 1. apply app_inv_head in E'. apply app_inv_head in E'. exact E'. }
    replace ((ss_tag s =? 2) || (ss_tag s =? 3)) with true by (destruct Ht as [-> | ->]; reflexivity).
    cbn [app]. rewrite b_read_string_app by assumption. do 2 f_equal. destruct s as [t0 l0 i0 d0]; cbn [ss_tag ss_length ss_indices ss_data] in *; congruence.
Qed.
Lemma subsub_parse_sound e data s rest : bytes_ok data -> subsub_parse e data = (Ok s, rest) -> exists b, subsub_enc e s b /\ data = b ++ rest.
Proof.
  intros Hb. unfold subsub_parse. destruct (b_read data 1) as [r d0] eqn:E0. pose proof E0 as E0'. apply b_read_spec in E0 as [(t & -> & _ & _ & _)|(-> & _)]; [|discriminate].
  apply tag_read in E0' as (x & -> & Ed & Ex). rewrite Ex.
  destruct (b_read d0 4) as [r d9] eqn:E0. apply b_read_spec in E0 as [(l & -> & H0 & Ll & E0)|(-> & _)]; [|discriminate].
  assert (Hl : bytes_ok l) by (rewrite Ed, E0 in Hb; inversion Hb as [|? ? _ Hb']; apply bytes_ok_app in Hb'; tauto).
  pose proof (read_u_bound e l Hl) as Bl. rewrite Ll in Bl. change (8 * 4) with 32 in Bl.
  destruct (b_read_bytes data (read_u e l)) as [r d1] eqn:E1. apply b_read_bytes_spec in E1 as [(b & -> & H1 & Lb & E1)|(-> & _)]; [|discriminate].
  cbn [bs]. destruct (b_skip b (1 + 4)) as [r d2] eqn:E2. apply b_skip_spec in E2 as [(-> & H2 & ->)|(-> & _)]; [|discriminate].
  change (1 + 4) with 5 in *.
  assert (Epre : b = [x] ++ write_u e 4 (zlen b) ++ zdrop 5 b).
  { rewrite Lb, write_read_n by (assumption || lia). rewrite <- (ztake_zdrop 5 b) at 1. rewrite app_assoc. f_equal.
    assert (T : ztake 5 ((x :: l) ++ d9) = ztake 5 (b ++ d1)) by (f_equal; cbn [app]; congruence).
    rewrite ztake_app_eq in T by (rewrite zlen_cons; lia). rewrite ztake_app_le in T by lia. rewrite <- T. reflexivity. }
  destruct ((x =? 2) || (x =? 3)) eqn:Et.
  - destruct (b_read_string (zdrop 5 b)) as [r d3] eqn:E3. apply b_read_string_spec in E3 as [(v & -> & E3 & Hv)|(-> & _)]; [|discriminate].
    intro H; inversion H; subst s d1. exists b. split; [|exact E1]. unfold subsub_enc. cbn [ss_length ss_indices ss_tag ss_data].
    split; [lia|]. split; [lia|]. right. split; [lia|]. split; [exact Hv|]. rewrite E3 in Epre. exact Epre.
  - destruct (Z.eqb_spec x 1) as [->|]; [|discriminate]. intro H; inversion H; subst s d1. exists b. split; [|exact E1].
    unfold subsub_enc. cbn [ss_length ss_indices ss_tag ss_data]. split; [lia|]. split; [lia|]. left. auto.
Qed.
Theorem subsubs_decodes e : decodes (subsub_enc e) (subsub_next e).
Proof.
  apply seq_decodes.
  - intros s b (_ & _ & [(_ & _ & H)|(_ & _ & H)]) ->; discriminate.
  - intros; apply subsub_parse_complete; assumption.
  - intros; apply subsub_parse_sound; assumption.
  - intros data _. unfold subsub_parse. np.
Qed.
Theorem indices_decodes : decodes index_enc index_next.
Proof.
  apply seq_decodes.
  - intros v b (H & _) ->. inversion H.
  - intros v b rest Hb (H1 & H2 & H3). unfold index_parse.
    assert (E : read_uleb128 (b ++ rest) = (Ok v, rest)) by (apply read_uleb128_iff; [assumption|]; exists b; repeat split; try assumption; lia).
    rewrite E. cbn [bs]. destruct (Z.ltb_spec v (2 ^ 32)); [reflexivity|lia].
  - intros data v rest Hb. unfold index_parse. destruct (read_uleb128 data) as [[x| |] d] eqn:E; cbn [bs]; try discriminate.
    destruct (Z.ltb_spec x (2 ^ 32)); [|discriminate]. intro H'; inversion H'; subst. apply read_uleb128_iff in E as (enc & H1 & H2 & H3 & H4); [|assumption].
    exists enc. split; [|assumption]. repeat split; assumption.
  - intros data Hb. unfold index_parse. pose proof (read_uleb128_no_panic data Hb). destruct (read_uleb128 data) as [[x| |] d]; cbn [bs fst] in *; try congruence.
    destruct (x <? 2 ^ 32); cbn; discriminate.
Qed.

(** * Writer *)
Definition ul (v : Z) : bytes := match write_uleb128_loop 10 v with Some e => e | None => [] end.
Lemma uleb_denotes_upper l v : uleb_denotes l v -> v < 2 ^ (7 * zlen l).
Proof.
  induction 1 as [b H|b l v H Hd IH]; [change (2 ^ (7 * zlen [b])) with 128; lia|].
  rewrite zlen_cons. replace (7 * (1 + zlen l)) with (7 + 7 * zlen l) by lia. pose proof (zlen_nonneg l). rewrite Z.pow_add_r by lia.
  change (2 ^ 7) with 128. lia.
Qed.
Lemma log2_7 v : 0 <= v -> 0 <= Z.log2 v / 7.
Proof. intro. apply Z.div_pos; [apply Z.log2_nonneg|lia]. Qed.
Lemma ul_spec v : u64_ok v -> write_uleb128_loop 10 v = Some (ul v) /\ uleb_denotes (ul v) v /\ zlen (ul v) = uleb_size v /\ zlen (ul v) <= 10.
Proof.
  intro Hv. unfold u64_ok in Hv. destruct (write_uleb128_loop_ok 10 v) as (e & He & Hd & Hl & Hmin); [lia|cbn; lia|].
  unfold ul. rewrite He. split; [reflexivity|]. split; [exact Hd|]. split; [|cbn in Hl; lia].
  unfold uleb_size. pose proof (uleb_denotes_upper _ _ Hd) as Hu. pose proof (uleb_denotes_nonnil _ _ Hd) as Hn.
  destruct (Z.le_gt_cases (zlen e) 1).
  - assert (zlen e = 1) as E1 by lia. rewrite E1 in *. change (2 ^ (7 * 1)) with 128 in Hu.
    assert (Z.log2 v < 7). { destruct (Z.eq_dec v 0) as [->|]; [reflexivity|]. apply Z.log2_lt_pow2; [lia|exact Hu]. }
    pose proof (Z.log2_nonneg v). rewrite Z.div_small by lia. reflexivity.
  - specialize (Hmin H). assert (0 < v) by (pose proof (Z.pow_pos_nonneg 2 (7 * (zlen e - 1)) ltac:(lia) ltac:(lia)); lia).
    assert (Z.log2 v < 7 * zlen e) by (apply Z.log2_lt_pow2; lia).
    assert (7 * (zlen e - 1) <= Z.log2 v) by (apply Z.log2_le_pow2; lia).
    replace (Z.log2 v / 7) with (zlen e - 1); [lia|]. apply (Z.div_unique _ _ _ (Z.log2 v - 7 * (zlen e - 1))); lia.
Qed.
Lemma ul_nonzero v : 0 < v < 2 ^ 64 -> ~ In 0 (ul v).
Proof.
  intro Hv. unfold ul. destruct (write_uleb128_loop_ok 10 v) as (e & He & Hd & Hl & Hmin); [lia|cbn; lia|].
  rewrite He. clear He Hl. assert (0 < v) as Hp by lia. clear Hv. revert Hp Hmin. induction Hd as [b Hb|b l v Hb Hd IH]; intros Hp Hmin [Hz|Hz]; try lia.
  - destruct Hz.
  - rewrite zlen_cons in Hmin. pose proof (uleb_denotes_nonnil _ _ Hd). replace (1 + zlen l - 1) with (zlen l) in Hmin by lia.
    assert (2 ^ (7 * zlen l) <= b - 128 + 128 * v) as Hm by (apply Hmin; lia).
    replace (7 * zlen l) with (7 + 7 * (zlen l - 1)) in Hm by lia. rewrite Z.pow_add_r in Hm by lia. change (2 ^ 7) with 128 in Hm.
    pose proof (Z.pow_pos_nonneg 2 (7 * (zlen l - 1)) ltac:(lia) ltac:(lia)).
    apply IH; [lia| |exact Hz]. intros _. lia.
Qed.
Lemma aw_uleb_eq d v : u64_ok v -> aw_uleb d v = Ok (d ++ ul v).
Proof. intro H. unfold aw_uleb, write_uleb128. destruct (ul_spec v H) as (-> & _). reflexivity. Qed.

(** Encodings produced *)
Definition item_b (i : aitem) : bytes := match i with ITag v | IInt v => ul v | IStr s => s ++ [0] end.
Definition ss_idx (v : vsubsub) : bytes := concat (map ul (vs_indices v)).
Definition ss_attrs (v : vsubsub) : bytes := concat (map item_b (vs_items v)).
Definition ss_body (v : vsubsub) : bytes := ss_idx v ++ (if vs_tag v =? 1 then [] else [0]) ++ ss_attrs v.
Definition ss_b (e : endian) (v : vsubsub) : bytes := [vs_tag v] ++ write_u e 4 (subsub_size v) ++ ss_body v.
Definition sub_b (e : endian) (v : vsub) : bytes :=
  write_u e 4 (sub_size v) ++ vv_vendor v ++ [0] ++ concat (map (ss_b e) (vv_subsubs v)).

Lemma zlen_concat_sum {A} (f : A -> bytes) (g : A -> Z) l : Forall (fun x => zlen (f x) = g x) l -> zlen (concat (map f l)) = sumZ g l.
Proof. induction 1 as [|x l Hx _ IH]; [reflexivity|]. cbn [map concat sumZ fold_right]. rewrite zlen_app, Hx. unfold sumZ in IH. lia. Qed.
Lemma zlen_item i : item_ok i -> zlen (item_b i) = item_size i.
Proof. destruct i as [v|v|s]; cbn [item_ok item_b item_size]; intro H; [apply ul_spec, H|apply ul_spec, H|zl]. Qed.
Lemma idx_ok s : subsub_ok s -> Forall (fun i => u64_ok i) (vs_indices s).
Proof. intros (_ & H & _). eapply Forall_impl; [|exact H]. unfold u64_ok. cbn. intros. lia. Qed.
Lemma zlen_ss_idx s : subsub_ok s -> zlen (ss_idx s) = sumZ uleb_size (vs_indices s).
Proof. intro H. apply zlen_concat_sum. eapply Forall_impl; [|exact (idx_ok s H)]. intros i Hi. apply ul_spec, Hi. Qed.
Lemma zlen_ss_body s : subsub_ok s -> zlen (ss_body s) + 5 = subsub_size s.
Proof.
  intros H. unfold ss_body, subsub_size. rewrite !zlen_app, zlen_ss_idx by assumption.
  assert (zlen (ss_attrs s) = sumZ item_size (vs_items s)).
  { apply zlen_concat_sum. destruct H as (_ & _ & H). eapply Forall_impl; [|exact H]. intros. apply zlen_item. assumption. }
  destruct (vs_tag s =? 1); [change (zlen (@nil Z)) with 0|change (zlen [0]) with 1]; lia.
Qed.
Lemma zlen_ss_b e s : subsub_ok s -> zlen (ss_b e s) = subsub_size s.
Proof. intro H. unfold ss_b. rewrite !zlen_app, zlen_write_u, <- zlen_ss_body by assumption. change (zlen [vs_tag s]) with 1. lia. Qed.
Lemma zlen_sub_b e s : sub_ok s -> zlen (sub_b e s) = sub_size s.
Proof.
  intros (_ & _ & H). unfold sub_b, sub_size. rewrite !zlen_app, zlen_write_u. change (zlen [0]) with 1.
  rewrite (zlen_concat_sum (ss_b e) subsub_size); [lia|]. eapply Forall_impl; [|exact H]. intros. apply zlen_ss_b. assumption.
Qed.
Lemma sumZ_nonneg {A} (f : A -> Z) l : Forall (fun x => 0 <= f x) l -> 0 <= sumZ f l.
Proof. induction 1; cbn; [lia|]. unfold sumZ in *. lia. Qed.

(** running the append operations *)
Definition op_append (op : aop) : option bytes :=
  match op with
  | OIndex v | OTag v | OInt v => Some (ul v)
  | OIndices raw => Some (raw ++ [0]) | OStr s => Some (s ++ [0]) | ORaw raw => Some raw
  | _ => None
  end.
Definition op_ok (op : aop) : Prop := match op with OIndex v | OTag v | OInt v => u64_ok v | _ => True end.
Lemma aw_op_append e w op b : op_ok op -> op_append op = Some b -> aw_in_sub w = true -> aw_in_subsub w = true ->
  aw_op e w op = Ok {| aw_data := aw_data w ++ b; aw_sub := aw_sub w; aw_subsub := aw_subsub w |}.
Proof.
  intros Hok Hb H1 H2. destruct op; cbn [op_append op_ok] in *; try discriminate; inversion Hb; subst b; cbn [aw_op]; unfold aw_append;
    rewrite H1, H2; cbn [aw_assert bind]; try rewrite aw_uleb_eq by assumption; reflexivity.
Qed.
Lemma aw_run_app e ops1 ops2 w : aw_run e (ops1 ++ ops2) w = (w' <- aw_run e ops1 w ;; aw_run e ops2 w').
Proof. revert w; induction ops1 as [|op ops1 IH]; intro w; [reflexivity|]. cbn [app aw_run]. destruct (aw_op e w op); cbn [bind]; auto. Qed.
Lemma aw_run_appends e (f : aop -> bytes) ops : Forall op_ok ops -> Forall (fun op => op_append op = Some (f op)) ops -> forall w,
  aw_in_sub w = true -> aw_in_subsub w = true ->
  aw_run e ops w = Ok {| aw_data := aw_data w ++ concat (map f ops); aw_sub := aw_sub w; aw_subsub := aw_subsub w |}.
Proof.
  induction ops as [|op ops IH]; intros H1 H2 w W1 W2; cbn [aw_run map concat].
  - rewrite app_nil_r. destruct w; reflexivity.
  - inversion H1; subst. inversion H2; subst. rewrite (aw_op_append e w op (f op)) by assumption. cbn [bind].
    rewrite IH; cbn [aw_data aw_sub aw_subsub]; try assumption. rewrite <- app_assoc. reflexivity.
Qed.
Definition opb (op : aop) : bytes := match op_append op with Some b => b | None => [] end.
Lemma aw_patch_mid a x b y : zlen x = zlen b -> aw_patch (a ++ x ++ y) (zlen a) b = Ok (a ++ b ++ y).
Proof.
  intro H. unfold aw_patch. pose proof (zlen_nonneg y). rewrite !zlen_app.
  destruct (Z.leb_spec (zlen a + zlen b) (zlen a + (zlen x + zlen y))); [|lia]. rewrite ztake_app. f_equal. f_equal. f_equal.
  rewrite app_assoc. apply zdrop_app_eq. zl.
Qed.
Lemma subsub_inner s : subsub_ok s ->
  let ops := map OIndex (vs_indices s) ++ (if vs_tag s =? 1 then [] else [OIndex 0]) ++ map item_op (vs_items s) in
  Forall op_ok ops /\ Forall (fun op => op_append op = Some (opb op)) ops /\ concat (map opb ops) = ss_body s.
Proof.
  intros H ops. pose proof (idx_ok s H) as Hi. destruct H as (_ & _ & H). subst ops. split; [|split].
  - apply Forall_app; split; [apply Forall_map; exact Hi|]. apply Forall_app; split; [destruct (vs_tag s =? 1); repeat constructor; unfold u64_ok; try lia|].
    apply Forall_map. eapply Forall_impl; [|exact H]. intros [v|v|s0]; cbn; auto.
  - apply Forall_app; split; [apply Forall_map, Forall_forall; reflexivity|]. apply Forall_app; split; [destruct (vs_tag s =? 1); repeat constructor|].
    apply Forall_map, Forall_forall. intros [v|v|s0] _; reflexivity.
  - rewrite !map_app, !concat_app. unfold ss_body, ss_idx, ss_attrs. f_equal; [rewrite map_map; reflexivity|]. f_equal.
    + destruct (vs_tag s =? 1); reflexivity.
    + rewrite map_map. f_equal. apply map_ext. intros [v|v|s0]; reflexivity.
Qed.
Lemma run_subsub e s w : subsub_ok s -> aw_sub w <> 0 -> aw_subsub w = 0 -> 0 < zlen (aw_data w) -> zlen (aw_data w) + subsub_size s < 2 ^ 32 ->
  aw_run e (subsub_ops s) w = Ok {| aw_data := aw_data w ++ ss_b e s; aw_sub := aw_sub w; aw_subsub := 0 |}.
Proof.
  intros Hs W1 W2 W3 W4. destruct (subsub_inner s Hs) as (I1 & I2 & I3). set (inner := map OIndex (vs_indices s) ++ (if vs_tag s =? 1 then [] else [OIndex 0]) ++ map item_op (vs_items s)) in *.
  replace (subsub_ops s) with ([OStartSubsub (vs_tag s)] ++ inner ++ [OEndSubsub]) by (unfold subsub_ops, inner; rewrite <- !app_assoc; reflexivity). clearbody inner.
  pose proof (zlen_ss_body s Hs) as Lb. pose proof (zlen_nonneg (ss_body s)).
  rewrite !aw_run_app. cbn [aw_run aw_op]. unfold aw_in_sub. rewrite W2. destruct (Z.eqb_spec (aw_sub w) 0); [congruence|]. cbn [negb aw_assert bind Z.eqb].
  assert (Eo : aw_offset w = zlen (aw_data w)) by (unfold aw_offset; apply wrap_u_id; lia). rewrite Eo.
  rewrite aw_run_app, (aw_run_appends e opb inner I1 I2); cbn [aw_data aw_sub aw_subsub aw_in_sub aw_in_subsub].
  2:{ unfold aw_in_sub. cbn [aw_sub]. destruct (Z.eqb_spec (aw_sub w) 0); [congruence|reflexivity]. }
  2:{ unfold aw_in_subsub. cbn [aw_subsub]. destruct (Z.eqb_spec (zlen (aw_data w)) 0); [lia|reflexivity]. }
  cbn [bind aw_run aw_op]. unfold aw_in_sub, aw_in_subsub. cbn [aw_data aw_sub aw_subsub].
  destruct (Z.eqb_spec (aw_sub w) 0); [congruence|]. destruct (Z.eqb_spec (zlen (aw_data w)) 0); [lia|]. cbn [negb aw_assert bind].
  rewrite I3. set (D := (aw_data w ++ [vs_tag s] ++ zeros 4) ++ ss_body s).
  assert (LD : zlen D = zlen (aw_data w) + subsub_size s).
  { unfold D. rewrite !zlen_app, zlen_zeros by lia. change (zlen [vs_tag s]) with 1. lia. }
  unfold aw_offset. cbn [aw_data]. rewrite wrap_u_id by lia. unfold psub. destruct (Z.leb_spec (zlen (aw_data w)) (zlen D)); [|lia]. cbn [bind].
  rewrite LD. replace (zlen (aw_data w) + subsub_size s - zlen (aw_data w)) with (subsub_size s) by lia.
  replace (zlen (aw_data w) + 1) with (zlen (aw_data w ++ [vs_tag s])) by (rewrite zlen_app; reflexivity).
  unfold D. replace ((aw_data w ++ [vs_tag s] ++ zeros 4) ++ ss_body s) with ((aw_data w ++ [vs_tag s]) ++ zeros 4 ++ ss_body s) by (rewrite <- !app_assoc; reflexivity).
  rewrite aw_patch_mid by (rewrite zlen_write_u; reflexivity). cbn [bind]. do 2 f_equal. unfold ss_b. rewrite <- !app_assoc. reflexivity.
Qed.
Lemma run_subsubs e l : Forall subsub_ok l -> forall w, aw_sub w <> 0 -> aw_subsub w = 0 -> 0 < zlen (aw_data w) ->
  zlen (aw_data w) + sumZ subsub_size l < 2 ^ 32 ->
  aw_run e (concat (map subsub_ops l)) w = Ok {| aw_data := aw_data w ++ concat (map (ss_b e) l); aw_sub := aw_sub w; aw_subsub := 0 |}.
Proof.
  induction 1 as [|s l Hs Hl IH]; intros w W1 W2 W3 W4; cbn [map concat].
  - cbn. rewrite app_nil_r, <- W2. destruct w; reflexivity.
  - cbn [sumZ fold_right] in W4. fold (sumZ subsub_size l) in W4.
    assert (0 <= sumZ subsub_size l) by (apply sumZ_nonneg; eapply Forall_impl; [|exact Hl]; intros x Hx; rewrite <- (zlen_ss_b Little) by assumption; apply zlen_nonneg).
    rewrite aw_run_app, run_subsub by (assumption || lia). cbn [bind]. pose proof (zlen_ss_b e s Hs). pose proof (zlen_nonneg (ss_b e s)).
    rewrite IH; cbn [aw_data aw_sub aw_subsub]; try assumption; try reflexivity; try (rewrite zlen_app; lia). rewrite <- app_assoc. reflexivity.
Qed.
Lemma subsub_size_pos s : subsub_ok s -> 0 <= subsub_size s.
Proof. intro H. rewrite <- (zlen_ss_b Little) by assumption. apply zlen_nonneg. Qed.
Lemma run_sub e s w : sub_ok s -> aw_sub w = 0 -> aw_subsub w = 0 -> 0 < zlen (aw_data w) -> zlen (aw_data w) + sub_size s < 2 ^ 32 ->
  aw_run e (sub_ops s) w = Ok {| aw_data := aw_data w ++ sub_b e s; aw_sub := 0; aw_subsub := 0 |}.
Proof.
  intros Hs W1 W2 W3 W4. pose proof (zlen_sub_b e s Hs) as Ls. unfold sub_ops. rewrite !aw_run_app. cbn [aw_run aw_op]. rewrite W1, W2. cbn [Z.eqb aw_assert bind].
  destruct Hs as (_ & _ & Hs). 
  assert (0 <= sumZ subsub_size (vv_subsubs s)) by (apply sumZ_nonneg; eapply Forall_impl; [|exact Hs]; apply subsub_size_pos).
  unfold sub_size in W4. pose proof (zlen_nonneg (vv_vendor s)).
  assert (Eo : aw_offset w = zlen (aw_data w)) by (unfold aw_offset; apply wrap_u_id; lia). rewrite Eo.
  set (D0 := aw_data w ++ zeros 4 ++ vv_vendor s ++ [0]).
  assert (L0 : zlen D0 = zlen (aw_data w) + 4 + zlen (vv_vendor s) + 1) by (unfold D0; rewrite !zlen_app, zlen_zeros by lia; change (zlen [0]) with 1; lia).
  rewrite aw_run_app, run_subsubs; cbn [aw_data aw_sub aw_subsub]; try assumption; try lia.
  cbn [bind aw_run aw_op]. unfold aw_in_sub. cbn [aw_data aw_sub aw_subsub]. destruct (Z.eqb_spec (zlen (aw_data w)) 0); [lia|]. cbn [negb aw_assert bind Z.eqb].
  set (D := D0 ++ concat (map (ss_b e) (vv_subsubs s))).
  assert (LD : zlen D = zlen (aw_data w) + sub_size s).
  { unfold D. rewrite zlen_app, (zlen_concat_sum (ss_b e) subsub_size); [unfold sub_size; lia|]. eapply Forall_impl; [|exact Hs]. intros. apply zlen_ss_b. assumption. }
  unfold aw_offset. cbn [aw_data]. rewrite wrap_u_id by (unfold sub_size in LD; lia). unfold psub. destruct (Z.leb_spec (zlen (aw_data w)) (zlen D)); [|unfold sub_size in LD; lia]. cbn [bind].
  rewrite LD. replace (zlen (aw_data w) + sub_size s - zlen (aw_data w)) with (sub_size s) by lia.
  unfold D, D0. rewrite <- !app_assoc.
  rewrite aw_patch_mid by (rewrite zlen_write_u; reflexivity). cbn [bind]. do 2 f_equal. 
Qed.
Lemma sub_size_pos s : sub_ok s -> 0 <= sub_size s.
Proof. intro H. rewrite <- (zlen_sub_b Little) by assumption. apply zlen_nonneg. Qed.
Lemma run_subs e l : Forall sub_ok l -> forall w, aw_sub w = 0 -> aw_subsub w = 0 -> 0 < zlen (aw_data w) ->
  zlen (aw_data w) + sumZ sub_size l < 2 ^ 32 ->
  aw_run e (section_ops l) w = Ok {| aw_data := aw_data w ++ concat (map (sub_b e) l); aw_sub := 0; aw_subsub := 0 |}.
Proof.
  unfold section_ops. induction 1 as [|s l Hs Hl IH]; intros w W1 W2 W3 W4; cbn [map concat].
  - cbn. rewrite app_nil_r. destruct w; cbn in *; subst; reflexivity.
  - cbn [sumZ fold_right] in W4. fold (sumZ sub_size l) in W4.
    assert (0 <= sumZ sub_size l) by (apply sumZ_nonneg; eapply Forall_impl; [|exact Hl]; apply sub_size_pos).
    rewrite aw_run_app, run_sub by (assumption || lia). cbn [bind]. pose proof (zlen_sub_b e s Hs). pose proof (zlen_nonneg (sub_b e s)).
    rewrite IH; cbn [aw_data aw_sub aw_subsub]; try assumption; try reflexivity; try (rewrite zlen_app; lia). rewrite <- app_assoc. reflexivity.
Qed.

(** too large: the length is determined by the operations, whatever happens *)
Definition op_len (op : aop) : Z :=
  match op with
  | OStartSub v => 4 + zlen v + 1 | OStartSubsub _ => 5 | OEndSub | OEndSubsub => 0
  | op => zlen (opb op)
  end.
Definition aw_nn (w : aw) : Prop := 0 <= aw_sub w /\ 0 <= aw_subsub w.
Lemma aw_patch_len e d off l : 0 <= off -> match aw_patch d off (write_u e 4 l) with Ok d' => zlen d' = zlen d | Err => False | Panic => True end.
Proof.
  intro Ho. unfold aw_patch. rewrite zlen_write_u. change (Z.of_nat 4) with 4. destruct (Z.leb_spec (off + 4) (zlen d)); [|exact I].
  rewrite !zlen_app, zlen_write_u, zlen_ztake, zlen_zdrop by lia. change (Z.of_nat 4) with 4. lia.
Qed.
Lemma aw_offset_nn w : 0 <= aw_offset w.
Proof. unfold aw_offset, wrap_u. apply Z.mod_pos_bound. lia. Qed.
Lemma aw_op_len e w op : op_ok op -> aw_nn w ->
  match aw_op e w op with Ok w' => zlen (aw_data w') = zlen (aw_data w) + op_len op /\ aw_nn w' | Err => False | Panic => True end.
Proof.
  intros Hop [N1 N2]. pose proof (aw_offset_nn w) as N3. destruct (op_append op) as [b|] eqn:Eb.
  - destruct (aw_in_sub w) eqn:W1; [destruct (aw_in_subsub w) eqn:W2|].
    + rewrite (aw_op_append e w op b Hop Eb W1 W2). cbn [aw_data]. split; [|split; assumption].
      rewrite zlen_app. f_equal. unfold op_len, opb. rewrite Eb. destruct op; try discriminate; reflexivity.
    + destruct op; try discriminate Eb; cbn [aw_op]; unfold aw_append; rewrite W1, W2; exact I.
    + destruct op; try discriminate Eb; cbn [aw_op]; unfold aw_append; rewrite W1; exact I.
  - destruct op; try discriminate Eb; cbn [aw_op op_len].
    + destruct (aw_sub w =? 0), (aw_subsub w =? 0); cbn [aw_assert bind aw_data]; auto. split; [|split; assumption]. rewrite !zlen_app, zlen_zeros by lia. change (zlen [0]) with 1. lia.
    + destruct (aw_in_sub w) eqn:W1, (aw_subsub w =? 0); cbn [aw_assert bind aw_data]; auto. unfold psub. destruct (aw_sub w <=? aw_offset w); cbn [bind]; auto.
      pose proof (aw_patch_len e (aw_data w) (aw_sub w) (aw_offset w - aw_sub w) N1) as HP. destruct (aw_patch _ _ _) as [d| |]; cbn [bind aw_data]; auto.
      split; [lia|split; cbn; lia].
    + destruct (aw_in_sub w) eqn:W1, (aw_subsub w =? 0); cbn [aw_assert bind aw_data]; auto. split; [|split; assumption]. rewrite !zlen_app, zlen_zeros by lia. change (zlen [tag]) with 1. lia.
    + destruct (aw_in_sub w) eqn:W1, (aw_in_subsub w) eqn:W2; cbn [aw_assert bind aw_data]; auto. unfold psub. destruct (aw_subsub w <=? aw_offset w); cbn [bind]; auto.
      pose proof (aw_patch_len e (aw_data w) (aw_subsub w + 1) (aw_offset w - aw_subsub w) ltac:(lia)) as HP. destruct (aw_patch _ _ _) as [d| |]; cbn [bind aw_data]; auto.
      split; [lia|split; cbn; lia].
Qed.
Lemma aw_run_len e ops : Forall op_ok ops -> forall w, aw_nn w ->
  match aw_run e ops w with Ok w' => zlen (aw_data w') = zlen (aw_data w) + sumZ op_len ops | Err => False | Panic => True end.
Proof.
  induction 1 as [|op ops Hop Hops IH]; intros w Hw; cbn [aw_run]; [cbn; lia|].
  pose proof (aw_op_len e w op Hop Hw) as H. destruct (aw_op e w op) as [w'| |]; cbn [bind]; auto. destruct H as [H1 H2].
  specialize (IH w' H2). destruct (aw_run e ops w'); auto. cbn [sumZ fold_right]. fold (sumZ op_len ops). lia.
Qed.
Lemma sumZ_app {A} (f : A -> Z) a b : sumZ f (a ++ b) = sumZ f a + sumZ f b.
Proof. unfold sumZ. induction a; cbn; lia. Qed.
Lemma sumZ_concat {A B} (f : A -> list B) (g : B -> Z) (h : A -> Z) l : Forall (fun x => sumZ g (f x) = h x) l -> sumZ g (concat (map f l)) = sumZ h l.
Proof. induction 1 as [|x l Hx Hl IH]; [reflexivity|]. cbn [map concat]. rewrite sumZ_app, Hx, IH. reflexivity. Qed.
Lemma sumZ_len_inner ops : Forall (fun op => op_append op = Some (opb op)) ops -> sumZ op_len ops = zlen (concat (map opb ops)).
Proof.
  intro H. symmetry. apply zlen_concat_sum. eapply Forall_impl; [|exact H]. intros op Ho. unfold opb, op_len in *. destruct op; cbn in *; try discriminate; reflexivity.
Qed.
Lemma subsub_ops_len s : subsub_ok s -> Forall op_ok (subsub_ops s) /\ sumZ op_len (subsub_ops s) = subsub_size s.
Proof.
  intro Hs. destruct (subsub_inner s Hs) as (I1 & I2 & I3). set (inner := map OIndex (vs_indices s) ++ (if vs_tag s =? 1 then [] else [OIndex 0]) ++ map item_op (vs_items s)) in *.
  replace (subsub_ops s) with ([OStartSubsub (vs_tag s)] ++ inner ++ [OEndSubsub]) by (unfold subsub_ops, inner; rewrite <- !app_assoc; reflexivity). clearbody inner.
  split; [apply Forall_app; split; [repeat constructor|apply Forall_app; split; [assumption|repeat constructor]]|].
  rewrite !sumZ_app, (sumZ_len_inner inner), I3, <- zlen_ss_body by assumption. unfold sumZ. cbn [fold_right op_len]. lia.
Qed.
Lemma Forall_concat_map {A B} (P : B -> Prop) (f : A -> list B) l : Forall (fun x => Forall P (f x)) l -> Forall P (concat (map f l)).
Proof. induction 1; cbn; [constructor|]. apply Forall_app; auto. Qed.
Lemma sub_ops_len s : sub_ok s -> Forall op_ok (sub_ops s) /\ sumZ op_len (sub_ops s) = sub_size s.
Proof.
  intros (_ & _ & Hs). unfold sub_ops. split.
  - apply Forall_app; split; [repeat constructor|apply Forall_app; split; [|repeat constructor]]. apply Forall_concat_map. eapply Forall_impl; [|exact Hs].
    intros. apply subsub_ops_len. assumption.
  - rewrite !sumZ_app. rewrite (sumZ_concat _ _ subsub_size); [unfold sub_size; cbn; lia|]. eapply Forall_impl; [|exact Hs].
    intros. apply subsub_ops_len. assumption.
Qed.

(** * Reading back *)
Lemma ul_bytes_ok v : u64_ok v -> bytes_ok (ul v).
Proof. intro H. eapply uleb_denotes_bytes_ok. apply ul_spec, H. Qed.
Lemma item_bytes_ok i : item_ok i -> bytes_ok (item_b i).
Proof.
  destruct i as [v|v|s]; cbn; intro H; [apply ul_bytes_ok, H|apply ul_bytes_ok, H|]. apply bytes_ok_app. split; [tauto|repeat constructor; unfold byte_ok; lia].
Qed.
Lemma bytes_ok_cm {A} (f : A -> bytes) l : Forall (fun x => bytes_ok (f x)) l -> bytes_ok (concat (map f l)).
Proof. apply Forall_concat_map. Qed.
Lemma attrs_ok s : subsub_ok s -> bytes_ok (ss_attrs s).
Proof. intros (_ & _ & H). apply bytes_ok_cm. eapply Forall_impl; [|exact H]. apply item_bytes_ok. Qed.
Lemma ss_idx_bytes s : subsub_ok s -> bytes_ok (ss_idx s).
Proof. intro H. apply bytes_ok_cm. eapply Forall_impl; [|exact (idx_ok s H)]. apply ul_bytes_ok. Qed.
Lemma ss_b_ok e s : subsub_ok s -> bytes_ok (ss_b e s).
Proof.
  intro H. unfold ss_b, ss_body. rewrite !bytes_ok_app. split; [|split; [|split; [|split]]].
  - destruct H as ([[-> _]|[->| ->]] & _); repeat constructor; unfold byte_ok; lia.
  - apply bytes_ok_write_u.
  - apply ss_idx_bytes, H.
  - destruct (vs_tag s =? 1); repeat constructor; unfold byte_ok; lia.
  - apply attrs_ok, H.
Qed.
Lemma sub_b_ok e s : sub_ok s -> bytes_ok (sub_b e s).
Proof.
  intros (H1 & _ & H2). unfold sub_b. rewrite !bytes_ok_app. split; [apply bytes_ok_write_u|]. split; [assumption|]. split; [repeat constructor; unfold byte_ok; lia|].
  apply bytes_ok_cm. eapply Forall_impl; [|exact H2]. intros. apply ss_b_ok. assumption.
Qed.
Lemma attrs_read_ok l : Forall item_ok l -> attrs_read (concat (map item_b l)) l.
Proof.
  induction 1 as [|i l Hi Hl IH]; [apply rd_end; reflexivity|]. cbn [map concat].
  assert (Hb : bytes_ok (item_b i ++ concat (map item_b l))).
  { apply bytes_ok_app. split; [apply item_bytes_ok, Hi|]. apply bytes_ok_cm. eapply Forall_impl; [|exact Hl]. apply item_bytes_ok. }
  destruct i as [v|v|s]; cbn [item_b item_ok] in *.
  - eapply rd_tag; [|exact IH]. destruct (ul_spec v Hi) as (_ & Hd & _ & H10). unfold ar_read_tag.
    assert (E : read_uleb128 (ul v ++ concat (map item_b l)) = (Ok v, concat (map item_b l))).
    { apply read_uleb128_iff; [assumption|]. exists (ul v). unfold u64_ok in Hi. repeat split; try assumption; lia. }
    destruct (ul v ++ concat (map item_b l)) eqn:El; [|rewrite E; reflexivity].
    exfalso. destruct Hd; discriminate.
  - eapply rd_int; [|exact IH]. destruct (ul_spec v Hi) as (_ & Hd & _ & H10). apply read_uleb128_iff; [assumption|].
    exists (ul v). unfold u64_ok in Hi. repeat split; try assumption; lia.
  - eapply rd_str; [|exact IH]. rewrite <- app_assoc. cbn [app]. apply b_read_string_app. tauto.
Qed.
Lemma idx_seq s : subsub_ok s -> seq_of index_enc [] (vs_indices s) (ss_idx s).
Proof.
  intros (_ & H & _). unfold ss_idx. induction H as [|i l Hi Hl IH]; [constructor|]. cbn [map concat]. constructor; [|exact IH].
  destruct (ul_spec i) as (_ & Hd & _ & H10); [unfold u64_ok; lia|]. split; [exact Hd|]. split; [exact H10|lia].
Qed.
Lemma idx_no_zero s : subsub_ok s -> ~ In 0 (ss_idx s).
Proof.
  intros (_ & H & _). unfold ss_idx. induction H as [|i l Hi Hl IH]; [intros []|]. cbn [map concat]. rewrite in_app_iff. intros [Hx|Hx]; [|auto].
  revert Hx. apply ul_nonzero. lia.
Qed.
Definition ss_read (v : vsubsub) : asubsub :=
  {| ss_tag := vs_tag v; ss_length := subsub_size v; ss_indices := ss_idx v; ss_data := ss_attrs v |}.
Lemma ss_read_enc e v : subsub_ok v -> subsub_size v < 2 ^ 32 -> subsub_enc e (ss_read v) (ss_b e v).
Proof.
  intros Hv Hs. pose proof (zlen_ss_b e v Hv) as L. pose proof (idx_no_zero v Hv) as Hz. pose proof Hv as (Ht & Hi & Hit).
  split; [symmetry; exact L|]. split; [lia|]. rewrite L.
  unfold ss_read. cbn [ss_tag ss_indices ss_data]. destruct Ht as [(Ht & Hn)|Ht].
  - left. split; [exact Ht|]. split; [unfold ss_idx; rewrite Hn; reflexivity|]. unfold ss_b, ss_body. rewrite Ht. unfold ss_idx. rewrite Hn. reflexivity.
  - right. split; [exact Ht|]. split; [exact Hz|]. unfold ss_b, ss_body. destruct Ht as [->| ->]; reflexivity.
Qed.
Lemma ss_read_reads v : subsub_ok v -> subsub_reads (ss_read v) v.
Proof.
  intro H. unfold subsub_reads, ss_read. cbn [ss_tag ss_length ss_indices ss_data]. split; [reflexivity|]. split; [reflexivity|]. split.
  - apply indices_decodes; [apply ss_idx_bytes, H|apply idx_seq, H].
  - apply attrs_read_ok. apply H.
Qed.
Definition sub_read (e : endian) (v : vsub) : asub :=
  {| sb_length := sub_size v; sb_vendor := vv_vendor v; sb_data := concat (map (ss_b e) (vv_subsubs v)) |}.
Lemma seq_of_map {A B} (R : A -> bytes -> Prop) (f : B -> A) (g : B -> bytes) l : Forall (fun x => R (f x) (g x)) l ->
  seq_of R [] (map f l) (concat (map g l)).
Proof. induction 1; cbn; constructor; assumption. Qed.
Lemma sum_member {A} (f : A -> Z) l : Forall (fun x => 0 <= f x) l -> Forall (fun x => f x <= sumZ f l) l.
Proof.
  induction 1 as [|x l Hx Hl IH]; [constructor|]. pose proof (sumZ_nonneg f l Hl). unfold sumZ in *. cbn [fold_right]. constructor; [lia|].
  eapply Forall_impl; [|exact IH]. cbn. intros. lia.
Qed.
Lemma sub_read_reads e v : sub_ok v -> sub_size v < 2 ^ 32 -> sub_reads e (sub_read e v) v.
Proof.
  intros Hv Hs. split; [reflexivity|]. split; [reflexivity|]. destruct Hv as (_ & _ & Hss). exists (map ss_read (vv_subsubs v)).
  assert (Hp : Forall (fun x => 0 <= subsub_size x) (vv_subsubs v)) by (eapply Forall_impl; [|exact Hss]; apply subsub_size_pos).
  pose proof (sum_member subsub_size _ Hp) as Hm. pose proof (zlen_nonneg (vv_vendor v)). unfold sub_size in Hs. split.
  - apply subsubs_decodes.
    + apply bytes_ok_cm. eapply Forall_impl; [|exact Hss]. intros. apply ss_b_ok. assumption.
    + apply seq_of_map. rewrite Forall_forall in *. intros x Hx. apply ss_read_enc; [apply Hss, Hx|]. specialize (Hm x Hx). cbn in Hm. lia.
  - clear -Hss. induction Hss; cbn; constructor; [apply ss_read_reads; assumption|assumption].
Qed.
Lemma sub_read_enc e v : sub_ok v -> sub_size v < 2 ^ 32 -> sub_enc e (sub_read e v) (sub_b e v).
Proof.
  intros Hv Hs. pose proof (zlen_sub_b e v Hv) as L. split; [symmetry; exact L|]. split; [lia|]. rewrite L. destruct Hv as (_ & Hz & _). split; [exact Hz|reflexivity].
Qed.
Theorem attr_roundtrip : forall e l, Forall sub_ok l ->
  (section_size l < 2 ^ 32 - 1 -> exists data, aw_write e (section_ops l) = Ok data /\ zlen data = section_size l /\ section_reads e data l) /\
  (2 ^ 32 - 1 <= section_size l -> aw_write e (section_ops l) = Panic).
Proof.
  intros e l Hl. assert (Hp : Forall (fun x => 0 <= sub_size x) l) by (eapply Forall_impl; [|exact Hl]; apply sub_size_pos).
  pose proof (sumZ_nonneg _ _ Hp) as Hnn. unfold section_size. split; intro Hs.
  - unfold aw_write. rewrite (run_subs e l Hl aw_new); cbn [aw_new aw_data aw_sub aw_subsub]; try reflexivity; try (change (zlen [65]) with 1; lia).
    cbn [bind]. unfold aw_finish. cbn [aw_data aw_sub aw_subsub Z.eqb aw_assert bind].
    set (body := concat (map (sub_b e) l)). assert (Lb : zlen body = sumZ sub_size l).
    { apply zlen_concat_sum. eapply Forall_impl; [|exact Hl]. intros. apply zlen_sub_b. assumption. }
    rewrite zlen_app, Lb. change (zlen [65]) with 1. destruct (Z.ltb_spec (1 + sumZ sub_size l) (2 ^ 32 - 1)); [|lia]. cbn [aw_assert bind].
    exists ([65] ++ body). split; [reflexivity|]. split; [rewrite zlen_app, Lb; reflexivity|].
    exists body, (map (sub_read e) l). split; [unfold attr_new; rewrite b_read_app by reflexivity; reflexivity|].
    pose proof (sum_member sub_size l Hp) as Hm.
    assert (Hall : Forall (fun x => sub_ok x /\ sub_size x < 2 ^ 32) l).
    { rewrite Forall_forall in *. intros x Hx. split; [apply Hl, Hx|]. specialize (Hm x Hx). cbn in Hm. lia. }
    split.
    + apply subs_decodes; [apply bytes_ok_cm; eapply Forall_impl; [|exact Hl]; intros; apply sub_b_ok; assumption|].
      apply seq_of_map. eapply Forall_impl; [|exact Hall]. intros x [H1 H2]. apply sub_read_enc; assumption.
    + clear -Hall. induction Hall as [|x l [H1 H2] _ IH]; cbn; constructor; [apply sub_read_reads; assumption|assumption].
  - assert (Hops : Forall op_ok (section_ops l)) by (apply Forall_concat_map; eapply Forall_impl; [|exact Hl]; intros; apply sub_ops_len; assumption).
    assert (Hlen : sumZ op_len (section_ops l) = sumZ sub_size l) by (apply sumZ_concat; eapply Forall_impl; [|exact Hl]; intros; apply sub_ops_len; assumption).
    pose proof (aw_run_len e (section_ops l) Hops aw_new) as H. unfold aw_write.
    destruct (aw_run e (section_ops l) aw_new) as [w| |]; cbn [bind]; [|exfalso; apply H; split; cbn; lia|reflexivity].
    assert (Hw : zlen (aw_data w) = zlen (aw_data aw_new) + sumZ op_len (section_ops l)) by (apply H; split; cbn; lia).
    rewrite Hlen in Hw. change (zlen (aw_data aw_new)) with 1 in Hw. unfold aw_finish.
    destruct (aw_sub w =? 0), (aw_subsub w =? 0); cbn [aw_assert bind]; try reflexivity.
    destruct (Z.ltb_spec (zlen (aw_data w)) (2 ^ 32 - 1)); [lia|reflexivity].
Qed.
