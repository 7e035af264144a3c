(** Proofs about phase 2 of the ELF writer. *)
From Verif Require Import Base Core_spec Core_proofs Str_spec Str_proofs Buf_proofs Map_proofs Util_proofs File_spec File_proofs Hash_proofs Pod_proofs Elf_proofs ElfR_proofs MachW_proofs.
From Verif Require CoffW_proofs.
From Verif Require Import ElfW_spec ElfWR_proofs.
Notation strtab := Str_model.strtab (only parsing).

(** * Lengths *)
Lemma hw_len n : forall i b hash bs cs bs' cs', hw_loop n i b hash bs cs = Ok (bs', cs') -> zlen bs' = zlen bs /\ zlen cs' = zlen cs.
Proof.
  induction n as [|n IH]; intros i b hash bs cs bs' cs' H; cbn [hw_loop] in H; [split; congruence|].
  destruct (hash i) as [h|]; [|exact (IH _ _ _ _ _ _ _ H)]. destruct (b =? 0); [discriminate|]. cbv zeta in H.
  destruct (zget bs (h mod b)) as [old|] eqn:E1; cbn [unwrap bind] in H; [|discriminate].
  destruct (zget cs i) as [o2|] eqn:E2; cbn [unwrap bind] in H; [|discriminate].
  apply IH in H. apply zget_Some_lt in E1, E2. rewrite !zlen_zset in H by assumption. exact H.
Qed.
Lemma hash_len e b n h d : 0 <= b -> 0 <= n -> hash_table e b n h = Ok d -> zlen d = hash_size b n.
Proof.
  intros Hb Hn H. unfold hash_table in H. mb H. destruct a as [bs cs]. assert (d = write_u e 4 b ++ write_u e 4 n ++ words e bs ++ words e cs) by congruence. subst d.
  apply hw_len in E. rewrite !zlen_zeros in E by assumption. rewrite !zlen_app, !zlen_write_u, !zlen_words. unfold hash_size. lia.
Qed.
Lemma gb_len wb d hash n : forall i fs fs', gw_bloom n i wb d hash fs = Ok fs' -> zlen fs' = zlen fs.
Proof.
  induction n as [|n IH]; intros i fs fs' H; cbn [gw_bloom] in H; [congruence|]. cbv zeta in H. mb H.
  destruct (32 <=? gd_bloom_shift d); [discriminate|]. match type of H with context [unwrap (zget fs ?k)] => destruct (zget fs k) as [f|] eqn:E1 end; cbn [unwrap bind] in H; [|discriminate].
  apply IH in H. apply zget_Some_lt in E1. rewrite zlen_zset in H by assumption. exact H.
Qed.
Lemma gk_len d hash n : 0 <= gd_bucket_count d -> forall i bk acc acc' bk', zlen acc = bk -> bk <= gd_bucket_count d -> gw_buckets n i d hash bk acc = Ok (acc', bk') ->
  zlen acc' = bk' /\ bk' <= gd_bucket_count d.
Proof.
  intro HB. induction n as [|n IH]; intros i bk acc acc' bk' L B H; cbn [gw_buckets] in H; [assert (acc' = acc /\ bk' = bk) as (-> & ->) by (split; congruence); split; assumption|].
  destruct (Z.eqb_spec (gd_bucket_count d) 0); [discriminate|]. cbv zeta in H.
  pose proof (Z.mod_pos_bound (hash i) (gd_bucket_count d) ltac:(lia)) as M. set (sb := hash i mod gd_bucket_count d) in *.
  destruct (bk <? sb) eqn:Q.
  - rewrite Z.eqb_refl in H. mb H. apply (IH _ _ _ _ _) in H; [exact H| |lia]. rewrite !zlen_app, zlen_zeros by lia. change (zlen [a]) with 1. lia.
  - destruct (Z.eqb_spec bk sb).
    + mb H. apply (IH _ _ _ _ _) in H; [exact H| |lia]. rewrite !zlen_app. change (zlen [a]) with 1. lia.
    + apply (IH _ _ _ _ _ L B H).
Qed.
Lemma gnu_len is64 e g h d : 0 <= gd_bloom_count g -> 0 <= gd_bucket_count g -> 0 <= gd_symbol_count g -> gnu_hash_table is64 e g h = Ok d ->
  zlen d = gnu_hash_size is64 (gd_bloom_count g) (gd_bucket_count g) (gd_symbol_count g).
Proof.
  intros H1 H2 H3 H. unfold gnu_hash_table in H. cbv zeta in H. mb H. mb H. destruct a0 as [bs bk].
  match type of H with Ok ?x = Ok d => assert (Q : d = x) by congruence end. rewrite Q. clear Q H.
  apply gb_len in E. rewrite zlen_zeros in E by assumption. apply (gk_len g h _ H2) in E0; [|reflexivity|assumption]. destruct E0 as (E0 & E1).
  rewrite !zlen_app, !zlen_write_u, !zlen_words, zlen_app, zlen_map, zlen_seqZ, zlen_zeros by lia.
  rewrite (zlen_concat_const (if is64 then 8 else 4)).
  - rewrite zlen_map, E. unfold gnu_hash_size. destruct is64; lia.
  - apply Forall_map, Forall_forall. intros x _. rewrite zlen_write_u. destruct is64; reflexivity.
Qed.
Lemma sym_len is64 e y : zlen (fst (enc_sym is64 e y)) = sym_size is64.
Proof. unfold enc_sym. cbn [fst]. destruct is64; rewrite !zlen_app, !zlen_write_u; reflexivity. Qed.
Lemma write_i_len e n v : zlen (write_i e n v) = Z.of_nat n.
Proof. unfold write_i. apply zlen_write_u. Qed.
Lemma dyn_len is64 e d b : enc_dyn is64 e d = Ok b -> zlen b = dyn_size is64.
Proof.
  unfold enc_dyn. destruct is64.
  - intro H. assert (b = write_i e 8 (d_tag d) ++ write_u e 8 (d_val d)) by congruence. subst. rewrite zlen_app, write_i_len, zlen_write_u. reflexivity.
  - destruct (_ || _); [discriminate|]. destruct (_ <=? _); [discriminate|]. intro H.
    assert (b = write_i e 4 (d_tag d) ++ write_u e 4 (d_val d)) by congruence. subst. rewrite zlen_app, write_i_len, zlen_write_u. reflexivity.
Qed.
Lemma header_len is64 e h l b : enc_file_header is64 e h l = Ok b -> zlen b = ehdr_size is64.
Proof. intro H. destruct (header_error is64 e h l) as [(hb & E & L)|(E & _)]; congruence. Qed.

(** * What a block of write calls changes *)
Definition wframe (p : option part) (w w' : wst) : Prop :=
  w_mips w' = w_mips w /\ w_xneed w' = w_xneed w /\ (p <> Some PSegments -> w_segs w' = w_segs w) /\
  (forall s, p <> Some (PTable s) -> w_num w' s = w_num w s /\ w_aux w' s = w_aux w s) /\
  (p <> Some (PTable SVerdef) -> w_def_rem (w_v w') = w_def_rem (w_v w)) /\ (p <> Some (PTable SVerneed) -> w_need_rem (w_v w') = w_need_rem (w_v w)) /\
  (p <> Some (PTable SSymtab) -> p <> Some (PTable SShndx) -> w_shndx w' = w_shndx w).
Lemma wframe_refl p w : wframe p w w.
Proof. repeat split. Qed.
Lemma wframe_trans p w1 w2 w3 : wframe p w1 w2 -> wframe p w2 w3 -> wframe p w1 w3.
Proof.
  intros (A1 & A2 & A3 & A4 & A5 & A6 & A7) (B1 & B2 & B3 & B4 & B5 & B6 & B7).
  split; [congruence|]. split; [congruence|]. split; [intro; rewrite B3, A3 by assumption; reflexivity|].
  split; [intros s H; destruct (A4 s H) as (-> & ->) || destruct (A4 s H); destruct (B4 s H); split; congruence|].
  split; [intro; rewrite B5, A5 by assumption; reflexivity|]. split; [intro; rewrite B6, A6 by assumption; reflexivity|].
  intros; rewrite B7, A7 by assumption; reflexivity.
Qed.
Lemma wframe_put p w b : wframe p w (w_put w b).
Proof. repeat split. Qed.
Lemma put_out w b : w_out (w_put w b) = w_out w ++ b.
Proof. reflexivity. Qed.
Lemma wrun_app R l1 l2 w : w_run R w (l1 ++ l2) = bind (w_run R w l1) (fun w1 => w_run R w1 l2).
Proof. revert w. induction l1 as [|c l IH]; intro w; cbn [app w_run bind]; [reflexivity|]. destruct (w_exec R w c); cbn [bind]; auto. Qed.
Lemma loop R (cl : list wcmd) (p : option part) (I : Z -> wst -> Prop) (D : Z -> bytes -> Prop) :
  (forall k c w, zget cl k = Some c -> I k w -> exists w' d, w_exec R w c = Ok w' /\ w_out w' = w_out w ++ d /\ wframe p w w' /\ I (k + 1) w' /\ D k d) ->
  forall w, I 0 w -> exists w' ds, w_run R w cl = Ok w' /\ w_out w' = w_out w ++ concat ds /\ wframe p w w' /\ I (zlen cl) w' /\
    zlen ds = zlen cl /\ (forall k d, zget ds k = Some d -> D k d).
Proof.
  revert I D. induction cl as [|c cl IH]; intros I D H w Hw.
  - exists w, []. cbn [w_run concat]. rewrite app_nil_r. split; [reflexivity|]. split; [reflexivity|]. split; [apply wframe_refl|]. split; [exact Hw|]. split; [reflexivity|].
    intros k d Q. apply zget_In in Q. destruct Q.
  - destruct (H 0 c w) as (w1 & d & E & O & F & I1 & D1); [apply zget_0|exact Hw|].
    destruct (IH (fun k => I (k + 1)) (fun k => D (k + 1))) with (w := w1) as (w2 & ds & E2 & O2 & F2 & I2 & L2 & D2).
    + intros k x w3 Hk Hi. apply zget_Some_lt in Hk as Hl. apply (H (k + 1)); [|exact Hi]. rewrite zget_S by lia. replace (k + 1 - 1) with k by lia. exact Hk.
    + exact I1.
    + exists w2, (d :: ds). cbn [w_run concat]. rewrite E. cbn [bind]. split; [exact E2|]. split; [rewrite O2, O, <- app_assoc; reflexivity|].
      split; [exact (wframe_trans _ _ _ _ F F2)|]. rewrite !zlen_cons. split; [replace (1 + zlen cl) with (zlen cl + 1) by lia; exact I2 || exact I2|]. split; [lia|].
      intros k x Hk. apply zget_Some_lt in Hk as Hl. destruct (Z.eq_dec k 0) as [->|Hne].
      * rewrite zget_0 in Hk. assert (x = d) by congruence. subst. exact D1.
      * rewrite zget_S in Hk by lia. specialize (D2 _ _ Hk). cbv beta in D2. replace (k - 1 + 1) with k in D2 by lia. exact D2.
Qed.
(** the usual case: the calls [map C l], each writing [enc x] *)
Lemma loop_map {X} R (C : X -> wcmd) (enc : X -> bytes) (l : list X) p (I : Z -> wst -> Prop) :
  (forall k x w, zget l k = Some x -> I k w -> exists w', w_exec R w (C x) = Ok w' /\ w_out w' = w_out w ++ enc x /\ wframe p w w' /\ I (k + 1) w') ->
  forall w, I 0 w -> exists w', w_run R w (map C l) = Ok w' /\ w_out w' = w_out w ++ concat (map enc l) /\ wframe p w w' /\ I (zlen l) w'.
Proof.
  intros H w Hw. destruct (loop R (map C l) p I (fun k d => exists x, zget l k = Some x /\ d = enc x)) with (w := w) as (w' & ds & E & O & F & I1 & L & D).
  - intros k c w1 Hk Hi. rewrite zget_map in Hk. destruct (zget l k) as [x|] eqn:Ex; [|discriminate]. cbn [option_map] in Hk. assert (c = C x) by congruence. subst c.
    destruct (H k x w1 Ex Hi) as (w2 & E & O & F & I2). exists w2, (enc x). repeat (split; [assumption|]). exists x. split; [exact Ex || reflexivity|reflexivity].
  - exact Hw.
  - rewrite zlen_map in I1, L. exists w'. split; [exact E|]. split; [|split; [exact F|exact I1]]. rewrite O. f_equal. f_equal.
    apply zget_ext; [rewrite zlen_map; exact L|]. intros k Hk. destruct (zget_lt_Some ds k) as (d & Ed); [lia|]. rewrite Ed, zget_map.
    destruct (D k d Ed) as (x & Ex & ->). rewrite Ex. reflexivity.
Qed.
Lemma slot_dec' c : part_of c = Some (PTable SSymtab) \/ part_of c <> Some (PTable SSymtab).
Proof. destruct (part_of c) as [[| |s]|]; try (right; discriminate). destruct s; try (right; discriminate). left. reflexivity. Qed.
(** * The state between the blocks *)
Record winv (R : rst) (m : across) (a : list rcmd) (r : rst) (w : wst) : Prop := {
  wi_len : zlen (w_out w) = r_len r;
  wi_mips : a <> [] -> w_mips w = x_mips64el m;
  wi_segs : ~ In PSegments (parts_of a) -> w_segs w = 0;
  wi_num : forall s, ~ In (PTable s) (parts_of a) -> w_num w s = 0 /\ w_aux w s = 0;
  wi_def : ~ In (PTable SVerdef) (parts_of a) -> w_def_rem (w_v w) = r_num R SVerdef;
  wi_need : ~ In (PTable SVerneed) (parts_of a) -> w_need_rem (w_v w) = r_num R SVerneed;
  wi_sh0 : ~ In (PTable SSymtab) (parts_of a) -> ~ In (PTable SShndx) (parts_of a) -> w_shndx w = [];
  wi_sh : In (RSymtab SSymtab) a -> ~ In (PTable SShndx) (parts_of a) -> r_off R SShndx <> 0 -> w_shndx w = x_shndx m /\ zlen (x_shndx m) = r_num R SSymtab * 4;
  wi_x : w_xneed w = r_need R SShndx;
  wi_n : r_off R SShndx <> 0 -> r_need R SShndx = true
}.
Lemma parts_in p c a : part_of c = Some p -> In p (parts_of (a ++ [c])).
Proof. intro H. rewrite parts_snoc, H. apply in_or_app. right. left. reflexivity. Qed.
Lemma winv_next R m a r w c r1 w' : winv R m a r w -> a <> [] -> wframe (part_of c) w w' -> zlen (w_out w') = r_len r1 ->
  (part_of c = Some (PTable SSymtab) -> r_off R SShndx <> 0 -> w_shndx w' = x_shndx m /\ zlen (x_shndx m) = r_num R SSymtab * 4) ->
  winv R m (a ++ [c]) r1 w'.
Proof.
  intros W Na (F1 & F2 & F3 & F4 & F5 & F6 & F7) L K.
  assert (N : forall p, ~ In p (parts_of (a ++ [c])) -> ~ In p (parts_of a) /\ part_of c <> Some p).
  { intros p H. split; [intro Q; apply H; rewrite parts_snoc; apply in_or_app; left; exact Q|intro Q; apply H; apply parts_in; exact Q]. }
  constructor.
  - exact L.
  - intros _. rewrite F1. apply (wi_mips _ _ _ _ _ W Na).
  - intro H. destruct (N _ H). rewrite F3 by assumption. apply (wi_segs _ _ _ _ _ W). assumption.
  - intros s H. destruct (N _ H) as (N1 & N2). destruct (F4 s N2) as (-> & ->). apply (wi_num _ _ _ _ _ W). assumption.
  - intro H. destruct (N _ H). rewrite F5 by assumption. apply (wi_def _ _ _ _ _ W). assumption.
  - intro H. destruct (N _ H). rewrite F6 by assumption. apply (wi_need _ _ _ _ _ W). assumption.
  - intros H1 H2. destruct (N _ H1), (N _ H2). rewrite F7 by assumption. apply (wi_sh0 _ _ _ _ _ W); assumption.
  - intros H1 H2 H3. destruct (N _ H2) as (N1 & N2). destruct (slot_dec' c) as [Q|Q].
    + apply K; assumption.
    + rewrite F7 by assumption. apply (wi_sh _ _ _ _ _ W); [|assumption|assumption]. apply in_app_or in H1. destruct H1 as [H1|[H1|[]]]; [exact H1|].
      subst c. exfalso. apply Q. reflexivity.
  - rewrite F2. apply (wi_x _ _ _ _ _ W).
  - exact (wi_n _ _ _ _ _ W).
Qed.

Lemma wframe_weak p w w' : wframe None w w' -> wframe p w w'.
Proof.
  intros (F1 & F2 & F3 & F4 & F5 & F6 & F7). split; [exact F1|]. split; [exact F2|]. split; [intros _; apply F3; discriminate|].
  split; [intros s _; apply F4; discriminate|]. split; [intros _; apply F5; discriminate|]. split; [intros _; apply F6; discriminate|].
  intros _ _. apply F7; discriminate.
Qed.
Lemma align_out w r len al v : zlen (w_out w) = r_len r -> 0 <= r_len r < 2 ^ 64 -> 0 <= len -> good_align al -> reserved r len al v ->
  r_len r <= v /\ exists w', w_align w al = Ok w' /\ w_out w' = w_out w ++ zeros (v - r_len r) /\ zlen (w_out w') = v /\ wframe None w w'.
Proof.
  intros L B Hl Ha Hr. pose proof (reserved_ge _ _ _ _ Ha B Hl Hr) as (G & _). split; [exact G|]. destruct Hr as (_ & Hr). unfold w_align. destruct (1 <? al).
  - rewrite L, Hr. cbn [bind]. unfold w_resize. rewrite L. destruct (Z.leb_spec (r_len r) v); [|lia]. cbn [guard bind]. eexists. split; [reflexivity|].
    rewrite put_out. split; [reflexivity|]. split; [rewrite zlen_app, zlen_zeros by lia; lia|]. apply wframe_put.
  - exists w. split; [reflexivity|]. subst v. rewrite Z.sub_diag. change (zeros 0) with (@nil Z). rewrite app_nil_r. split; [reflexivity|]. split; [exact L|apply wframe_refl].
Qed.
Lemma at_out w r len al v : zlen (w_out w) = r_len r -> 0 <= r_len r < 2 ^ 64 -> 0 <= len -> good_align al -> reserved r len al v ->
  r_len r <= v /\ exists w', w_at w v al = Ok w' /\ w_out w' = w_out w ++ zeros (v - r_len r) /\ zlen (w_out w') = v /\ wframe None w w'.
Proof.
  intros L B Hl Ha Hr. destruct (align_out _ _ _ _ _ L B Hl Ha Hr) as (G & w' & E & O & Q & F). split; [exact G|]. exists w'.
  unfold w_at. rewrite E. cbn [bind]. rewrite Q, Z.eqb_refl. cbn [guard bind]. split; [reflexivity|]. split; [exact O|]. split; [first [exact Q|reflexivity]|exact F].
Qed.
Definition placed (w w' : wst) (ra : rst) (v : Z) (d : bytes) : Prop :=
  (r_len ra <= v /\ w_out w' = w_out w ++ zeros (v - r_len ra) ++ d) \/ (d = [] /\ w_out w' = w_out w).
(** the result of a block *)
Definition done (R : rst) (m : across) (a : list rcmd) (c : rcmd) (v : Z) (ra r1 : rst) (w : wst) (ws : list wcmd) : Prop :=
  exists w' d, w_run R w ws = Ok w' /\ winv R m (a ++ [c]) r1 w' /\ block (name_at R) R m a c v ws d /\ placed w w' ra v d.
Section Block.
Context (cs a : list rcmd) (c : rcmd) (v : Z) (b : list rcmd) (ra r1 R : rst) (m : across) (w : wst).
Context (H : here cs a c v b ra r1 R) (Na : a <> []) (W : winv R m a ra w).
Context (HN : forall s, named s = true -> r_off R s <> 0 -> In (RIndex s) cs).
Lemma b_pos : 0 < r_len ra < 2 ^ 64. Proof. exact (i_len _ _ (h_inv _ _ _ _ _ _ _ _ H)). Qed.
Lemma b_call : call_ok c.
Proof. pose proof (io_calls _ (h_order _ _ _ _ _ _ _ _ H)) as Q. rewrite (h_cs _ _ _ _ _ _ _ _ H) in Q. apply Forall_app in Q. destruct Q as (_ & Q). exact (Forall_inv Q). Qed.
Lemma in_headers s : In (RIndex s) cs -> exists i, zget (headers cs) i = Some (Some s).
Proof.
  intro Q. assert (In (Some s) (headers cs)) as I.
  { unfold headers. apply in_flat_map. exists (RIndex s). split; [exact Q|left; reflexivity]. }
  apply In_zget in I. exact I.
Qed.
Lemma named_ok s : named s = true -> r_off R s <> 0 -> w_named R s = Ok tt.
Proof.
  intros N O. destruct (in_headers s (HN s N O)) as (i & Hi). pose proof (h_final _ _ _ _ _ _ _ _ H) as F. destruct (i_hdr _ _ F _ _ Hi) as (Q & _).
  destruct (r_id R s) as [id|] eqn:E; [|congruence]. destruct (i_id _ _ F _ _ E) as (I1 & I2). unfold w_named, st_get_id. rewrite I1, E. cbn [bind].
  unfold wrap_u. rewrite Z.mod_small, Z.eqb_refl by exact I2. reflexivity.
Qed.
(** a block without a part *)
Lemma fin_none w' ws d : part_of c = None -> wframe None w w' -> zlen (w_out w') = r_len r1 -> w_run R w ws = Ok w' -> block (name_at R) R m a c v ws d -> placed w w' ra v d ->
  done R m a c v ra r1 w ws.
Proof.
  intros P F L E B Q. exists w', d. split; [exact E|]. split; [|split; assumption]. apply (winv_next R m a ra w); try assumption; [rewrite P; exact F|]. congruence.
Qed.
Lemma fin w' ws d : part_of c <> Some (PTable SSymtab) -> wframe (part_of c) w w' -> zlen (w_out w') = r_len r1 -> w_run R w ws = Ok w' ->
  block (name_at R) R m a c v ws d -> placed w w' ra v d -> done R m a c v ra r1 w ws.
Proof.
  intros P F L E B Q. exists w', d. split; [exact E|]. split; [|split; assumption]. apply (winv_next R m a ra w); try assumption. congruence.
Qed.
End Block.
Lemma put_at w w1 w' ra v d : r_len ra <= v -> w_out w1 = w_out w ++ zeros (v - r_len ra) -> w_out w' = w_out w1 ++ d -> placed w w' ra v d.
Proof. intros L E1 E2. left. split; [exact L|]. rewrite E2, E1, <- app_assoc. reflexivity. Qed.
Lemma put_none w w' ra v : w_out w' = w_out w -> placed w w' ra v [].
Proof. right. split; [reflexivity|assumption]. Qed.

Lemma bk_range cs a v b ra r1 R m w len al d : here cs a (RRange len al) v b ra r1 R -> a <> [] -> winv R m a ra w -> zlen d = len ->
  done R m a (RRange len al) v ra r1 w [WAlign al; WData d].
Proof.
  intros H Na W L. pose proof (b_pos _ _ _ _ _ _ _ _ H) as P. pose proof (b_call _ _ _ _ _ _ _ _ H) as C. cbn [call_ok] in C.
  pose proof (h_after _ _ _ _ _ _ _ _ H) as (A & Er).
  destruct (align_out w ra len al v (wi_len _ _ _ _ _ W) ltac:(lia) (proj1 C) (proj2 C) A) as (G & w1 & E & O & Q & F).
  apply (fin a (RRange len al) v ra r1 R m w Na W (w_put w1 d) _ d); [discriminate| | | |apply b_range; exact L|apply (put_at _ w1 _ _ _ _ G O); reflexivity].
  - apply (wframe_trans _ _ w1); [apply wframe_weak; exact F|apply wframe_put].
  - rewrite Er, put_out, zlen_app, Q. proj. lia.
  - cbn [w_run w_exec]. rewrite E. reflexivity.
Qed.
Lemma bk_until cs a v b ra r1 R m w off : here cs a (RUntil off) v b ra r1 R -> a <> [] -> winv R m a ra w ->
  done R m a (RUntil off) v ra r1 w [WUntil off].
Proof.
  intros H Na W. pose proof (h_after _ _ _ _ _ _ _ _ H) as (A & -> & Er). pose proof (wi_len _ _ _ _ _ W) as L.
  apply (fin a (RUntil off) off ra r1 R m w Na W (w_put w (zeros (off - r_len ra))) _ []); [discriminate|apply wframe_put| | |apply b_until|].
  - rewrite Er, put_out, zlen_app, L, zlen_zeros by lia. proj. lia.
  - cbn [w_run w_exec]. unfold w_until, w_resize. rewrite L. destruct (Z.leb_spec (r_len ra) off); [|lia]. reflexivity.
  - left. split; [exact A|]. rewrite app_nil_r. reflexivity.
Qed.
Lemma bk_other nm cs a c v b ra r1 R m w : here cs a c v b ra r1 R -> a <> [] -> winv R m a ra w -> block nm R m a c v [] [] ->
  part_of c = None -> match c with RRange _ _ | RUntil _ | RFileHeader | RRelocations _ _ | RComdat _ => False | _ => True end ->
  done R m a c v ra r1 w [].
Proof.
  intros H Na W B P K. pose proof (h_after _ _ _ _ _ _ _ _ H) as A.
  apply (fin a c v ra r1 R m w Na W w [] []); [congruence|apply wframe_refl| |reflexivity|apply b_other; assumption|apply put_none; reflexivity].
  rewrite (wi_len _ _ _ _ _ W). clear B W H. revert K P. ac A; intros K P; try destruct K; try discriminate P; proj; try reflexivity.
  - destruct (slot_indexed s); reflexivity.
  - destruct (first_fields ra SSymtab) as (F1 & _). destruct section as [n|]; [destruct (_ <=? _)|]; proj; rewrite F1; reflexivity.
  - destruct (first_fields ra SDynsym) as (F1 & _). rewrite F1. reflexivity.
Qed.
Lemma bk_segments cs a v b ra r1 R m w ps : here cs a (RProgramHeaders (zlen ps)) v b ra r1 R -> a <> [] -> winv R m a ra w ->
  done R m a (RProgramHeaders (zlen ps)) v ra r1 w (WAlignProgramHeaders :: map WProgramHeader ps).
Proof.
  intros H Na W. pose proof (b_pos _ _ _ _ _ _ _ _ H) as P. pose proof (b_call _ _ _ _ _ _ _ _ H) as C. cbn [call_ok] in C.
  destruct (here_ph _ _ _ _ _ _ _ _ H eq_refl) as (P1 & P2). destruct (here_const _ _ _ _ _ _ _ _ H) as (K1 & K2).
  destruct (here_parts _ _ _ _ _ _ _ _ PSegments H eq_refl) as (N & _). pose proof (wi_len _ _ _ _ _ W) as L.
  pose proof (h_after _ _ _ _ _ _ _ _ H) as (A0 & [(Z0 & -> & ->)|(Z0 & A & Er)]).
  - apply zlen_0_nil in Z0. subst ps. apply (fin a _ _ ra ra R m w Na W w _ []); [discriminate|apply wframe_refl|exact L| |apply b_segments|apply put_none; reflexivity].
    cbn [w_run w_exec map]. unfold w_align_program_headers. rewrite P1, A0. reflexivity.
  - subst r1. proj_in P1. proj_in P2.
    destruct (at_out w ra (zlen ps * phdr_size (r_is64 ra)) _ v L ltac:(lia) ltac:(destruct (r_is64 ra); cbn [phdr_size]; lia) (addr_good (r_is64 ra)) A) as (G & w1 & E & O & Q & F).
    destruct (loop_map R WProgramHeader (enc_phdr (r_is64 R) (r_end R)) ps (Some PSegments) (fun k w => w_segs w = k)) with (w := w1) as (w2 & E2 & O2 & F2 & _).
    + intros k x w3 Hk Hs. apply zget_Some_lt in Hk. exists (with_counts (w_put w3 (enc_phdr (r_is64 R) (r_end R) x)) (k + 1) (w_secs w3)).
      split; [|split; [reflexivity|split; [|reflexivity]]].
      * cbn [w_exec]. unfold w_program_header. cbv zeta. change (w_segs (w_put w3 _)) with (w_segs w3). rewrite Hs. unfold padd.
        destruct (Z.ltb_spec (k + 1) (2 ^ 32)); [|lia]. cbn [bind]. rewrite P2. destruct (Z.leb_spec (k + 1) (zlen ps)); [|lia]. reflexivity.
      * split; [reflexivity|]. split; [reflexivity|]. split; [congruence|]. repeat split.
    + destruct F as (_ & _ & F & _). rewrite F by discriminate. apply (wi_segs _ _ _ _ _ W N).
    + apply (fin a _ _ ra _ R m w Na W w2 _ (concat (map (enc_phdr (r_is64 R) (r_end R)) ps))); [discriminate| | | |apply b_segments|exact (put_at _ w1 _ _ _ _ G O O2)].
      * apply (wframe_trans _ _ w1); [apply wframe_weak; exact F|exact F2].
      * rewrite O2, zlen_app, Q. proj. rewrite (zlen_concat_const (phdr_size (r_is64 R))), zlen_map, K1; [reflexivity|].
        apply Forall_map, Forall_forall. intros x _. apply zlen_enc_phdr.
      * cbn [w_run w_exec]. unfold w_align_program_headers. rewrite P1, K1. destruct (Z.eqb_spec v 0); [lia|]. rewrite E. exact E2.
Qed.
Lemma len_map {X} (enc : X -> bytes) n l : (forall x, zlen (enc x) = n) -> zlen (concat (map enc l)) = zlen l * n.
Proof. intro H. rewrite (zlen_concat_const n), zlen_map; [reflexivity|]. apply Forall_map, Forall_forall. intros x _. apply H. Qed.
Lemma bk_strings nm cs a v b ra r1 R m w s d : here cs a (RStrings s) v b ra r1 R -> a <> [] -> winv R m a ra w -> block nm R m a (RStrings s) v [WStrings s] d ->
  done R m a (RStrings s) v ra r1 w [WStrings s].
Proof.
  intros H Na W _. pose proof (b_pos _ _ _ _ _ _ _ _ H) as P. pose proof (here_off _ _ _ _ _ _ _ _ s H eq_refl) as P1.
  pose proof (here_data _ _ _ _ _ _ _ _ H) as P2. pose proof (wi_len _ _ _ _ _ W) as L. pose proof (b_call _ _ _ _ _ _ _ _ H) as C. cbn [call_ok] in C.
  assert (PS : Some (PTable s) <> Some (PTable SSymtab)) by (destruct C as [<-|[<-|[<-|[]]]]; discriminate).
  pose proof (h_after _ _ _ _ _ _ _ _ H) as (A0 & [(Z0 & -> & ->)|(Z0 & n & d0 & t & A & -> & _ & Er)]).
  - apply (fin a (RStrings s) 0 ra ra R m w Na W w _ []); [exact PS|apply wframe_refl|exact L| |apply b_no_strings; reflexivity|apply put_none; reflexivity].
    cbn [w_run w_exec]. unfold w_strings. rewrite P1, A0. reflexivity.
  - subst r1. proj_in P1. proj_in P2. rewrite upd_same in P1; rewrite upd_same in P2. destruct (i_tab _ _ (h_inv _ _ _ _ _ _ _ _ H) s C A0) as (T1 & T2).
    destruct (st_write_inv _ _ _ _ T1 T2 A) as (Q & _).
    apply (fin a (RStrings s) (r_len ra) ra _ R m w Na W (w_put w (r_data R s)) _ (r_data R s)); [exact PS|apply wframe_put| | |apply b_strings; lia|].
    + rewrite put_out, zlen_app, P2, zlen_cons. proj. lia.
    + cbn [w_run w_exec]. unfold w_strings. rewrite P1. destruct (Z.eqb_spec (r_len ra) 0); [lia|]. rewrite L, Z.eqb_refl. reflexivity.
    + left. rewrite Z.sub_diag. split; [lia|reflexivity].
Qed.
Lemma bk_dynamic nm cs a v b ra r1 R m w ds d : here cs a (RDynamic (zlen ds)) v b ra r1 R -> a <> [] -> winv R m a ra w ->
  (forall s, named s = true -> r_off R s <> 0 -> In (RIndex s) cs) ->
  block nm R m a (RDynamic (zlen ds)) v (WAlignDynamic :: map WDynamic ds) d -> forall bs, Forall2 (fun d b => enc_dyn (r_is64 R) (r_end R) d = Ok b) ds bs ->
  done R m a (RDynamic (zlen ds)) v ra r1 w (WAlignDynamic :: map WDynamic ds).
Proof.
  intros H Na W HN _ bs Hb. pose proof (b_pos _ _ _ _ _ _ _ _ H) as P. pose proof (here_off _ _ _ _ _ _ _ _ SDynamic H eq_refl) as P1.
  pose proof (here_num _ _ _ _ _ _ _ _ SDynamic H eq_refl) as (P2 & _). destruct (here_const _ _ _ _ _ _ _ _ H) as (K1 & K2).
  destruct (here_parts _ _ _ _ _ _ _ _ (PTable SDynamic) H eq_refl) as (N & _). pose proof (wi_len _ _ _ _ _ W) as L.
  pose proof (zlen_nonneg ds) as Nn.
  pose proof (h_after _ _ _ _ _ _ _ _ H) as (A0 & [(Z0 & -> & ->)|(Z0 & A & Er)]).
  - apply zlen_0_nil in Z0. subst ds. inversion Hb. subst bs.
    apply (fin a (RDynamic (zlen (@nil dynent))) 0 ra ra R m w Na W w _ (concat [])); [discriminate|apply wframe_refl|exact L| |apply b_dynamic; exact Hb|apply put_none; reflexivity].
    cbn [w_run w_exec map]. unfold w_align_dynamic. rewrite P1, A0. reflexivity.
  - subst r1. proj_in P1. proj_in P2. rewrite upd_same in P1; rewrite upd_same in P2.
    destruct (at_out w ra (zlen ds * dyn_size (r_is64 ra)) _ v L ltac:(lia) ltac:(destruct (r_is64 ra); cbn [dyn_size]; lia) (addr_good (r_is64 ra)) A) as (G & w1 & E & O & Q & F).
    assert (Sm : zlen ds < 2 ^ 64).
    { destruct A as (A & _). destruct (r_is64 ra); cbn [dyn_size] in A; lia. }
    set (enc := fun d => match enc_dyn (r_is64 R) (r_end R) d with Ok b => b | _ => [] end).
    assert (Eb : bs = map enc ds).
    { clear - Hb. induction Hb as [|x y l l' Hx Hl IH]; [reflexivity|]. cbn [map]. rewrite <- IH. unfold enc. rewrite Hx. reflexivity. }
    assert (Eo : forall x, In x ds -> enc_dyn (r_is64 R) (r_end R) x = Ok (enc x)).
    { clear - Hb. unfold enc. induction Hb as [|x y l l' Hx Hl IH]; intros z Hz; [destruct Hz|]. destruct Hz as [<-|Hz]; [rewrite Hx; reflexivity|exact (IH z Hz)]. }
    destruct (loop_map R WDynamic enc ds (Some (PTable SDynamic)) (fun k w => w_num w SDynamic = k)) with (w := w1) as (w2 & E2 & O2 & F2 & _).
    + intros k x w3 Hk Hs. pose proof (Eo x (zget_In _ _ _ Hk)) as Ex. apply zget_Some_lt in Hk. exists (with_wnum (w_put w3 (enc x)) SDynamic (k + 1)).
      split; [|split; [reflexivity|split; [|reflexivity]]].
      * cbn [w_exec]. unfold w_dynamic. rewrite Ex. cbn [bind]. change (w_num (w_put w3 _)) with (w_num w3). rewrite Hs. unfold padd.
        destruct (Z.ltb_spec (k + 1) (2 ^ 64)); [|lia]. cbn [bind]. rewrite P2. destruct (Z.leb_spec (k + 1) (zlen ds)); [|lia]. reflexivity.
      * split; [reflexivity|]. split; [reflexivity|]. split; [reflexivity|]. split; [|repeat split].
        intros s Hs2. split; [|reflexivity]. cbn [w_num with_wnum w_put with_v]. apply upd_other. congruence.
    + destruct F as (_ & _ & _ & F & _). destruct (F SDynamic) as (-> & _); [discriminate|]. apply (wi_num _ _ _ _ _ W _ N).
    + apply (fin a (RDynamic (zlen ds)) v ra _ R m w Na W w2 _ (concat bs)); [discriminate| | | |apply b_dynamic; exact Hb|rewrite Eb; exact (put_at _ w1 _ _ _ _ G O O2)].
      * apply (wframe_trans _ _ w1); [apply wframe_weak; exact F|exact F2].
      * rewrite O2, zlen_app, Q. proj. rewrite (zlen_concat_const (dyn_size (r_is64 R))), zlen_map, K1; [reflexivity|].
        apply Forall_map, Forall_forall. intros x Hx. exact (dyn_len _ _ _ _ (Eo x Hx)).
      * cbn [w_run w_exec]. unfold w_align_dynamic. rewrite P1, K1. destruct (Z.eqb_spec v 0); [lia|]. rewrite E. cbn [bind].
        rewrite (named_ok _ _ _ _ _ _ _ _ H HN SDynamic) by (try reflexivity; lia). exact E2.
Qed.
(** .hash and .gnu.hash *)
Lemma table_ok R w ra v s al table d : r_off R s = v -> r_num R s = zlen d -> table = Ok d -> w_named R s = Ok tt -> zlen (w_out w) = r_len ra -> 0 < r_len ra < 2 ^ 64 ->
  good_align al -> reserved ra (zlen d) al v ->
  exists w', w_table R w s al table = Ok w' /\ wframe None w w' /\ zlen (w_out w') = v + zlen d /\ placed w w' ra v d.
Proof.
  intros O1 O2 T N L P Ga A. pose proof (zlen_nonneg d).
  destruct (at_out w ra (zlen d) al v L ltac:(lia) ltac:(lia) Ga A) as (G & w1 & E & O & Q & F).
  exists (w_put w1 d). unfold w_table. rewrite O1, E. cbn [bind]. rewrite N. cbn [bind]. rewrite T. cbn [bind]. rewrite put_out, zlen_app, Q. unfold psub.
  destruct (Z.leb_spec v (v + zlen d)); [|lia]. cbn [bind]. replace (v + zlen d - v) with (zlen d) by lia. rewrite O2, Z.eqb_refl. cbn [guard bind].
  split; [reflexivity|]. split; [apply (wframe_trans _ _ w1); [exact F|apply wframe_put]|]. split; [reflexivity|]. apply (put_at _ w1 _ _ _ _ G O). reflexivity.
Qed.
Lemma bk_hash cs a v b ra r1 R m w n k h d : here cs a (RHash n k) v b ra r1 R -> a <> [] -> winv R m a ra w ->
  (forall s, named s = true -> r_off R s <> 0 -> In (RIndex s) cs) -> hash_table (r_end R) n k h = Ok d -> done R m a (RHash n k) v ra r1 w [WHash n k h].
Proof.
  intros H Na W HN T. pose proof (b_pos _ _ _ _ _ _ _ _ H) as P. pose proof (b_call _ _ _ _ _ _ _ _ H) as C. cbn [call_ok] in C.
  pose proof (here_off _ _ _ _ _ _ _ _ SHash H eq_refl) as P1. pose proof (here_num _ _ _ _ _ _ _ _ SHash H eq_refl) as (P2 & _).
  pose proof (h_after _ _ _ _ _ _ _ _ H) as (A & Er). subst r1. proj_in P1. proj_in P2. rewrite upd_same in P1; rewrite upd_same in P2.
  pose proof (hash_len _ _ _ _ _ (proj1 (proj1 C)) (proj1 (proj2 C)) T) as Ld.
  assert (V : r_len ra <= v). { apply (reserved_ge ra (hash_size n k) 4 v good_4); [lia|unfold hash_size; lia|exact A]. }
  rewrite <- Ld in A, P2.
  destruct (table_ok R w ra v SHash 4 _ d P1 P2 T) as (w' & E & F & Lw & Pl).
  - apply (named_ok _ _ _ _ _ _ _ _ H HN); [reflexivity|lia].
  - exact (wi_len _ _ _ _ _ W).
  - exact P.
  - exact good_4.
  - exact A.
  - apply (fin a (RHash n k) v ra _ R m w Na W w' _ d); [discriminate|apply wframe_weak; exact F| | |apply b_hash; exact T|exact Pl].
    + proj. lia.
    + cbn [w_run w_exec]. unfold w_hash. rewrite E. reflexivity.
Qed.
Lemma bk_gnu_hash cs a v b ra r1 R m w g h d : let c := RGnuHash (gd_bloom_count g) (gd_bucket_count g) (gd_symbol_count g) in here cs a c v b ra r1 R -> a <> [] -> winv R m a ra w ->
  (forall s, named s = true -> r_off R s <> 0 -> In (RIndex s) cs) -> gnu_hash_table (r_is64 R) (r_end R) g h = Ok d -> done R m a c v ra r1 w [WGnuHash g h].
Proof.
  intros c H Na W HN T. pose proof (b_pos _ _ _ _ _ _ _ _ H) as P. pose proof (b_call _ _ _ _ _ _ _ _ H) as C. unfold c in C. cbn [call_ok] in C.
  pose proof (here_off _ _ _ _ _ _ _ _ SGnuHash H eq_refl) as P1. pose proof (here_num _ _ _ _ _ _ _ _ SGnuHash H eq_refl) as (P2 & _).
  destruct (here_const _ _ _ _ _ _ _ _ H) as (K1 & K2).
  pose proof (h_after _ _ _ _ _ _ _ _ H) as (A & Er). subst r1. proj_in P1. proj_in P2. rewrite upd_same in P1; rewrite upd_same in P2.
  assert (Ld : zlen d = gnu_hash_size (r_is64 R) (gd_bloom_count g) (gd_bucket_count g) (gd_symbol_count g)) by (apply (gnu_len _ _ _ _ _) in T; [exact T|lia|lia|lia]).
  assert (V : r_len ra <= v). { apply (reserved_ge ra (gnu_hash_size (r_is64 ra) (gd_bloom_count g) (gd_bucket_count g) (gd_symbol_count g)) _ v (addr_good (r_is64 ra))); [lia|unfold gnu_hash_size; destruct (r_is64 ra); lia|exact A]. }
  rewrite K1 in Ld. rewrite <- Ld in A, P2.
  destruct (table_ok R w ra v SGnuHash (addr_size (r_is64 ra)) _ d P1 P2 T) as (w' & E & F & Lw & Pl).
  - apply (named_ok _ _ _ _ _ _ _ _ H HN); [reflexivity|lia].
  - exact (wi_len _ _ _ _ _ W).
  - exact P.
  - apply addr_good.
  - exact A.
  - apply (fin a c v ra _ R m w Na W w' _ d); [discriminate|apply wframe_weak; exact F| | |apply b_gnu_hash; exact T|exact Pl].
    + proj. lia.
    + cbn [w_run w_exec]. unfold w_gnu_hash. rewrite K1 at 1. rewrite E. reflexivity.
Qed.
Lemma bk_attributes cs a v b ra r1 R m w d : here cs a (RAttributes (zlen d)) v b ra r1 R -> a <> [] -> winv R m a ra w ->
  (forall s, named s = true -> r_off R s <> 0 -> In (RIndex s) cs) -> done R m a (RAttributes (zlen d)) v ra r1 w [WAttributes d].
Proof.
  intros H Na W HN. pose proof (b_pos _ _ _ _ _ _ _ _ H) as P. pose proof (here_off _ _ _ _ _ _ _ _ SAttributes H eq_refl) as P1.
  pose proof (here_num _ _ _ _ _ _ _ _ SAttributes H eq_refl) as (P2 & _). pose proof (wi_len _ _ _ _ _ W) as L. pose proof (zlen_nonneg d) as Nd.
  pose proof (h_after _ _ _ _ _ _ _ _ H) as (A0 & [(Z0 & -> & ->)|(Z0 & A & Er)]).
  - apply zlen_0_nil in Z0. subst d. apply (fin a (RAttributes (zlen (@nil Z))) 0 ra ra R m w Na W w _ []); [discriminate|apply wframe_refl|exact L| |apply b_attributes|apply put_none; reflexivity].
    cbn [w_run w_exec]. unfold w_attributes. rewrite P1, A0. reflexivity.
  - subst r1. proj_in P1. proj_in P2. rewrite upd_same in P1; rewrite upd_same in P2. destruct A as (A & V). change (1 <? 1) with false in V. cbv iota in V. rewrite V in *. clear V v.
    apply (fin a (RAttributes (zlen d)) (r_len ra) ra _ R m w Na W (w_put w d) _ d); [discriminate|apply wframe_put| | |apply b_attributes|].
    + rewrite put_out, zlen_app. proj. lia.
    + cbn [w_run w_exec]. unfold w_attributes. rewrite P1. destruct (Z.eqb_spec (r_len ra) 0); [lia|]. rewrite L, Z.eqb_refl. cbn [guard bind].
      rewrite (named_ok _ _ _ _ _ _ _ _ H HN SAttributes) by (try reflexivity; lia). cbn [bind]. rewrite put_out, zlen_app, L. unfold psub.
      destruct (Z.leb_spec (r_len ra) (r_len ra + zlen d)); [|lia]. cbn [bind]. replace (r_len ra + zlen d - r_len ra) with (zlen d) by lia. rewrite P2, Z.eqb_refl. reflexivity.
    + left. rewrite Z.sub_diag. split; [lia|reflexivity].
Qed.
Lemma bk_relocations cs a v b ra r1 R m w is_rela l : here cs a (RRelocations (zlen l) is_rela) v b ra r1 R -> a <> [] -> winv R m a ra w ->
  done R m a (RRelocations (zlen l) is_rela) v ra r1 w (WAlignRelocation :: map (WRelocation is_rela) l).
Proof.
  intros H Na W. pose proof (b_pos _ _ _ _ _ _ _ _ H) as P. destruct (here_const _ _ _ _ _ _ _ _ H) as (K1 & K2). pose proof (wi_len _ _ _ _ _ W) as L.
  pose proof (zlen_nonneg l) as Nl. pose proof (h_after _ _ _ _ _ _ _ _ H) as (A & Er). subst r1.
  destruct (align_out w ra (zlen l * rel_size (r_is64 ra) is_rela) _ v L ltac:(lia) ltac:(destruct (r_is64 ra), is_rela; cbn [rel_size]; lia) (addr_good (r_is64 ra)) A) as (G & w1 & E & O & Q & F).
  destruct (loop_map R (WRelocation is_rela) (enc_rel (r_is64 R) is_rela (r_end R) (x_mips64el m)) l None (fun _ w => w_mips w = x_mips64el m)) with (w := w1) as (w2 & E2 & O2 & F2 & _).
  - intros k x w3 Hk Hs. exists (w_put w3 (enc_rel (r_is64 R) is_rela (r_end R) (x_mips64el m) x)). split; [|split; [reflexivity|split; [apply wframe_put|exact Hs]]].
    cbn [w_exec]. unfold w_relocation. rewrite Hs. reflexivity.
  - destruct F as (-> & _). apply (wi_mips _ _ _ _ _ W Na).
  - apply (fin a (RRelocations (zlen l) is_rela) v ra _ R m w Na W w2 _ (concat (map (enc_rel (r_is64 R) is_rela (r_end R) (x_mips64el m)) l)));
      [discriminate| | | |apply b_relocations|exact (put_at _ w1 _ _ _ _ G O O2)].
    + apply (wframe_trans _ _ w1); [apply wframe_weak; exact F|apply wframe_weak; exact F2].
    + rewrite O2, zlen_app, Q, zlen_concat_rel, K1. reflexivity.
    + cbn [w_run w_exec]. unfold w_align_relocation. rewrite K1, E. exact E2.
Qed.
Lemma bk_comdat cs a v b ra r1 R m w l : here cs a (RComdat (zlen l)) v b ra r1 R -> a <> [] -> winv R m a ra w ->
  done R m a (RComdat (zlen l)) v ra r1 w (WComdatHeader :: map WComdatEntry l).
Proof.
  intros H Na W. pose proof (b_pos _ _ _ _ _ _ _ _ H) as P. pose proof (wi_len _ _ _ _ _ W) as L.
  pose proof (zlen_nonneg l) as Nl. pose proof (h_after _ _ _ _ _ _ _ _ H) as (A & Er). subst r1.
  destruct (align_out w ra ((zlen l + 1) * 4) _ v L ltac:(lia) ltac:(lia) good_4 A) as (G & w1 & E & O & Q & F).
  destruct (loop_map R WComdatEntry (write_u (r_end R) 4) l None (fun _ w => True)) with (w := w_put w1 (write_u (r_end R) 4 1)) as (w2 & E2 & O2 & F2 & _).
  - intros k x w3 Hk Hs. exists (w_put w3 (write_u (r_end R) 4 x)). split; [reflexivity|split; [reflexivity|split; [apply wframe_put|exact Hs]]].
  - exact I.
  - apply (fin a (RComdat (zlen l)) v ra _ R m w Na W w2 _ (write_u (r_end R) 4 1 ++ concat (map (write_u (r_end R) 4) l))); [discriminate| | | |apply b_comdat|].
    + apply (wframe_trans _ _ w1); [apply wframe_weak; exact F|]. apply (wframe_trans _ _ (w_put w1 (write_u (r_end R) 4 1))); [apply wframe_put|apply wframe_weak; exact F2].
    + rewrite O2, put_out, !zlen_app, Q, zlen_write_u, (len_map _ 4) by (intro; apply zlen_write_u). proj. lia.
    + cbn [w_run w_exec]. unfold w_comdat_header. rewrite E. cbn [bind]. exact E2.
    + apply (put_at _ w1 _ _ _ _ G O). rewrite O2, put_out, <- app_assoc. reflexivity.
Qed.
Lemma bk_versym nm cs a v b ra r1 R m w ws d : here cs a RVersym v b ra r1 R -> a <> [] -> winv R m a ra w ->
  (forall s, named s = true -> r_off R s <> 0 -> In (RIndex s) cs) -> block nm R m a RVersym v ws d -> done R m a RVersym v ra r1 w ws.
Proof.
  intros H Na W HN B. pose proof (b_pos _ _ _ _ _ _ _ _ H) as P. pose proof (here_off _ _ _ _ _ _ _ _ SVersym H eq_refl) as P1.
  pose proof (here_num _ _ _ _ _ _ _ _ SVersym H eq_refl) as (P2 & _). pose proof (wi_len _ _ _ _ _ W) as L.
  destruct (here_parts _ _ _ _ _ _ _ _ (PTable SVersym) H eq_refl) as (N & _).
  destruct (i_num _ _ (h_inv _ _ _ _ _ _ _ _ H) SDynsym (or_intror (or_introl eq_refl))) as (Nd & Bd). pose proof (symbols_nonneg SDynsym a) as Sn.
  pose proof (h_after _ _ _ _ _ _ _ _ H) as (A0 & [(Z0 & -> & ->)|(Z0 & A & Er)]).
  - assert (ws = [WNullVersym]) as -> by (inversion B; subst; try reflexivity; try congruence; discriminate).
    apply (fin a RVersym 0 ra ra R m w Na W w _ []); [discriminate|apply wframe_refl|exact L| |apply b_no_versym; reflexivity|apply put_none; reflexivity].
    cbn [w_run w_exec]. unfold w_null_versym. rewrite P1, A0. reflexivity.
  - subst r1. proj_in P1. proj_in P2. rewrite upd_same in P1; rewrite upd_same in P2.
    destruct (at_out w ra (r_num ra SDynsym * 2) _ v L ltac:(lia) ltac:(lia) good_2 A) as (G & w1 & E & O & Q & F).
    assert (exists l, ws = WNullVersym :: map WVersym l /\ zlen l = symbols SDynsym a) as (l & -> & Ll).
    { inversion B; subst; try lia; try discriminate. eexists; split; [reflexivity|assumption]. }
    assert (St : forall k x w3, k + 1 <= r_num R SVersym -> w_num w3 SVersym = k ->
      exists w', w_versym R w3 x = Ok w' /\ w_out w' = w_out w3 ++ write_u (r_end R) 2 x /\ wframe (Some (PTable SVersym)) w3 w' /\ w_num w' SVersym = k + 1).
    { intros k x w3 Hk Hs. exists (with_wnum (w_put w3 (write_u (r_end R) 2 x)) SVersym (k + 1)). split; [|split; [reflexivity|split; [|reflexivity]]].
      - unfold w_versym. cbv zeta. change (w_num (w_put w3 _)) with (w_num w3). rewrite Hs. unfold padd. destruct (Z.ltb_spec (k + 1) (2 ^ 32)); [|lia]. cbn [bind].
        destruct (Z.leb_spec (k + 1) (r_num R SVersym)); [|lia]. reflexivity.
      - split; [reflexivity|]. split; [reflexivity|]. split; [reflexivity|]. split; [|repeat split].
        intros s Hs2. split; [|reflexivity]. cbn [w_num with_wnum w_put with_v]. apply upd_other. congruence. }
    destruct (St 0 0 w1) as (w2 & E2 & O2 & F2 & N2).
    { lia. }
    { destruct F as (_ & _ & _ & F & _). destruct (F SVersym) as (-> & _); [discriminate|]. apply (wi_num _ _ _ _ _ W _ N). }
    destruct (loop_map R WVersym (write_u (r_end R) 2) l (Some (PTable SVersym)) (fun k w => w_num w SVersym = k + 1)) with (w := w2) as (w3 & E3 & O3 & F3 & _).
    + intros k x w4 Hk Hs. apply zget_Some_lt in Hk. cbn [w_exec]. apply St; [lia|exact Hs].
    + exact N2.
    + apply (fin a RVersym v ra _ R m w Na W w3 _ (write_u (r_end R) 2 0 ++ concat (map (write_u (r_end R) 2) l))); [discriminate| | | |apply b_versym; [lia|exact Ll]|].
      * apply (wframe_trans _ _ w1); [apply wframe_weak; exact F|]. apply (wframe_trans _ _ w2); assumption.
      * rewrite O3, O2, !zlen_app, Q, zlen_write_u, (len_map _ 2) by (intro; apply zlen_write_u). proj. lia.
      * cbn [w_run w_exec]. unfold w_null_versym. rewrite P1. destruct (Z.eqb_spec v 0); [lia|]. rewrite E. cbn [bind].
        rewrite (named_ok _ _ _ _ _ _ _ _ H HN SVersym) by (try reflexivity; lia). cbn [bind]. rewrite E2. exact E3.
      * apply (put_at _ w1 _ _ _ _ G O). rewrite O3, O2, <- app_assoc. reflexivity.
Qed.
Lemma nodup_disj {X} (x y : list X) p : NoDup (x ++ y) -> In p x -> In p y -> False.
Proof. intros H Hx Hy. apply in_split in Hx. destruct Hx as (x1 & x2 & ->). rewrite <- app_assoc in H. cbn [app] in H. apply nodup_mid in H. destruct H as (_ & H). apply H. apply in_or_app. right. exact Hy. Qed.
Lemma no_shndx cs a v b ra r1 R : here cs a (RSymtab SSymtab) v b ra r1 R -> ~ In (PTable SShndx) (parts_of a).
Proof.
  intros H Q. destruct (here_parts _ _ _ _ _ _ _ _ (PTable SSymtab) H eq_refl) as (N & _). unfold parts_of in Q. apply in_flat_map in Q. destruct Q as (c & Hc & Q).
  pose proof (h_order _ _ _ _ _ _ _ _ H) as I. pose proof (io_calls _ I) as C. rewrite (h_cs _ _ _ _ _ _ _ _ H) in C. apply Forall_app in C. destruct C as (C & _).
  rewrite Forall_forall in C. specialize (C c Hc).
  assert (c = RShndx) as ->.
  { destruct c; cbn [part_of] in Q; try contradiction; destruct Q as [Q|[]]; try discriminate.
    - injection Q as ->. cbn [call_ok] in C. destruct C as [C|[C|[]]]; discriminate.
    - reflexivity.
    - injection Q as ->. cbn [call_ok] in C. destruct C as [C|[C|[C|[]]]]; discriminate. }
  apply in_split in Hc. destruct Hc as (x & y & ->). destruct (io_shndx _ I x (y ++ RSymtab SSymtab :: b)) as (K & _).
  - rewrite (h_cs _ _ _ _ _ _ _ _ H), <- app_assoc. reflexivity.
  - apply N. unfold parts_of. apply in_flat_map. exists (RSymtab SSymtab). split; [apply in_or_app; left; exact K|left; reflexivity].
Qed.
Lemma bk_symtab nm cs a v b ra r1 R m w s ws d : here cs a (RSymtab s) v b ra r1 R -> a <> [] -> winv R m a ra w ->
  (forall s, named s = true -> r_off R s <> 0 -> In (RIndex s) cs) -> block nm R m a (RSymtab s) v ws d -> done R m a (RSymtab s) v ra r1 w ws.
Proof.
  intros H Na W HN B. pose proof (b_pos _ _ _ _ _ _ _ _ H) as P. pose proof (here_off _ _ _ _ _ _ _ _ s H eq_refl) as P1.
  pose proof (here_num _ _ _ _ _ _ _ _ s H eq_refl) as (P2 & _). pose proof (wi_len _ _ _ _ _ W) as L. destruct (here_const _ _ _ _ _ _ _ _ H) as (K1 & K2).
  pose proof (b_call _ _ _ _ _ _ _ _ H) as C. cbn [call_ok] in C.
  destruct (here_parts _ _ _ _ _ _ _ _ (PTable s) H eq_refl) as (N & _).
  destruct (i_num _ _ (h_inv _ _ _ _ _ _ _ _ H) s C) as (Nd & Bd). pose proof (symbols_nonneg s a) as Sn.
  assert (Sh0 : s = SSymtab -> w_shndx w = []).
  { intros ->. apply (wi_sh0 _ _ _ _ _ W); [exact N|exact (no_shndx _ _ _ _ _ _ _ H)]. }
  pose proof (h_after _ _ _ _ _ _ _ _ H) as (A0 & [(Z0 & -> & ->)|(Z0 & A & Er)]).
  - assert (ws = [WNullSymbol s]) as -> by (inversion B; subst; try reflexivity; try congruence; discriminate).
    assert (X0 : s = SSymtab -> x_shndx m = []) by (intro Y; inversion B; subst; first [assumption|congruence|discriminate|auto]).
    exists w, []. split; [|split; [|split; [apply b_no_symtab; [reflexivity|exact X0]|apply put_none; reflexivity]]].
    + cbn [w_run w_exec]. unfold w_null_symbol. rewrite P1, A0. reflexivity.
    + apply (winv_next R m a ra w); [exact W|exact Na|apply wframe_refl|exact L|]. intros Q _. cbn [part_of] in Q. assert (s = SSymtab) by congruence. subst s.
      rewrite Sh0, X0, P2, Z0 by reflexivity. split; reflexivity.
  - subst r1. proj_in P1. proj_in P2. rewrite upd_same in P1.
    destruct (at_out w ra (r_num ra s * sym_size (r_is64 ra)) _ v L ltac:(lia) ltac:(destruct (r_is64 ra); cbn [sym_size]; lia) (addr_good (r_is64 ra)) A) as (G & w1 & E & O & Q & F).
    assert (exists l, ws = WNullSymbol s :: map (WSymbol s) l /\ zlen l = symbols s a /\ (s = SSymtab -> x_shndx m = write_u (r_end R) 4 0 ++ concat (map (xindex_bytes R) l))) as (l & -> & Ll & Lx).
    { inversion B; subst; try lia; try discriminate. eexists; split; [reflexivity|split; assumption]. }
    set (I := fun (k : Z) (w : wst) => w_num w s = k + 1 /\ w_xneed w = r_need R SShndx /\ (s = SSymtab -> r_off R SShndx <> 0 -> w_shndx w = write_u (r_end R) 4 0 ++ concat (map (xindex_bytes R) (ztake k l)))).
    assert (St0 : exists w2, w_null_symbol R w s = Ok w2 /\ w_out w2 = w_out w1 ++ enc_null_sym (r_is64 R) /\ wframe (Some (PTable s)) w1 w2 /\ I 0 w2).
    { unfold w_null_symbol. rewrite P1. destruct (Z.eqb_spec v 0); [lia|]. rewrite K1, E. cbn [bind].
      rewrite (named_ok _ _ _ _ _ _ _ _ H HN s) by (try lia; destruct C as [<-|[<-|[]]]; reflexivity). cbn [bind].
      destruct (Z.leb_spec 1 (r_num R s)); [|lia]. cbn [guard bind].
      pose proof (wi_x _ _ _ _ _ W) as Wx. destruct F as (_ & F2 & _ & _ & _ & _ & F7). rewrite <- F2 in Wx. 
      eexists. split; [reflexivity|]. destruct C as [<-|[<-|[]]].
      - destruct (Z.eqb_spec (r_off R SShndx) 0) as [X|X].
        + split; [reflexivity|]. split; [|split; [reflexivity|split; [exact Wx|intros _ Y; congruence]]].
          split; [reflexivity|]. split; [reflexivity|]. split; [reflexivity|]. split; [|repeat split].
          intros t Ht. split; [|reflexivity]. cbn [w_num with_wnum w_put with_v]. apply upd_other. congruence.
        + split; [reflexivity|]. split; [|split; [reflexivity|split; [exact Wx|]]].
          * split; [reflexivity|]. split; [reflexivity|]. split; [reflexivity|]. split; [|split; [|split; [|intro Y; congruence]]; reflexivity].
            intros t Ht. split; [|reflexivity]. cbn [w_num with_wnum w_put with_v with_shndx]. apply upd_other. congruence.
          * intros _ _. cbn [w_shndx with_wnum with_shndx w_put with_v]. rewrite F7, Sh0 by (try reflexivity; discriminate).
            rewrite app_nil_l, ztake_0. cbn [map concat]. rewrite app_nil_r. reflexivity.
      - split; [reflexivity|]. split; [|split; [reflexivity|split; [exact Wx|intros Y; discriminate Y]]].
          split; [reflexivity|]. split; [reflexivity|]. split; [reflexivity|]. split; [|repeat split].
          intros t Ht. split; [|reflexivity]. cbn [w_num with_wnum w_put with_v]. apply upd_other. congruence. }
    destruct St0 as (w2 & E2 & O2 & F2 & I2).
    destruct (loop_map R (WSymbol s) (fun y => fst (enc_sym (r_is64 R) (r_end R) y)) l (Some (PTable s)) I) with (w := w2) as (w3 & E3 & O3 & F3 & I3).
    + intros k x w4 Hk (Hs1 & Hs2 & Hs3). pose proof (CoffW_proofs.ztake_step _ _ _ Hk) as Tk. apply zget_Some_lt in Hk. cbn [w_exec]. unfold w_symbol.
      assert (Xb : xindex_bytes R x = write_u (r_end R) 4 (match snd (enc_sym (r_is64 R) (r_end R) x) with Some n => n | None => 0 end)) by reflexivity.
      destruct (enc_sym (r_is64 R) (r_end R) x) as [bb xx]. cbn [fst]. cbn [snd] in Xb.
      assert (Fr : forall w5, w_num w5 s = k + 1 -> padd 32 (w_num w5 s) 1 = Ok (k + 2) /\ guard (k + 2 <=? r_num R s) = Ok tt).
      { intros w5 Hw5. rewrite Hw5. unfold padd. destruct (Z.ltb_spec (k + 1 + 1) (2 ^ 32)); [|lia]. replace (k + 1 + 1) with (k + 2) by lia. split; [reflexivity|].
        destruct (Z.leb_spec (k + 2) (r_num R s)); [reflexivity|lia]. }
      destruct C as [<-|[<-|[]]].
      * destruct (Z.eqb_spec (r_off R SShndx) 0) as [X|X].
        -- destruct (Fr (w_put w4 bb) Hs1) as (Q1 & Q2). rewrite Q1. cbn [bind]. rewrite Q2. cbn [bind]. eexists. split; [reflexivity|]. split; [reflexivity|].
           split; [|split; [cbn [w_num with_wnum]; rewrite upd_same; lia|split; [exact Hs2|intros _ Y; congruence]]].
           split; [reflexivity|]. split; [reflexivity|]. split; [reflexivity|]. split; [|repeat split].
           intros t Ht. split; [|reflexivity]. cbn [w_num with_wnum w_put with_v]. apply upd_other. congruence.
        -- rewrite (wi_n _ _ _ _ _ W X) in Hs2. specialize (Hs3 eq_refl X). destruct (Z.eqb_spec (r_off R SShndx) 0); [contradiction|].
           assert (exists y w5, y = (match xx with Some n => n | None => 0 end) /\ (match xx with Some n => with_shndx (w_put w4 bb) (w_shndx (w_put w4 bb) ++ write_u (r_end R) 4 n) true
                         | None => with_shndx (w_put w4 bb) (w_shndx (w_put w4 bb) ++ write_u (r_end R) 4 0) (w_xneed (w_put w4 bb)) end) = w5 /\
                     w5 = with_shndx (w_put w4 bb) (w_shndx w4 ++ write_u (r_end R) 4 y) true) as (y & w5 & Hy & -> & ->).
           { destruct xx as [n0|]; do 2 eexists; (split; [reflexivity|]); (split; [reflexivity|]); [reflexivity|]. change (w_xneed (w_put w4 bb)) with (w_xneed w4). rewrite Hs2. reflexivity. }
           destruct (Fr (with_shndx (w_put w4 bb) (w_shndx w4 ++ write_u (r_end R) 4 y) true) Hs1) as (Q1 & Q2).
           rewrite Q1. cbn [bind]. rewrite Q2. cbn [bind]. eexists. split; [reflexivity|]. split; [reflexivity|].
           split; [|split; [cbn [w_num with_wnum]; rewrite upd_same; lia|split; [symmetry; exact (wi_n _ _ _ _ _ W X)|]]].
           ++ split; [reflexivity|]. split; [cbn [w_xneed with_wnum with_shndx]; congruence|]. split; [reflexivity|]. split; [|split; [|split; [|intro Y; congruence]]; reflexivity].
              intros t Ht. split; [|reflexivity]. cbn [w_num with_wnum w_put with_v with_shndx]. apply upd_other. congruence.
           ++ intros _ _. cbn [w_shndx with_wnum with_shndx]. rewrite Hs3, Tk, map_app, concat_app, <- app_assoc. cbn [map concat]. rewrite app_nil_r, Xb, Hy. reflexivity.
      * destruct (Fr (w_put w4 bb) Hs1) as (Q1 & Q2). rewrite Q1. cbn [bind]. rewrite Q2. cbn [bind]. eexists. split; [reflexivity|]. split; [reflexivity|].
        split; [|split; [cbn [w_num with_wnum]; rewrite upd_same; lia|split; [exact Hs2|intros Y; discriminate Y]]].
        split; [reflexivity|]. split; [reflexivity|]. split; [reflexivity|]. split; [|repeat split].
        intros t Ht. split; [|reflexivity]. cbn [w_num with_wnum w_put with_v]. apply upd_other. congruence.
    + exact I2.
    + exists w3, (enc_null_sym (r_is64 R) ++ concat (map (fun y => fst (enc_sym (r_is64 R) (r_end R) y)) l)).
      split; [cbn [w_run w_exec]; rewrite E2; exact E3|]. split; [|split; [apply b_symtab; [lia|exact Ll|exact Lx]|]].
      * apply (winv_next R m a ra w); [exact W|exact Na| | |].
        -- apply (wframe_trans _ _ w1); [apply wframe_weak; exact F|]. apply (wframe_trans _ _ w2); assumption.
        -- rewrite O3, O2, !zlen_app, Q, (len_map _ (sym_size (r_is64 R))) by (intro; apply sym_len). unfold enc_null_sym. proj.
           rewrite zlen_zeros, K1 by (destruct (r_is64 R); cbn [sym_size]; lia). destruct Nd as [Nd|Nd]; [lia|]. rewrite Nd, Ll. lia.
        -- intros Y X. cbn [part_of] in Y. assert (s = SSymtab) by congruence. subst s. destruct I3 as (_ & _ & I3). rewrite (I3 eq_refl X), CoffW_proofs.ztake_all, <- Lx by (try reflexivity; lia). split; [reflexivity|].
           rewrite Lx, zlen_app, zlen_write_u, (len_map _ 4) by (try reflexivity; intro; unfold xindex_bytes; apply zlen_write_u). destruct Nd as [Nd|Nd]; lia.
      * apply (put_at _ w1 _ _ _ _ G O). rewrite O3, O2, <- app_assoc. reflexivity.
Qed.
Lemma bk_shndx nm cs a v b ra r1 R m w ws d : here cs a RShndx v b ra r1 R -> a <> [] -> winv R m a ra w ->
  (forall s, named s = true -> r_off R s <> 0 -> In (RIndex s) cs) -> block nm R m a RShndx v ws d -> done R m a RShndx v ra r1 w ws.
Proof.
  intros H Na W HN B. pose proof (b_pos _ _ _ _ _ _ _ _ H) as P. pose proof (here_off _ _ _ _ _ _ _ _ SShndx H eq_refl) as P1.
  pose proof (wi_len _ _ _ _ _ W) as L. pose proof (wi_x _ _ _ _ _ W) as X.
  destruct (here_parts _ _ _ _ _ _ _ _ (PTable SShndx) H eq_refl) as (N & _).
  assert (ws = [WSymtabShndx]) as -> by (inversion B; subst; try reflexivity; try congruence; discriminate).
  destruct (io_shndx _ (h_order _ _ _ _ _ _ _ _ H) a b (h_cs _ _ _ _ _ _ _ _ H)) as (S1 & S2 & _).
  assert (FX : forall x y, wframe (Some (PTable SShndx)) w (with_shndx (w_put w y) x (w_xneed w))).
  { intros x y. split; [reflexivity|]. split; [reflexivity|]. split; [reflexivity|]. split; [split; reflexivity|]. split; [reflexivity|]. split; [reflexivity|]. intros _ Y. congruence. }
  pose proof (h_after _ _ _ _ _ _ _ _ H) as (A0 & [(Z0 & -> & ->)|(Z0 & A & Er)]).
  - rewrite (here_need _ _ _ _ _ _ _ H), Z0 in X.
    apply (fin a RShndx 0 ra ra R m w Na W (with_shndx w [] (w_xneed w)) _ []); [discriminate| |exact L| |apply b_no_shndx; reflexivity|apply put_none; reflexivity].
    + split; [reflexivity|]. split; [reflexivity|]. split; [reflexivity|]. split; [split; reflexivity|]. split; [reflexivity|]. split; [reflexivity|]. intros _ Y. cbn [part_of] in Y. congruence.
    + cbn [w_run w_exec]. unfold w_symtab_shndx. rewrite X. reflexivity.
  - subst r1. proj_in P1. rewrite upd_same in P1. pose proof (num_nonneg _ _ SSymtab (h_inv _ _ _ _ _ _ _ _ H) (or_introl eq_refl)) as Nn.
    destruct (at_out w ra (r_num ra SSymtab * 4) _ v L ltac:(lia) ltac:(lia) good_4 A) as (G & w1 & E & O & Q & F).
    rewrite (wi_n _ _ _ _ _ W) in X by lia.
    assert (Rn : r_num R SSymtab = r_num ra SSymtab).
    { destruct (h_run _ _ _ _ _ _ _ _ H) as (vb & Er). change (r_num ra SSymtab) with (r_num (with_off (with_len ra (v + r_num ra SSymtab * 4)) SShndx v) SSymtab).
      refine (run_keep (fun r => r_num r SSymtab) (fun c => part_of c <> Some (PTable SSymtab) /\ symbol_of c <> Some SSymtab) b _ _ _ _ _ Er).
      - intros r c v0 r' Ac (Q1 & Q2). apply (frame_num _ _ _ _ _ Ac (or_introl Q1) Q2).
      - apply Forall_forall. intros x Hx. rewrite Forall_forall in S2. split; [|apply (S2 x Hx)].
        intro Y. pose proof (io_once _ (h_order _ _ _ _ _ _ _ _ H)) as U. rewrite (h_cs _ _ _ _ _ _ _ _ H) in U. unfold parts_of in U. rewrite flat_map_app in U.
        apply (nodup_disj _ _ (PTable SSymtab) U); apply in_flat_map.
        + exists (RSymtab SSymtab). split; [exact S1|left; reflexivity].
        + exists x. split; [right; exact Hx|]. rewrite Y. left. reflexivity. }
    destruct (wi_sh _ _ _ _ _ W S1 N ltac:(lia)) as (Ls & Lx).
    assert (Sx : w_shndx w1 = w_shndx w) by (destruct F as (_ & _ & _ & _ & _ & _ & F); apply F; discriminate).
    assert (Xx : w_xneed w1 = w_xneed w) by apply F.
    apply (fin a RShndx v ra _ R m w Na W (with_shndx (w_put w1 (w_shndx w)) [] (w_xneed w1)) _ (x_shndx m)); [discriminate| | | |apply b_shndx; lia|].
    + apply (wframe_trans _ _ w1); [apply wframe_weak; exact F|]. split; [reflexivity|]. split; [reflexivity|]. split; [reflexivity|]. split; [split; reflexivity|]. split; [reflexivity|]. split; [reflexivity|]. intros _ Y. cbn [part_of] in Y. congruence.
    + change (w_out (with_shndx (w_put w1 (w_shndx w)) [] (w_xneed w1))) with (w_out w1 ++ w_shndx w). rewrite zlen_app, Q, Ls, Lx, Rn. reflexivity.
    + cbn [w_run w_exec]. unfold w_symtab_shndx. rewrite X. cbn [negb]. rewrite P1, E. cbn [bind]. rewrite (named_ok _ _ _ _ _ _ _ _ H HN SShndx) by (try reflexivity; lia).
      cbn [bind]. rewrite Sx. reflexivity.
    + apply (put_at _ w1 _ _ _ _ G O). rewrite <- Ls. reflexivity.
Qed.
Lemma verdef_frame w v n : w_need_rem v = w_need_rem (w_v w) -> wframe (Some (PTable SVerdef)) w (with_waux (with_v w v) SVerdef n).
Proof.
  intro E. split; [reflexivity|]. split; [reflexivity|]. split; [reflexivity|]. split; [|split; [congruence|split; [intros _; exact E|reflexivity]]].
  intros s Hs. split; [reflexivity|]. cbn [w_aux with_waux with_v]. apply upd_other. congruence.
Qed.
Lemma verdef_frame' w v : w_need_rem v = w_need_rem (w_v w) -> wframe (Some (PTable SVerdef)) w (with_v w v).
Proof. intro E. split; [reflexivity|]. split; [reflexivity|]. split; [reflexivity|]. split; [split; reflexivity|split; [congruence|split; [intros _; exact E|reflexivity]]]. Qed.
Lemma verneed_frame w v n : w_def_rem v = w_def_rem (w_v w) -> wframe (Some (PTable SVerneed)) w (with_waux (with_v w v) SVerneed n).
Proof.
  intro E. split; [reflexivity|]. split; [reflexivity|]. split; [reflexivity|]. split; [|split; [intros _; exact E|split; [congruence|reflexivity]]].
  intros s Hs. split; [reflexivity|]. cbn [w_aux with_waux with_v]. apply upd_other. congruence.
Qed.
Lemma verneed_frame' w v : w_def_rem v = w_def_rem (w_v w) -> wframe (Some (PTable SVerneed)) w (with_v w v).
Proof. intro E. split; [reflexivity|]. split; [reflexivity|]. split; [reflexivity|]. split; [split; reflexivity|split; [intros _; exact E|split; [congruence|reflexivity]]]. Qed.
Lemma verdef_len e b d : zlen (gnu_verdef e b d) = 28.
Proof. unfold gnu_verdef, verdef_bytes, gnu_verdaux. rewrite !zlen_app, !zlen_write_u. reflexivity. Qed.
Lemma concat_all n (ds : list bytes) : (forall k d, zget ds k = Some d -> zlen d = n) -> zlen (concat ds) = zlen ds * n.
Proof. intro H. apply zlen_concat_const. apply Forall_forall. intros d Hd. apply In_zget in Hd. destruct Hd as (k & Hk). exact (H k d Hk). Qed.
Lemma verdef_run R ws n aux : verdef_calls (r_end R) ws n aux -> r_aux R SVerdef < 2 ^ 64 ->
  forall w, w_def_rem (w_v w) = n -> 0 <= w_aux w SVerdef -> w_aux w SVerdef + aux <= r_aux R SVerdef ->
  0 <= n /\ 0 <= aux /\ exists w' d, w_run R w ws = Ok w' /\ w_out w' = w_out w ++ d /\ zlen d = 20 * n + 8 * aux /\ wframe (Some (PTable SVerdef)) w w'.
Proof.
  intros V B. induction V as [|d names ws n aux Hc V IH|d ws n aux Hc Hn V IH]; intros w Hr H0 Ha.
  - split; [lia|]. split; [lia|]. exists w, []. split; [reflexivity|]. rewrite app_nil_r. split; [reflexivity|]. split; [reflexivity|apply wframe_refl].
  - pose proof (zlen_nonneg names) as Nn.
    assert (N0 : 0 <= n /\ 0 <= aux).
    { clear - V. induction V as [|d names ws n aux Hc V IH|d ws n aux Hc Hn V IH]; [lia| |lia]. pose proof (zlen_nonneg names). lia. }
    split; [lia|]. split; [lia|].
    set (v1 := {| w_buf := w_buf (w_v w) ++ gnu_verdef (r_end R) (negb (n + 1 - 1 =? 0)) d; w_def_rem := n + 1 - 1; w_daux_rem := wd_aux_count d; w_need_rem := w_need_rem (w_v w); w_naux_rem := w_naux_rem (w_v w) |}).
    set (w1 := with_waux (with_v w v1) SVerdef (w_aux w SVerdef + wd_aux_count d)).
    assert (E1 : w_exec R w (WVerdef d) = Ok w1).
    { cbn [w_exec]. unfold w_verdef, write_gnu_verdef. rewrite Hr. destruct (Z.eqb_spec (n + 1) 0); [lia|]. destruct (Z.eqb_spec (wd_aux_count d) 0); [lia|]. cbn [bind].
      unfold padd. destruct (Z.ltb_spec (w_aux w SVerdef + wd_aux_count d) (2 ^ 64)); [|lia]. cbn [bind].
      destruct (Z.leb_spec (w_aux w SVerdef + wd_aux_count d) (r_aux R SVerdef)); [|lia]. reflexivity. }
    destruct (loop R (map WVerdaux names) (Some (PTable SVerdef)) (fun k w => w_daux_rem (w_v w) = wd_aux_count d - k /\ w_def_rem (w_v w) = n /\ w_aux w SVerdef = w_aux w1 SVerdef) (fun _ d => zlen d = 8))
      with (w := w1) as (w2 & ds & E2 & O2 & F2 & (_ & I2 & I3) & L2 & D2).
    + intros k c w3 Hk (I1 & I2 & I3). rewrite zget_map in Hk. destruct (zget names k) as [x|] eqn:Ex; [|discriminate]. cbn [option_map] in Hk. assert (c = WVerdaux x) by congruence. subst c.
      apply zget_Some_lt in Ex. cbn [w_exec]. unfold w_verdaux, write_gnu_verdaux. rewrite I1. destruct (Z.eqb_spec (wd_aux_count d - k) 0); [lia|]. cbn [bind].
      eexists. eexists. split; [reflexivity|]. split; [reflexivity|]. split; [apply verdef_frame'; reflexivity|]. split; [cbn; repeat split; try assumption; lia|].
      unfold gnu_verdaux. rewrite zlen_app, !zlen_write_u. reflexivity.
    + unfold w1, v1. cbn. repeat split; lia.
    + assert (A1 : w_aux w1 SVerdef = w_aux w SVerdef + wd_aux_count d) by reflexivity. destruct (IH w2) as (_ & _ & w' & d' & E3 & O3 & L3 & F3); [exact I2|lia|lia|].
      exists w', (gnu_verdef (r_end R) (negb (n + 1 - 1 =? 0)) d ++ concat ds ++ d').
      split; [cbn [w_run]; rewrite E1; cbn [bind]; rewrite wrun_app, E2; exact E3|].
      split; [rewrite O3, O2, !app_assoc; reflexivity|].
      split; [rewrite !zlen_app, verdef_len, (concat_all 8 ds D2), L2, zlen_map, L3; lia|].
      apply (wframe_trans _ _ w1); [apply verdef_frame; reflexivity|]. apply (wframe_trans _ _ w2); assumption.
  - assert (N0 : 0 <= n /\ 0 <= aux).
    { clear - V. induction V as [|d names ws n aux Hc V IH|d ws n aux Hc Hn V IH]; [lia| |lia]. pose proof (zlen_nonneg names). lia. }
    split; [lia|]. split; [lia|].
    assert (exists w1, w_exec R w (WVerdefShared d) = Ok w1 /\ w_out w1 = w_out w ++ gnu_verdef_shared (r_end R) d /\ w_def_rem (w_v w1) = n /\ w_aux w1 = w_aux w /\ wframe (Some (PTable SVerdef)) w w1)
      as (w1 & E1 & O1 & D1 & A1 & F1).
    { cbn [w_exec]. unfold w_verdef_shared, write_gnu_verdef_shared. rewrite Hr. destruct (Z.eqb_spec (n + 1) 0); [lia|]. destruct (Z.eqb_spec (n + 1 - 1) 0); [lia|].
      destruct (Z.eqb_spec (wd_aux_count d) 0); [contradiction|]. cbn [bind]. eexists. split; [reflexivity|]. split; [reflexivity|]. split; [cbn; lia|]. split; [reflexivity|]. apply verdef_frame'. reflexivity. }
    destruct (IH w1) as (_ & _ & w' & d' & E3 & O3 & L3 & F3); [exact D1|rewrite A1; lia|rewrite A1; lia|].
    exists w', (gnu_verdef_shared (r_end R) d ++ d'). split; [cbn [w_run]; rewrite E1; exact E3|]. split; [rewrite O3, O1, app_assoc; reflexivity|].
    split; [rewrite zlen_app, L3; unfold gnu_verdef_shared, verdef_bytes; rewrite !zlen_app, !zlen_write_u; lia|]. apply (wframe_trans _ _ w1); assumption.
Qed.
Lemma verneed_pos e ws n aux : verneed_calls e ws n aux -> 0 <= n /\ 0 <= aux.
Proof. intro V. induction V as [|d l ws n aux Hc V IH]; [lia|]. pose proof (zlen_nonneg l). lia. Qed.
Lemma verneed_run R ws n aux : verneed_calls (r_end R) ws n aux -> r_aux R SVerneed < 2 ^ 64 ->
  forall w, w_need_rem (w_v w) = n -> 0 <= w_aux w SVerneed -> w_aux w SVerneed + aux <= r_aux R SVerneed ->
  exists w' d, w_run R w ws = Ok w' /\ w_out w' = w_out w ++ d /\ zlen d = 16 * n + 16 * aux /\ wframe (Some (PTable SVerneed)) w w'.
Proof.
  intros V B. induction V as [|d l ws n aux Hc V IH]; intros w Hr H0 Ha.
  - exists w, []. split; [reflexivity|]. rewrite app_nil_r. split; [reflexivity|]. split; [reflexivity|apply wframe_refl].
  - pose proof (zlen_nonneg l) as Nn. pose proof (verneed_pos _ _ _ _ V) as N0.
    assert (exists w1, w_exec R w (WVerneed d) = Ok w1 /\ w_out w1 = w_out w ++ gnu_verneed (r_end R) (negb (n + 1 - 1 =? 0)) d /\ w_need_rem (w_v w1) = n /\
      (zlen l <> 0 -> w_naux_rem (w_v w1) = zlen l) /\ w_aux w1 SVerneed = w_aux w SVerneed + zlen l /\ wframe (Some (PTable SVerneed)) w w1)
      as (w1 & E1 & O1 & D1 & X1 & A1 & F1).
    { cbn [w_exec]. unfold w_verneed, write_gnu_verneed. rewrite Hr. destruct (Z.eqb_spec (n + 1) 0); [lia|]. cbn [bind]. rewrite Hc. destruct (Z.eqb_spec (zlen l) 0) as [Zl|Zl].
      - eexists. split; [reflexivity|]. split; [reflexivity|]. split; [cbn; lia|]. split; [intro; contradiction|]. split; [cbn; lia|]. apply verneed_frame'. reflexivity.
      - unfold padd. destruct (Z.ltb_spec (w_aux w SVerneed + zlen l) (2 ^ 64)); [|lia]. cbn [bind].
        destruct (Z.leb_spec (w_aux w SVerneed + zlen l) (r_aux R SVerneed)); [|lia]. eexists. split; [reflexivity|]. split; [reflexivity|]. split; [cbn; lia|].
        split; [intros _; cbn; reflexivity|]. split; [reflexivity|]. apply verneed_frame. reflexivity. }
    destruct (loop R (map WVernaux l) (Some (PTable SVerneed)) (fun k w => (zlen l <> 0 -> w_naux_rem (w_v w) = zlen l - k) /\ w_need_rem (w_v w) = n /\ w_aux w SVerneed = w_aux w1 SVerneed) (fun _ d => zlen d = 16))
      with (w := w1) as (w2 & ds & E2 & O2 & F2 & (_ & I2 & I3) & L2 & D2).
    + intros k c w3 Hk (I1 & I2 & I3). rewrite zget_map in Hk. destruct (zget l k) as [x|] eqn:Ex; [|discriminate]. cbn [option_map] in Hk. assert (c = WVernaux x) by congruence. subst c.
      apply zget_Some_lt in Ex. cbn [w_exec]. unfold w_vernaux, write_gnu_vernaux. rewrite I1 by lia. destruct (Z.eqb_spec (zlen l - k) 0); [lia|]. cbn [bind].
      eexists. eexists. split; [reflexivity|]. split; [reflexivity|]. split; [apply verneed_frame'; reflexivity|]. split; [cbn; repeat split; try assumption; intros; lia|].
      unfold gnu_vernaux. rewrite !zlen_app, !zlen_write_u. reflexivity.
    + split; [intro; rewrite X1 by assumption; lia|]. split; [exact D1|reflexivity].
    + destruct (IH w2) as (w' & d' & E3 & O3 & L3 & F3); [exact I2|lia|lia|].
      exists w', (gnu_verneed (r_end R) (negb (n + 1 - 1 =? 0)) d ++ concat ds ++ d').
      split; [cbn [w_run]; rewrite E1; cbn [bind]; rewrite wrun_app, E2; exact E3|].
      split; [rewrite O3, O2, O1, !app_assoc; reflexivity|].
      split.
      { rewrite !zlen_app, (concat_all 16 ds D2), L2, zlen_map, L3. unfold gnu_verneed. rewrite !zlen_app, !zlen_write_u. lia. }
      apply (wframe_trans _ _ w1); [exact F1|]. apply (wframe_trans _ _ w2); assumption.
Qed.
Lemma bk_verdef cs a v b ra r1 R m w n aux ws : here cs a (RVerdef n aux) v b ra r1 R -> a <> [] -> winv R m a ra w ->
  (forall s, named s = true -> r_off R s <> 0 -> In (RIndex s) cs) -> verdef_calls (r_end R) ws n aux -> done R m a (RVerdef n aux) v ra r1 w (WAlignVer SVerdef :: ws).
Proof.
  intros H Na W HN V. pose proof (b_pos _ _ _ _ _ _ _ _ H) as P. pose proof (here_off _ _ _ _ _ _ _ _ SVerdef H eq_refl) as P1.
  pose proof (here_num _ _ _ _ _ _ _ _ SVerdef H eq_refl) as (P2 & P3). pose proof (wi_len _ _ _ _ _ W) as L.
  pose proof (b_call _ _ _ _ _ _ _ _ H) as C. cbn [call_ok] in C.
  destruct (here_parts _ _ _ _ _ _ _ _ (PTable SVerdef) H eq_refl) as (N & _).
  pose proof (h_after _ _ _ _ _ _ _ _ H) as (A0 & [(Z0 & -> & ->)|(Z0 & A & Er)]).
  - subst n. assert (ws = [] /\ aux = 0) as (-> & ->).
    { inversion V as [|d names ws0 n0 aux0 Hc V0|d ws0 n0 aux0 Hc Hn V0]; subst; [split; reflexivity| |lia].
      exfalso. assert (0 <= n0); [|lia]. clear - V0. induction V0; lia. }
    apply (fin a (RVerdef 0 0) 0 ra ra R m w Na W w _ []); [discriminate|apply wframe_refl|exact L| |apply b_verdef; [exact V|reflexivity]|apply put_none; reflexivity].
    cbn [w_run w_exec]. unfold w_align_ver. rewrite P1, A0. reflexivity.
  - subst r1. proj_in P1. proj_in P2. proj_in P3. rewrite upd_same in P1; rewrite upd_same in P2; rewrite upd_same in P3.
    destruct (at_out w ra (gnu_verdef_size n aux) _ v L ltac:(lia) ltac:(unfold gnu_verdef_size; lia) good_4 A) as (G & w1 & E & O & Q & F).
    destruct (wi_num _ _ _ _ _ W SVerdef N) as (_ & Wa). destruct (verdef_run R ws n aux V) with (w := w1) as (_ & _ & w2 & d & E2 & O2 & L2 & F2).
    + destruct A as (A & _). unfold gnu_verdef_size in A. lia.
    + destruct F as (_ & _ & _ & _ & F & _). rewrite F by discriminate. rewrite (wi_def _ _ _ _ _ W N). exact P2.
    + destruct F as (_ & _ & _ & F & _). destruct (F SVerdef) as (_ & ->); [discriminate|]. lia.
    + destruct F as (_ & _ & _ & F & _). destruct (F SVerdef) as (_ & ->); [discriminate|]. lia.
    + apply (fin a (RVerdef n aux) v ra _ R m w Na W w2 _ d); [discriminate| | | |apply b_verdef; [exact V|exact L2]|exact (put_at _ w1 _ _ _ _ G O O2)].
      * apply (wframe_trans _ _ w1); [apply wframe_weak; exact F|exact F2].
      * rewrite O2, zlen_app, Q, L2. proj. unfold gnu_verdef_size. lia.
      * cbn [w_run w_exec]. unfold w_align_ver. rewrite P1. destruct (Z.eqb_spec v 0); [lia|]. rewrite E. cbn [bind].
        rewrite (named_ok _ _ _ _ _ _ _ _ H HN SVerdef) by (try reflexivity; lia). exact E2.
Qed.
Lemma bk_verneed cs a v b ra r1 R m w n aux ws : here cs a (RVerneed n aux) v b ra r1 R -> a <> [] -> winv R m a ra w ->
  (forall s, named s = true -> r_off R s <> 0 -> In (RIndex s) cs) -> verneed_calls (r_end R) ws n aux -> done R m a (RVerneed n aux) v ra r1 w (WAlignVer SVerneed :: ws).
Proof.
  intros H Na W HN V. pose proof (b_pos _ _ _ _ _ _ _ _ H) as P. pose proof (here_off _ _ _ _ _ _ _ _ SVerneed H eq_refl) as P1.
  pose proof (here_num _ _ _ _ _ _ _ _ SVerneed H eq_refl) as (P2 & P3). pose proof (wi_len _ _ _ _ _ W) as L.
  pose proof (b_call _ _ _ _ _ _ _ _ H) as C. cbn [call_ok] in C.
  destruct (here_parts _ _ _ _ _ _ _ _ (PTable SVerneed) H eq_refl) as (N & _).
  pose proof (h_after _ _ _ _ _ _ _ _ H) as (A0 & [(Z0 & -> & ->)|(Z0 & A & Er)]).
  - subst n. assert (ws = [] /\ aux = 0) as (-> & ->).
    { inversion V as [|d l ws0 n0 aux0 Hc V0]; subst; [split; reflexivity|]. pose proof (verneed_pos _ _ _ _ V0). lia. }
    apply (fin a (RVerneed 0 0) 0 ra ra R m w Na W w _ []); [discriminate|apply wframe_refl|exact L| |apply b_verneed; [exact V|reflexivity]|apply put_none; reflexivity].
    cbn [w_run w_exec]. unfold w_align_ver. rewrite P1, A0. reflexivity.
  - subst r1. proj_in P1. proj_in P2. proj_in P3. rewrite upd_same in P1; rewrite upd_same in P2; rewrite upd_same in P3.
    destruct (at_out w ra (gnu_verneed_size n aux) _ v L ltac:(lia) ltac:(unfold gnu_verneed_size; lia) good_4 A) as (G & w1 & E & O & Q & F).
    destruct (wi_num _ _ _ _ _ W SVerneed N) as (_ & Wa). destruct (verneed_run R ws n aux V) with (w := w1) as (w2 & d & E2 & O2 & L2 & F2).
    + destruct A as (A & _). unfold gnu_verneed_size in A. lia.
    + destruct F as (_ & _ & _ & _ & _ & F & _). rewrite F by discriminate. rewrite (wi_need _ _ _ _ _ W N). exact P2.
    + destruct F as (_ & _ & _ & F & _). destruct (F SVerneed) as (_ & ->); [discriminate|]. lia.
    + destruct F as (_ & _ & _ & F & _). destruct (F SVerneed) as (_ & ->); [discriminate|]. lia.
    + apply (fin a (RVerneed n aux) v ra _ R m w Na W w2 _ d); [discriminate| | | |apply b_verneed; [exact V|exact L2]|exact (put_at _ w1 _ _ _ _ G O O2)].
      * apply (wframe_trans _ _ w1); [apply wframe_weak; exact F|exact F2].
      * rewrite O2, zlen_app, Q, L2. proj. unfold gnu_verneed_size. lia.
      * cbn [w_run w_exec]. unfold w_align_ver. rewrite P1. destruct (Z.eqb_spec v 0); [lia|]. rewrite E. cbn [bind].
        rewrite (named_ok _ _ _ _ _ _ _ _ H HN SVerneed) by (try reflexivity; lia). exact E2.
Qed.
