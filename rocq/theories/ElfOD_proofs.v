(** Lemmas about [elf_write]: what the file holds. *)
From Verif Require Import Base Core_spec Core_proofs Str_spec Str_proofs Buf_proofs Map_proofs Util_proofs File_spec File_proofs Hash_proofs Pod_proofs Elf_proofs ElfR_proofs MachW_proofs.
From Verif Require CoffW_proofs.
From Verif Require Import ElfW_spec ElfWR_proofs ElfWB_proofs ElfWC_proofs ElfWT_proofs ElfO_model ElfO_proofs ElfOB_proofs ElfOC_proofs.
Notation strtab := Str_model.strtab (only parsing).

(** * General *)
(** a block for every step *)
Lemma blocks_of nm R x : forall st a r vs R', r_run r (map fst st) = Ok (vs, R') ->
  (forall s1 c w s2 va ra v r1, st = s1 ++ (c, w) :: s2 -> r_run r (map fst s1) = Ok (va, ra) -> r_exec ra c = Ok (v, r1) -> exists d, block nm R x (a ++ map fst s1) c v w d) ->
  exists ds, blocks_w nm R x a st vs ds.
Proof.
  induction st as [|[c w] st IH]; intros a r vs R' Hr H; cbn [map fst r_run] in Hr; [assert (vs = []) by congruence; subst; exists []; constructor|].
  mb Hr. destruct a0 as [v r1]. mb Hr. destruct a0 as [vs' r2]. assert (vs = v :: vs') by congruence. subst vs.
  destruct (H [] c w st [] r v r1 eq_refl eq_refl E) as (d & Hd). rewrite app_nil_r in Hd.
  destruct (IH (a ++ [c]) r1 vs' r2 E0) as (ds & Hds).
  { intros s1 c1 w1 s2 va ra v1 r3 -> H1 H2. destruct (H ((c, w) :: s1) c1 w1 s2 (v :: va) ra v1 r3 eq_refl) as (d1 & Hd1); [cbn [map fst r_run]; rewrite E; cbn [bind]; rewrite H1; reflexivity|exact H2|].
    exists d1. rewrite <- app_assoc. exact Hd1. }
  exists (d :: ds). constructor; assumption.
Qed.
(** the block of a step *)
Lemma block_at nm R x s1 c w s2 : forall a r vs R' ds va ra v r1, blocks_w nm R x a (s1 ++ (c, w) :: s2) vs ds -> r_run r (map fst (s1 ++ (c, w) :: s2)) = Ok (vs, R') ->
  r_run r (map fst s1) = Ok (va, ra) -> r_exec ra c = Ok (v, r1) ->
  exists d, zget vs (zlen s1) = Some v /\ zget ds (zlen s1) = Some d /\ block nm R x (a ++ map fst s1) c v w d.
Proof.
  induction s1 as [|[c0 w0] s1 IH]; intros a r vs R' ds va ra v r1 B Hr H1 H2.
  - cbn [app] in B. inversion B as [|a0 c1 w1 st v1 vs1 d ds1 Bk Bs]; subst. cbn [map r_run] in H1. assert (ra = r) by congruence. subst ra.
    cbn [app map fst r_run] in Hr. rewrite H2 in Hr. cbn [bind] in Hr. mb Hr. destruct a0 as [v2 r2]. assert (v1 = v) by congruence. subst v1. exists d. cbn [map]. rewrite app_nil_r. change (zlen (@nil (rcmd * list wcmd))) with 0. rewrite !zget_0. split; [reflexivity|]. split; [reflexivity|exact Bk].
  - cbn [app] in B. inversion B as [|a0 c1 w1 st v1 vs1 d ds1 Bk Bs]; subst. cbn [app map fst r_run] in Hr, H1. mb Hr. destruct a0 as [v2 r2]. cbn [bind] in H1. mb H1. destruct a0 as [va' ra']. assert (ra' = ra) by congruence. subst ra'.
    mb Hr. destruct a0 as [v3 r3]. assert (v1 = v2 /\ vs1 = v3) as (-> & ->) by (split; congruence). destruct (IH _ _ _ _ _ _ _ _ _ Bs E1 E0 H2) as (d' & G1 & G2 & G3). exists d'.
    rewrite zlen_cons. pose proof (zlen_nonneg s1). rewrite !zget_S by lia. replace (zlen s1 + 1 - 1) with (zlen s1) by lia. replace (1 + zlen s1 - 1) with (zlen s1) by lia. cbn [map fst]. rewrite <- app_assoc in G3. split; [exact G1|]. split; [exact G2|exact G3].
Qed.
(** the length only grows *)
Lemma step_mono a c r v r' : inv a r -> call_ok c -> after r c v r' -> r_len r <= r_len r' /\ r_len r' < 2 ^ 64.
Proof.
  intros I C A. pose proof (step_len _ _ _ _ _ I C A) as L'. split; [|lia]. pose proof (i_len _ _ I) as L.
  pose proof (num_nonneg a r SSymtab I (or_introl eq_refl)) as N1. pose proof (num_nonneg a r SDynsym I (or_intror (or_introl eq_refl))) as N2.
  assert (W : forall len al, good_align al -> 0 <= len -> reserved r len al v -> r_len r <= v + len).
  { intros len al G Hl Hr. destruct (reserved_ge r len al v G ltac:(lia) Hl Hr). lia. }
  destruct (i_secs _ _ I) as (Q & _). pose proof (zlen_nonneg (headers a)) as Hn. assert (Ss : 0 <= r_secs r) by (destruct Q as [(-> & _)| ->]; lia). clear Q.
  assert (P : forall s, is_syms s -> 0 <= r_num r s) by (intros s Q; pose proof (num_nonneg a r s I Q); lia).
  pose proof (addr_good (r_is64 r)) as Ga.
  destruct c; cbn [after call_ok] in A, C.
  - destruct A as (A & ->). proj. apply (W _ _ (proj2 C) (proj1 C) A).
  - destruct A as (A & _ & ->). proj. exact A.
  - destruct A as (A & _ & ->). lia.
  - destruct A as (_ & [(_ & _ & ->)|(_ & A & ->)]); [lia|]. proj. refine (W _ _ Ga _ A). destruct (r_is64 r); cbn [phdr_size]; lia.
  - destruct A as (_ & ->). proj. lia.
  - destruct A as (_ & _ & _ & ->). proj. lia.
  - destruct A as (_ & [(_ & _ & ->)|(_ & A & ->)]); [lia|]. proj. refine (W _ _ Ga _ A). destruct (r_is64 r); cbn [shdr_size]; lia.
  - destruct A as (_ & t & _ & ->). proj. lia.
  - destruct A as (_ & _ & _ & t & id & _ & _ & _ & ->). cbv zeta. destruct (slot_indexed s); proj; lia.
  - subst r'. proj. lia.
  - destruct A as (_ & _ & ->). proj. lia.
  - destruct A as (_ & _ & _ & _ & ->). cbv zeta. destruct (first_fields r SSymtab) as (-> & _) || idtac. destruct section as [n|]; [destruct (_ <=? _)|]; proj; destruct (first_fields r SSymtab) as (-> & _); lia.
  - destruct A as (_ & _ & _ & ->). proj. destruct (first_fields r SDynsym) as (-> & _). lia.
  - destruct A as (_ & [(_ & _ & ->)|(_ & A & ->)]); [lia|]. proj. pose proof (P s C). refine (W _ _ Ga _ A). destruct (r_is64 r); cbn [sym_size]; lia.
  - destruct A as (_ & [(_ & _ & ->)|(_ & A & ->)]); [lia|]. proj. refine (W _ _ good_4 _ A). lia.
  - destruct A as (Z0 & [(_ & _ & ->)|(_ & n & d & t & Ew & -> & _ & ->)]); [lia|]. proj. destruct (i_tab _ _ I s C Z0) as (T1 & T2). destruct (st_write_inv _ _ _ _ T1 T2 Ew) as (-> & _). pose proof (zlen_nonneg d). lia.
  - destruct A as (_ & [(_ & _ & ->)|(_ & A & ->)]); [lia|]. proj. refine (W _ _ Ga _ A). destruct (r_is64 r); cbn [dyn_size]; lia.
  - destruct A as (A & ->). proj. refine (W _ _ good_4 _ A). unfold hash_size; lia.
  - destruct A as (A & ->). proj. refine (W _ _ Ga _ A). unfold gnu_hash_size, addr_size; destruct (r_is64 r); lia.
  - destruct A as (_ & [(_ & _ & ->)|(_ & A & ->)]); [lia|]. proj. refine (W _ _ good_2 _ A). lia.
  - destruct A as (_ & [(_ & _ & ->)|(_ & A & ->)]); [lia|]. proj. refine (W _ _ good_4 _ A). unfold gnu_verdef_size; lia.
  - destruct A as (_ & [(_ & _ & ->)|(_ & A & ->)]); [lia|]. proj. refine (W _ _ good_4 _ A). unfold gnu_verneed_size; lia.
  - destruct A as (_ & [(_ & _ & ->)|(_ & A & ->)]); [lia|]. proj. refine (W _ _ good_1 _ A). lia.
  - destruct A as (A & ->). proj. refine (W _ _ Ga _ A). unfold rel_size; destruct (r_is64 r), is_rela; lia.
  - destruct A as (A & ->). proj. refine (W _ _ good_4 _ A). lia.
Qed.
Lemma run_mono b : forall a r vs R, inv a r -> Forall call_ok b -> zlen a + zlen b < 2 ^ 32 -> r_run r b = Ok (vs, R) -> r_len r <= r_len R.
Proof.
  induction b as [|c b IH]; intros a r vs R I C L H; cbn [r_run] in H; [assert (R = r) by congruence; subst; lia|]. mb H. destruct a0 as [v r1]. mb H. destruct a0 as [vb R1]. assert (R1 = R) by congruence. subst R1.
  apply exec_after in E. rewrite zlen_cons in L. pose proof (zlen_nonneg b). pose proof (step_mono _ _ _ _ _ I (Forall_inv C) E) as (M & _). pose proof (inv_step _ _ _ _ _ I (Forall_inv C) ltac:(lia) E) as I1.
  assert (r_len r1 <= r_len R); [|lia]. apply (IH (a ++ [c]) r1 vb R I1 (Forall_inv_tail C)); [|exact E0]. rewrite zlen_app. change (zlen [c]) with 1. lia.
Qed.
(** the null symbol stays *)
Lemma num_pos r c v r' : after r c v r' -> call_ok c -> 1 <= r_num r SSymtab -> 1 <= r_num r' SSymtab.
Proof.
  intros A C H. destruct (symbol_of c) as [s|] eqn:Es.
  - destruct c; cbn [symbol_of] in Es; try discriminate; cbn [after call_ok] in A, C.
    + injection Es as ->. destruct A as (_ & A & ->). proj. destruct C as [<-|[<-|[]]]; [lia|]. rewrite upd_other by discriminate. exact H.
    + destruct A as (_ & _ & -> & _ & ->). cbv zeta. destruct section as [n|]; [destruct (_ <=? _)|]; proj; rewrite upd_same; destruct (first_fields r SSymtab) as (_ & _ & _ & _ & _ & _ & _ & _ & _ & _ & _ & _ & ->); destruct (_ =? _); lia.
    + destruct A as (_ & -> & _ & ->). proj. rewrite upd_other by discriminate. destruct (first_fields r SDynsym) as (_ & _ & _ & _ & _ & _ & _ & _ & _ & _ & _ & Q & _). rewrite Q by discriminate. exact H.
  - assert (D : part_of c <> Some (PTable SSymtab) \/ c = RSymtab SSymtab).
    { destruct c; cbn [part_of call_ok] in *; try (left; discriminate).
      - destruct C as [<-|[<-|[]]]; [right; reflexivity|left; discriminate].
      - destruct C as [<-|[<-|[<-|[]]]]; left; discriminate. }
    destruct (frame_num _ _ _ _ SSymtab A D) as (-> & _); [congruence|exact H].
Qed.
Lemma run_num b : forall r vs R, Forall call_ok b -> r_run r b = Ok (vs, R) -> 1 <= r_num r SSymtab -> 1 <= r_num R SSymtab.
Proof.
  induction b as [|c b IH]; intros r vs R C H P; cbn [r_run] in H; [assert (R = r) by congruence; subst; exact P|]. mb H. destruct a as [v r1]. mb H. destruct a as [vb R1]. assert (R1 = R) by congruence. subst R1.
  apply exec_after in E. exact (IH _ _ _ (Forall_inv_tail C) E0 (num_pos _ _ _ _ E (Forall_inv C) P)).
Qed.
(** * Names *)
Definition known (r : rst) (s : slot) (id : Z) (name : bytes) : Prop :=
  index_of name (st_strings (r_tab r s)) = Some id /\
  (r_off r s <> 0 -> exists n, name_offset r s (Some id) = Ok n /\ u32_ok n /\ string_at (r_data r s) n name).
Definition nulled (r : rst) (s : slot) : Prop := r_off r s <> 0 -> exists d, r_data r s = 0 :: d.
Lemma strings_case c s : is_strs s -> call_ok c -> c = RStrings s \/ part_of c <> Some (PTable s).
Proof.
  intros Hs C. destruct c; cbn [part_of] in *; try (right; congruence); try (right; intro Q; injection Q as <-; destruct Hs as [Q|[Q|[Q|[]]]]; discriminate).
  - right. intro Q. injection Q as ->. cbn [call_ok] in C. destruct Hs as [<-|[<-|[<-|[]]]]; destruct C as [Q|[Q|[]]]; discriminate.
  - destruct (slot_beq s0 s) eqn:Q; [apply slot_beq_eq in Q; subst; left; reflexivity|]. right. intro Q1. injection Q1 as ->. rewrite slot_beq_refl in Q. discriminate.
Qed.
Lemma tab_kept a c r v r' s : inv a r -> after r c v r' -> r_off r s <> 0 -> part_of c <> Some (PTable s) -> r_tab r' s = r_tab r s.
Proof.
  intros I A H D. apply (frame_tab _ _ _ _ _ A). destruct c; cbn [tab_of]; try discriminate.
  - intro Q. injection Q as ->. cbn [after] in A. destruct A as (A & _). congruence.
  - intro Q. injection Q as <-. cbn [after] in A. destruct A as (_ & A & _). congruence.
  - intro Q. injection Q as ->. apply D. reflexivity.
Qed.
Lemma known_step a c r v r' s id name : inv a r -> call_ok c -> zlen a < 2 ^ 32 - 1 -> after r c v r' -> is_strs s -> str_ok name -> known r s id name -> known r' s id name.
Proof.
  intros I C Hn A Hs Ok_ (K1 & K2). destruct (step_str a c r v r' s I C Hn A) as (_ & (x & Hx) & _). split; [rewrite Hx; apply index_of_app; exact K1|].
  intro H. destruct (strings_case c s Hs C) as [->|D].
  - cbn [after call_ok] in A, C. destruct A as (O & A). destruct (i_tab _ _ I _ C O) as (T1 & T2).
    destruct A as [(_ & _ & ->)|(_ & n & d & t & E & Ev & _ & ->)]; [congruence|]. unfold name_offset. proj. rewrite !upd_same.
    destruct (st_write_inv _ _ _ _ T1 T2 E) as (_ & _ & _ & L). apply index_of_Some in K1. destruct (L _ _ K1 Ok_) as (o & Z1 & Z2 & Z3).
    exists o. cbn [st_maybe_get_offset]. unfold st_get_offset. rewrite Z1. split; [reflexivity|]. split; assumption.
  - rewrite (frame_off _ _ _ _ _ A D) in H. unfold name_offset. rewrite (frame_data _ _ _ _ _ A) by (intros ->; apply D; reflexivity). rewrite (tab_kept a _ _ _ _ _ I A H D). exact (K2 H).
Qed.
Lemma nulled_step a c r v r' s : inv a r -> call_ok c -> after r c v r' -> is_strs s -> nulled r s -> nulled r' s.
Proof.
  intros I C A Hs K H. destruct (strings_case c s Hs C) as [->|D].
  - cbn [after call_ok] in A, C. destruct A as (O & [(_ & _ & ->)|(_ & n & d & t & E & Ev & _ & ->)]); [congruence|]. proj. rewrite upd_same. eauto.
  - rewrite (frame_off _ _ _ _ _ A D) in H. rewrite (frame_data _ _ _ _ _ A) by (intros ->; apply D; reflexivity). exact (K H).
Qed.
Lemma known_run b : forall a r vs R s id name, inv a r -> Forall call_ok b -> zlen a + zlen b < 2 ^ 32 -> is_strs s -> str_ok name -> r_run r b = Ok (vs, R) -> known r s id name -> known R s id name.
Proof.
  induction b as [|c b IH]; intros a r vs R s id name I C L Hs Ok_ H K; cbn [r_run] in H; [assert (R = r) by congruence; subst; exact K|]. mb H. destruct a0 as [v r1]. mb H. destruct a0 as [vb R1]. assert (R1 = R) by congruence. subst R1.
  apply exec_after in E. rewrite zlen_cons in L. pose proof (zlen_nonneg b). assert (La : zlen a < 2 ^ 32 - 1) by lia.
  apply (IH (a ++ [c]) r1 vb R s id name (inv_step _ _ _ _ _ I (Forall_inv C) La E) (Forall_inv_tail C)); [rewrite zlen_app; change (zlen [c]) with 1; lia|exact Hs|exact Ok_|exact E0|].
  exact (known_step _ _ _ _ _ _ _ _ I (Forall_inv C) La E Hs Ok_ K).
Qed.
Lemma nulled_run b : forall a r vs R s, inv a r -> Forall call_ok b -> zlen a + zlen b < 2 ^ 32 -> is_strs s -> r_run r b = Ok (vs, R) -> nulled r s -> nulled R s.
Proof.
  induction b as [|c b IH]; intros a r vs R s I C L Hs H K; cbn [r_run] in H; [assert (R = r) by congruence; subst; exact K|]. mb H. destruct a0 as [v r1]. mb H. destruct a0 as [vb R1]. assert (R1 = R) by congruence. subst R1.
  apply exec_after in E. rewrite zlen_cons in L. pose proof (zlen_nonneg b). assert (La : zlen a < 2 ^ 32 - 1) by lia.
  apply (IH (a ++ [c]) r1 vb R s (inv_step _ _ _ _ _ I (Forall_inv C) La E) (Forall_inv_tail C)); [rewrite zlen_app; change (zlen [c]) with 1; lia|exact Hs|exact E0|].
  exact (nulled_step _ _ _ _ _ _ I (Forall_inv C) E Hs K).
Qed.
(** a name that was added *)
Lemma added is64 e cs' vs R a s name b va ra id r1 : in_order (RFileHeader :: cs') -> r_run (r_new is64 e) (RFileHeader :: cs') = Ok (vs, R) ->
  RFileHeader :: cs' = a ++ RAdd s name :: b -> a <> [] -> r_run (r_new is64 e) a = Ok (va, ra) -> r_exec ra (RAdd s name) = Ok (id, r1) -> r_off R s <> 0 ->
  (exists n, name_offset R s (Some id) = Ok n /\ u32_ok n /\ string_at (r_data R s) n name) /\ str_ok name.
Proof.
  intros Ord Run Ec Na Ra Rx H. destruct (make_here is64 e cs' vs R Ord Run a _ b Ec Na) as (va' & v & vb & ra' & r1' & R1 & R2 & R3 & _ & Hh).
  assert (ra' = ra) by congruence. subst ra'. assert (v = id /\ r1' = r1) as (-> & ->) by (split; congruence).
  pose proof (io_calls _ Ord) as C. pose proof (io_few _ Ord) as L. rewrite Ec in C, L. apply Forall_app in C as (_ & C). pose proof (Forall_inv C) as (Cs & Cb). apply Forall_inv_tail in C.
  rewrite zlen_app, zlen_cons in L. pose proof (zlen_nonneg a). pose proof (zlen_nonneg b).
  pose proof (h_inv _ _ _ _ _ _ _ _ Hh) as I. pose proof (h_after _ _ _ _ _ _ _ _ Hh) as A. assert (La : zlen a < 2 ^ 32 - 1) by lia.
  pose proof (inv_step a (RAdd s name) ra id r1 I (conj Cs Cb) La A) as I1. cbn [after] in A. destruct A as (O & t & E & Er).
  destruct (i_tab _ _ I s Cs O) as (T1 & T2). pose proof (i_few _ _ I s). destruct (st_add_ok _ _ _ _ T1 T2 Cb ltac:(lia) E) as (_ & _ & _ & _ & U & _).
  assert (Sk : str_ok name). { apply has_null_ok; [|exact Cb]. unfold st_add in E. destruct (has_null name); [|reflexivity]. destruct (negb _); discriminate. }
  split; [|exact Sk].
  assert (K : known r1 s id name). { split; [rewrite Er; proj; rewrite upd_same; exact U|]. rewrite Er. proj. congruence. }
  apply (known_run b (a ++ [RAdd s name]) r1 vb R s id name I1 C); [rewrite zlen_app; change (zlen [RAdd s name]) with 1; lia|exact Cs|exact Sk|exact R3|exact K|exact H].
Qed.
Lemma data_null is64 e cs' vs R s : in_order (RFileHeader :: cs') -> r_run (r_new is64 e) (RFileHeader :: cs') = Ok (vs, R) -> is_strs s -> r_off R s <> 0 -> exists d, r_data R s = 0 :: d.
Proof.
  intros Ord Run Hs H. pose proof (io_calls _ Ord) as C. pose proof (io_few _ Ord) as L. rewrite zlen_cons in L. cbn [r_run] in Run. mb Run. destruct a as [v r0]. mb Run. destruct a as [v1 r1]. assert (r1 = R) by congruence. subst r1.
  apply exec_after in E. apply inv_first in E as I. apply (nulled_run cs' [RFileHeader] r0 v1 R s I (Forall_inv_tail C)); [change (zlen [RFileHeader]) with 1; lia|exact Hs|exact E0| |exact H].
  intro Q. cbn [after] in E. destruct E as (_ & _ & ->). exfalso. apply Q. reflexivity.
Qed.
