(** Lemmas about [elf_write]: where the parts of the object are in the file. *)
From Verif Require Import Base Core_spec Core_proofs Str_spec Str_proofs Buf_proofs Map_proofs Util_proofs File_spec File_proofs Hash_proofs Pod_proofs Elf_proofs ElfR_proofs MachW_proofs.
From Verif Require CoffW_proofs.
From Verif Require Import ElfW_spec ElfWR_proofs ElfWB_proofs ElfWC_proofs ElfWT_proofs ElfO_model ElfO_proofs ElfOB_proofs ElfOC_proofs ElfOD_proofs ElfOE_proofs ElfOF_proofs.
Notation strtab := Str_model.strtab (only parsing).

Lemma flat_split {X Y} (f : X -> list Y) l i x : zget l i = Some x -> flat_map f l = flat_map f (ztake i l) ++ f x ++ flat_map f (zdrop (i + 1) l).
Proof.
  intro H. destruct (split_at _ _ _ H) as (b & E). apply zget_Some_lt in H as B. assert (Lt : zlen (ztake i l) = i) by (apply zlen_ztake; lia).
  assert (Ed : zdrop (i + 1) l = b). { rewrite E. change (ztake i l ++ x :: b) with (ztake i l ++ [x] ++ b). rewrite app_assoc. apply zdrop_app_eq. rewrite zlen_app, Lt. reflexivity. }
  rewrite Ed. rewrite E at 1. rewrite flat_map_app. reflexivity.
Qed.

Section Parts.
Context (o : obj) (is_rela is64 : bool) (p : eplan) (R : rst) (nd : bool) (P1 : phase1 o is_rela is64 p R nd).
Context (Few : zlen (o_comdats o) + zlen (o_sections o) + zlen (o_symbols o) < 2 ^ 29).
Context (Sok : Forall (fun s => bytes_ok (se_name s) /\ good_align (se_align s)) (o_sections o)).
Context (Yok : Forall (fun y => bytes_ok (sy_name y)) (o_symbols o)).
Context (h : fhdr) (F : bytes) (Wr : ew_write o R p is_rela h = Ok F).
Notation st := (steps o is_rela p R nd).
Notation cs := (RFileHeader :: map fst st).
Notation st1 := (steps1 o p). Notation st2 := (steps2 o is_rela). Notation st3 := (steps3 o p). Notation st4 := (steps4 o p R).
Notation st5 := (steps5 nd). Notation st6 := (steps6 o is_rela p). Notation st7 := (steps7 o is_rela p R).
Notation Ord := (ordered o is_rela is64 p R nd P1 Few Sok Yok).
Notation X := (the_x o is64 p R h).
Notation r00 := (r_new is64 (o_endian o)).

(** a step, with the state before it *)
Lemma step_at s1 c w s2 va ra v r1 : st = s1 ++ (c, w) :: s2 -> r_run r00 (RFileHeader :: map fst s1) = Ok (va, ra) -> r_exec ra c = Ok (v, r1) ->
  here cs (RFileHeader :: map fst s1) c v (map fst s2) ra r1 R /\ r_len r1 <= zlen F /\
  exists d, block (name_at R) R X (RFileHeader :: map fst s1) c v w d /\ (d <> [] \/ 0 <= v <= zlen F -> holds F v d).
Proof.
  intros Es H1 H2. destruct (run_all _ _ _ _ _ _ P1) as (vs & Run). destruct (written o is_rela is64 p R nd P1 Few Sok Yok h F Wr vs Run) as (ds & B & L & Lf & _).
  assert (Ec : cs = (RFileHeader :: map fst s1) ++ c :: map fst s2) by (rewrite Es, map_app; reflexivity).
  destruct (make_here _ _ _ _ _ Ord Run _ _ _ Ec ltac:(discriminate)) as (va' & v' & vb & ra' & r1' & Q1 & Q2 & Q3 & _ & Hh).
  assert (ra' = ra) by congruence. subst ra'. assert (v' = v) by congruence. assert (r1' = r1) by congruence. subst v' r1'. split; [exact Hh|].
  pose proof (io_calls _ Ord) as C. pose proof (io_few _ Ord) as Lc. rewrite Ec in C, Lc. apply Forall_app in C. destruct C as (_ & C). rewrite zlen_app, (zlen_cons c) in Lc.
  pose proof (h_inv _ _ _ _ _ _ _ _ Hh) as I. pose proof (h_after _ _ _ _ _ _ _ _ Hh) as A.
  pose proof (zlen_nonneg (map fst s2)). assert (La : zlen (RFileHeader :: map fst s1) < 2 ^ 32 - 1) by lia. pose proof (inv_step _ c _ _ _ I (Forall_inv C) La A) as I1.
  split. { rewrite Lf. refine (run_mono (map fst s2) ((RFileHeader :: map fst s1) ++ [c]) r1 vb R I1 (Forall_inv_tail C) _ Q3). rewrite zlen_app. change (zlen [c]) with 1. lia. }
  assert (Es' : (RFileHeader, [WFileHeader h]) :: st = ((RFileHeader, [WFileHeader h]) :: s1) ++ (c, w) :: s2) by (rewrite Es; reflexivity).
  rewrite Es' in B. destruct (block_at _ _ _ ((RFileHeader, [WFileHeader h]) :: s1) c w s2 [] r00 vs R ds va ra v r1 B) as (d & G1 & G2 & G3); [rewrite <- Es'; exact Run|exact H1|exact H2|].
  exists d. split; [exact G3|]. intros D. destruct d as [|b d]; [destruct D as [D|D]; [congruence|]; apply holds_nil; exact D|].
  destruct (lays_holds _ _ _ _ L ltac:(lia) _ _ _ G1 G2 ltac:(discriminate)) as (_ & Hd). rewrite Z.sub_0_r in Hd. exact Hd.
Qed.
(** the section name table is there *)
Lemma index_in s : In (Some s) (headers cs) -> r_off R SShstrtab <> 0.
Proof. intro H. destruct (run_all _ _ _ _ _ _ P1) as (vs & Run). exact (shstrtab_placed _ _ _ _ _ Ord Run s H). Qed.
Lemma shstr_on : r_off R SShstrtab <> 0.
Proof. apply (index_in SStrtab). rewrite (heads_all _ _ _ _ _ _ P1). rewrite !in_app_iff. cbn [In]. tauto. Qed.
(** [id] is the id of the section name [name] *)
Definition sec_name (id : Z) (name : bytes) : Prop := name_offset R SShstrtab (Some id) = Ok (gname R id) /\ u32_ok (gname R id) /\ string_at (r_data R SShstrtab) (gname R id) name.
Lemma name_added s1 name w s2 va ra v r1 : st = s1 ++ (RAdd SShstrtab name, w) :: s2 -> r_run r00 (RFileHeader :: map fst s1) = Ok (va, ra) -> r_exec ra (RAdd SShstrtab name) = Ok (v, r1) -> sec_name v name.
Proof.
  intros Es H1 H2. destruct (run_all _ _ _ _ _ _ P1) as (vs & Run). assert (Ec : cs = (RFileHeader :: map fst s1) ++ RAdd SShstrtab name :: map fst s2) by (rewrite Es, map_app; reflexivity).
  destruct (added _ _ _ _ _ _ _ _ _ _ _ _ _ Ord Run Ec ltac:(discriminate) H1 H2 shstr_on) as ((n & E1 & E2 & E3) & _). unfold sec_name, gname. rewrite E1. split; [reflexivity|]. split; assumption.
Qed.
(** * Sections *)
Definition sec_pos (i : Z) : Z := 1 + zlen (o_comdats o) + zlen (flat_map sec_heads (ztake i (o_sections o))).
Definition secs_before (i : Z) := st1 ++ flat_map (section_steps is_rela) (ztake i (o_sections o)).
Definition secs_after (i : Z) := flat_map (section_steps is_rela) (zdrop (i + 1) (o_sections o)) ++ st3 ++ st4 ++ st5 ++ st6 ++ st7.
Lemma secs_split i s : zget (o_sections o) i = Some s -> st = secs_before i ++ section_steps is_rela s ++ secs_after i.
Proof. intro H. unfold secs_before, secs_after, steps. unfold steps2 at 1. rewrite (flat_split _ _ _ _ H). rewrite <- !app_assoc. reflexivity. Qed.
Lemma secs_run i s q : zget (o_sections o) i = Some s -> zget (pl_secs p) i = Some q -> exists va ra rb, r_run r00 (RFileHeader :: map fst (secs_before i)) = Ok (va, ra) /\ ew_section is_rela s ra = Ok (q, rb).
Proof.
  intros H Hq. destruct (map_m_at _ _ _ _ _ (p1_secs _ _ _ _ _ _ P1) _ _ H) as (y & s1 & s2 & E1 & E2 & E3 & _). assert (y = q) by congruence. subst y.
  destruct (run1 _ _ _ _ _ _ P1) as (v1 & R1). destruct (map_m_run _ (section_cmds is_rela) _ (section_run is_rela) _ _ _ E2) as (v2 & R2). exists (v1 ++ v2), s1, s2. split; [|exact E3].
  unfold secs_before. rewrite map_app. change (RFileHeader :: ?a ++ ?b) with ((RFileHeader :: a) ++ b). eapply run_cat; [exact R1|]. rewrite <- R2. f_equal. apply flat_fst. intro x. unfold section_steps, section_cmds. rewrite map_app. destruct (has_relocs x); reflexivity.
Qed.
Lemma heads_secs i : headers (RFileHeader :: map fst (secs_before i)) = map (fun _ => None) (o_comdats o) ++ flat_map sec_heads (ztake i (o_sections o)).
Proof.
  unfold secs_before. rewrite map_app. change (RFileHeader :: ?a ++ ?b) with ([RFileHeader] ++ a ++ b). rewrite !headers_app2, heads1. cbn [app headers flat_map]. f_equal.
  rewrite (flat_fst _ (section_cmds is_rela)) by (intro x; unfold section_steps, section_cmds; rewrite map_app; destruct (has_relocs x); reflexivity).
  rewrite headers_flat. apply flat_map_ext. intro s. unfold section_cmds, sec_heads. rewrite headers_app2. destruct (has_relocs s); reflexivity.
Qed.
Record sec_written (i : Z) (s : osec) (q : esec) : Prop := {
  sw_index : es_index q = sec_pos i;
  sw_data : holds F (es_offset q) (se_data s);
  sw_name : sec_name (es_str q) (se_name s);
  sw_reloc : has_relocs s = true -> exists id, es_reloc_str q = Some id /\ sec_name id (reloc_name is_rela s)
}.
Lemma section_at i s q : zget (o_sections o) i = Some s -> zget (pl_secs p) i = Some q -> sec_written i s q.
Proof.
  intros H Hq. destruct (secs_run _ _ _ H Hq) as (va & ra & rb & R0 & E). pose proof (secs_split _ _ H) as S. unfold section_steps in S. unfold ew_section in E.
  mb E. destruct a as [v1 r1]. mb E. destruct a as [v2 r2]. mb E. destruct a as [v3 r3].
  set (pre := secs_before i) in *. set (post := secs_after i) in *.
  cbn [app] in S. destruct (step_at pre RSection [] _ va ra v1 r1 S R0 E0) as (H0 & _).
  assert (Iv : v1 = sec_pos i). { pose proof (h_inv _ _ _ _ _ _ _ _ H0) as I. pose proof (h_after _ _ _ _ _ _ _ _ H0) as A. cbn [after] in A. destruct A as (_ & -> & _). rewrite (next_section_eq _ _ I). unfold pre. rewrite heads_secs, zlen_app, zlen_map. unfold sec_pos. lia. }
  assert (S2 : st = (pre ++ [(RSection, [])]) ++ (RRange (zlen (se_data s)) (se_align s), section_wr s) :: (RAdd SShstrtab (se_name s), []) :: (if has_relocs s then [(RSection, []); (RAdd SShstrtab (reloc_name is_rela s), [])] else []) ++ post) by (rewrite S, <- app_assoc; destruct (has_relocs s); reflexivity).
  assert (R1 : r_run r00 (RFileHeader :: map fst (pre ++ [(RSection, [])])) = Ok (va ++ [v1], r1)) by (rewrite map_app; change (RFileHeader :: ?a ++ ?b) with ((RFileHeader :: a) ++ b); eapply run_cat; [exact R0|apply run_one; exact E0]).
  destruct (step_at _ _ _ _ _ _ _ _ S2 R1 E1) as (H1 & L1 & d & B1 & Hd).
  assert (D : holds F v2 (se_data s)).
  { assert (d = se_data s). { unfold section_wr in B1. inversion B1; subst; try contradiction. reflexivity. } subst d. apply Hd. right.
    pose proof (h_inv _ _ _ _ _ _ _ _ H1) as I. pose proof (h_after _ _ _ _ _ _ _ _ H1) as A. cbn [after] in A. destruct A as (A1 & A2). rewrite A2 in L1. revert L1. proj. intro L1. pose proof (zlen_nonneg (se_data s)).
    rewrite Forall_forall in Sok. specialize (Sok s (zget_In _ _ _ H)). pose proof (i_len _ _ I). apply reserved_ge in A1; [lia|apply Sok|lia|lia]. }
  assert (S3 : st = (pre ++ [(RSection, []); (RRange (zlen (se_data s)) (se_align s), section_wr s)]) ++ (RAdd SShstrtab (se_name s), []) :: (if has_relocs s then [(RSection, []); (RAdd SShstrtab (reloc_name is_rela s), [])] else []) ++ post) by (rewrite S, <- app_assoc; destruct (has_relocs s); reflexivity).
  assert (R2 : r_run r00 (RFileHeader :: map fst (pre ++ [(RSection, []); (RRange (zlen (se_data s)) (se_align s), section_wr s)])) = Ok (va ++ [v1; v2], r2)) by (rewrite map_app; change (RFileHeader :: ?a ++ ?b) with ((RFileHeader :: a) ++ b); eapply run_cat; [exact R0|]; eapply run_two; [exact E0|]; apply run_one; exact E1).
  pose proof (name_added _ _ _ _ _ _ _ _ S3 R2 E2) as Nm.
  destruct (has_relocs s) eqn:Hr.
  - mb E. destruct a as [v4 r4]. mb E. destruct a as [v5 r5]. match type of E with Ok (?a, _) = _ => assert (Eq : q = a) by congruence end. rewrite Eq. constructor; cbn [es_index es_offset es_str es_reloc_str]; [exact Iv|exact D|exact Nm|]. intros _. exists v5. split; [reflexivity|].
    assert (S4 : st = (pre ++ [(RSection, []); (RRange (zlen (se_data s)) (se_align s), section_wr s); (RAdd SShstrtab (se_name s), []); (RSection, [])]) ++ (RAdd SShstrtab (reloc_name is_rela s), []) :: post) by (rewrite S, <- app_assoc; reflexivity).
    refine (name_added _ _ _ _ (va ++ [v1; v2; v3; v4]) r4 v5 r5 S4 _ E4). rewrite map_app. change (RFileHeader :: ?a ++ ?b) with ((RFileHeader :: a) ++ b). eapply run_cat; [exact R0|]. eapply run_two; [exact E0|]. eapply run_two; [exact E1|]. eapply run_two; [exact E2|]. apply run_one. exact E3.
  - match type of E with Ok (?a, _) = _ => assert (Eq : q = a) by congruence end. rewrite Eq. constructor; cbn [es_index es_offset es_str es_reloc_str]; [exact Iv|exact D|exact Nm|intro; congruence].
Qed.
(** * Groups *)
Lemma group_at i c q : zget (o_comdats o) i = Some c -> zget (pl_comdats p) i = Some q ->
  holds F (fst q) (write_u (r_end R) 4 1 ++ concat (map (write_u (r_end R) 4) (map (sidx (pl_secs p)) (oc_sections c)))) /\ sec_name (snd q) (str ".group").
Proof.
  intros H Hq. destruct (map_m_at _ _ _ _ _ (p1_comdats _ _ _ _ _ _ P1) _ _ H) as (y & s1 & s2 & E1 & E2 & E3 & _). assert (y = q) by congruence. subst y.
  destruct (map_m_run _ comdat_cmds _ (comdat_run o) _ _ _ E2) as (v2 & R2).
  set (pre := flat_map (comdat_steps (pl_secs p)) (ztake i (o_comdats o))). set (post := flat_map (comdat_steps (pl_secs p)) (zdrop (i + 1) (o_comdats o)) ++ st2 ++ st3 ++ st4 ++ st5 ++ st6 ++ st7).
  assert (S : st = pre ++ comdat_steps (pl_secs p) c ++ post) by (unfold pre, post, steps; unfold steps1 at 1; rewrite (flat_split _ _ _ _ H), <- !app_assoc; reflexivity).
  assert (R0 : r_run r00 (RFileHeader :: map fst pre) = Ok (0 :: v2, s1)). { eapply run_two; [exact (p1_0 _ _ _ _ _ _ P1)|]. rewrite <- R2. f_equal. apply flat_fst. reflexivity. }
  unfold ew_comdat in E3. destruct (negb (oc_kind c =? 1)); [mb E3; discriminate|]. mb E3. destruct a as [a1 b1]. mb E3. destruct a as [a2 b2]. mb E3. destruct a as [a3 b3]. assert (q = (a2, a3)) by congruence. subst q. cbn [fst snd]. unfold comdat_steps in S.
  assert (S2 : st = (pre ++ [(RSection, [])]) ++ (RComdat (zlen (oc_sections c)), comdat_wr (pl_secs p) c) :: (RAdd SShstrtab (str ".group"), []) :: post) by (rewrite S, <- app_assoc; reflexivity).
  assert (R1 : r_run r00 (RFileHeader :: map fst (pre ++ [(RSection, [])])) = Ok ((0 :: v2) ++ [a1], b1)) by (rewrite map_app; change (RFileHeader :: ?a ++ ?b) with ((RFileHeader :: a) ++ b); eapply run_cat; [exact R0|apply run_one; exact E]).
  destruct (step_at _ _ _ _ _ _ _ _ S2 R1 E0) as (H1 & L1 & d & B1 & Hd).
  split.
  - assert (Dd : d = write_u (r_end R) 4 1 ++ concat (map (write_u (r_end R) 4) (map (sidx (pl_secs p)) (oc_sections c)))).
    { unfold comdat_wr in B1. inversion B1; subst; try contradiction. f_equal. f_equal. f_equal. match goal with E : map WComdatEntry _ = map WComdatEntry _ |- _ => revert E end. clear. generalize (map (sidx (pl_secs p)) (oc_sections c)) as l2. intro l2. revert l. induction l2 as [|y l2 IH]; intros [|x l] E; cbn [map] in E; try discriminate; [reflexivity|]. injection E as E E'. subst. f_equal. apply IH. exact E'. }
    rewrite <- Dd. apply Hd. left. rewrite Dd. intro Q. apply (f_equal zlen) in Q. rewrite zlen_app, zlen_write_u in Q. change (zlen (@nil Z)) with 0 in Q. match type of Q with context [zlen (concat ?l)] => pose proof (zlen_nonneg (concat l)) end. lia.
  - assert (S3 : st = (pre ++ [(RSection, []); (RComdat (zlen (oc_sections c)), comdat_wr (pl_secs p) c)]) ++ (RAdd SShstrtab (str ".group"), []) :: post) by (rewrite S, <- app_assoc; reflexivity).
    refine (name_added _ _ _ _ ((0 :: v2) ++ [a1; a2]) b2 a3 b3 S3 _ E4). rewrite map_app. change (RFileHeader :: ?a ++ ?b) with ((RFileHeader :: a) ++ b). eapply run_cat; [exact R0|]. eapply run_two; [exact E|]. apply run_one. exact E0.
Qed.
(** * Relocations *)
Lemma relocs_at i s v : zget (o_sections o) i = Some s -> zget (pl_relocs p) i = Some v -> has_relocs s = true ->
  holds F v (concat (map (enc_rel (r_is64 R) is_rela (r_end R) (x_mips64el X)) (map (reloc_of p) (se_relocs s)))).
Proof.
  intros H Hq Hr. destruct (map_m_at _ _ _ _ _ (p1_relocs _ _ _ _ _ _ P1) _ _ H) as (y & s1 & s2 & E1 & E2 & E3 & _). assert (y = v) by congruence. subst y.
  destruct (map_m_run _ (reloc_cmds is_rela) _ (reloc_run is_rela) _ _ _ E2) as (v2 & R2). destruct (run4 _ _ _ _ _ _ P1) as (v1 & R1).
  set (pre := st1 ++ st2 ++ st3 ++ st4 ++ st5 ++ flat_map (reloc_steps p is_rela) (ztake i (o_sections o))). set (post := flat_map (reloc_steps p is_rela) (zdrop (i + 1) (o_sections o)) ++ st7).
  assert (S : st = pre ++ reloc_steps p is_rela s ++ post) by (unfold pre, post, steps; unfold steps6 at 1; rewrite (flat_split _ _ _ _ H), <- !app_assoc; reflexivity).
  unfold reloc_steps in S. rewrite Hr in S. cbn [app] in S. unfold ew_reserve_relocs in E3. rewrite Hr in E3.
  assert (R0 : r_run r00 (RFileHeader :: map fst pre) = Ok (v1 ++ v2, s1)).
  { unfold pre. rewrite !map_app. rewrite !app_assoc. change (RFileHeader :: ?a ++ ?b) with ((RFileHeader :: a) ++ b). eapply run_cat; [rewrite <- !app_assoc; exact R1|]. rewrite <- R2. f_equal. apply flat_fst. intro x. unfold reloc_steps, reloc_cmds. destruct (has_relocs x); reflexivity. }
  destruct (step_at _ _ _ _ _ _ _ _ S R0 E3) as (H1 & L1 & d & B1 & Hd).
  assert (Dd : d = concat (map (enc_rel (r_is64 R) is_rela (r_end R) (x_mips64el X)) (map (reloc_of p) (se_relocs s)))).
  { unfold reloc_wr in B1. inversion B1; subst; try contradiction. f_equal. f_equal. match goal with E : map (WRelocation _) _ = map (WRelocation _) _ |- _ => revert E end. clear. generalize (map (reloc_of p) (se_relocs s)) as l2. intro l2. revert l. induction l2 as [|y l2 IH]; intros [|x l] E; cbn [map] in E; try discriminate; [reflexivity|]. injection E as E E'. subst. f_equal. apply IH. exact E'. }
  rewrite <- Dd. apply Hd. left. rewrite Dd. destruct (se_relocs s) as [|l ls] eqn:El; [unfold has_relocs in Hr; rewrite El in Hr; discriminate|]. intro Q. apply (f_equal zlen) in Q. cbn [map concat] in Q. rewrite zlen_app, zlen_enc_rel in Q. change (zlen (@nil Z)) with 0 in Q. match type of Q with context [zlen (concat ?l)] => pose proof (zlen_nonneg (concat l)) end. unfold rel_size in Q. destruct (r_is64 R), is_rela; lia.
Qed.
End Parts.
