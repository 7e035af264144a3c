(** Lemmas about [elf_write]: the calls match and the file has what they write. *)
From Verif Require Import Base Core_spec Core_proofs Str_spec Str_proofs Buf_proofs Map_proofs Util_proofs File_spec File_proofs Hash_proofs Pod_proofs Elf_proofs ElfR_proofs MachW_proofs.
From Verif Require CoffW_proofs.
From Verif Require Import ElfW_spec ElfWR_proofs ElfWB_proofs ElfWC_proofs ElfWT_proofs ElfO_model ElfO_proofs ElfOB_proofs.
Notation strtab := Str_model.strtab (only parsing).

Notation none c := (c, @nil wcmd) (only parsing).
Definition comdat_steps (secs : list esec) (c : ocomdat) : list (rcmd * list wcmd) :=
  [(RSection, []); (RComdat (zlen (oc_sections c)), comdat_wr secs c); (RAdd SShstrtab (str ".group"), [])].
Definition section_steps (is_rela : bool) (s : osec) : list (rcmd * list wcmd) :=
  [(RSection, []); (RRange (zlen (se_data s)) (se_align s), section_wr s); (RAdd SShstrtab (se_name s), [])] ++
  if has_relocs s then [(RSection, []); (RAdd SShstrtab (reloc_name is_rela s), [])] else [].
Definition symbol_step (secs : list esec) (q : Z * osym) : rcmd * list wcmd := (symbol_cmd secs q, []).
Definition name_steps (y : osym) : list (rcmd * list wcmd) := if named_sym y then [(RAdd SStrtab (sy_name y), [])] else [].
Definition reloc_steps (p : eplan) (is_rela : bool) (s : osec) : list (rcmd * list wcmd) :=
  if has_relocs s then [(RRelocations (zlen (se_relocs s)) is_rela, reloc_wr p is_rela s)] else [].
Definition symtab_writes (o : obj) (R : rst) (p : eplan) : list wcmd := WNullSymbol SSymtab :: map (WSymbol SSymtab) (map (sym_of R p) (locals o ++ globals o)).
Section Steps.
Context (o : obj) (is_rela is64 : bool) (p : eplan) (R : rst) (nd : bool) (P1 : phase1 o is_rela is64 p R nd).
Definition steps1 : list (rcmd * list wcmd) := flat_map (comdat_steps (pl_secs p)) (o_comdats o).
Definition steps2 := flat_map (section_steps is_rela) (o_sections o).
Definition steps3 := (RNullSymbol SSymtab, @nil wcmd) :: map (symbol_step (pl_secs p)) (locals o ++ globals o) ++ flat_map name_steps (o_symbols o).
Definition steps4 : list (rcmd * list wcmd) := [(RIndex SSymtab, []); (RSymtab SSymtab, symtab_writes o R p)].
Definition steps5 : list (rcmd * list wcmd) := (if nd then [(RIndex SShndx, [])] else []) ++ [(RShndx, [WSymtabShndx]); (RIndex SStrtab, []); (RStrings SStrtab, [WStrings SStrtab])].
Definition steps6 := flat_map (reloc_steps p is_rela) (o_sections o).
Definition steps7 : list (rcmd * list wcmd) := [(RIndex SShstrtab, []); (RStrings SShstrtab, [WStrings SShstrtab]); (RSectionHeaders, WNullSectionHeader :: hdr_calls o R p is_rela)].
Definition steps : list (rcmd * list wcmd) := steps1 ++ steps2 ++ steps3 ++ steps4 ++ steps5 ++ steps6 ++ steps7.
Lemma flat_fst {X} (f : X -> list (rcmd * list wcmd)) g l : (forall x, map fst (f x) = g x) -> map fst (flat_map f l) = flat_map g l.
Proof. intro H. induction l as [|x l IH]; [reflexivity|]. cbn [flat_map]. rewrite map_app, H, IH. reflexivity. Qed.
Lemma flat_snd {X} (f : X -> list (rcmd * list wcmd)) g l : (forall x, flat_map snd (f x) = g x) -> flat_map snd (flat_map f l) = flat_map g l.
Proof. intro H. induction l as [|x l IH]; [reflexivity|]. cbn [flat_map]. rewrite flat_map_app, H, IH. reflexivity. Qed.
Lemma cmds1 : map fst steps1 = flat_map comdat_cmds (o_comdats o). Proof. apply flat_fst. reflexivity. Qed.
Lemma cmds2 : map fst steps2 = flat_map (section_cmds is_rela) (o_sections o).
Proof. apply flat_fst. intro s. unfold section_steps, section_cmds. rewrite map_app. destruct (has_relocs s); reflexivity. Qed.
Lemma cmds3 : map fst steps3 = RNullSymbol SSymtab :: map (symbol_cmd (pl_secs p)) (locals o ++ globals o) ++ flat_map name_cmds (o_symbols o).
Proof.
  unfold steps3. cbn [map fst]. rewrite map_app, map_map. f_equal. f_equal. apply flat_fst. intro y. unfold name_steps, name_cmds. destruct (named_sym y); reflexivity.
Qed.
Lemma cmds6 : map fst steps6 = flat_map (reloc_cmds is_rela) (o_sections o).
Proof. apply flat_fst. intro s. unfold reloc_steps, reloc_cmds. destruct (has_relocs s); reflexivity. Qed.
(** the run of the first phase, cut at the points where a part begins *)
Lemma run1 : exists vs, r_run (r_new is64 (o_endian o)) (RFileHeader :: map fst steps1) = Ok (vs, p1_r1 _ _ _ _ _ _ P1).
Proof.
  destruct (map_m_run _ comdat_cmds _ (fun x r y r' => comdat_run o x r y r') _ _ _ (p1_comdats _ _ _ _ _ _ P1)) as (vs & E). eexists. eapply run_two; [exact (p1_0 _ _ _ _ _ _ P1)|]. rewrite cmds1. exact E.
Qed.
Lemma run2 : exists vs, r_run (r_new is64 (o_endian o)) ((RFileHeader :: map fst steps1) ++ map fst steps2) = Ok (vs, p1_r2 _ _ _ _ _ _ P1).
Proof.
  destruct run1 as (v1 & E1). destruct (map_m_run _ (section_cmds is_rela) _ (fun x r y r' => section_run is_rela x r y r') _ _ _ (p1_secs _ _ _ _ _ _ P1)) as (vs & E). eexists. eapply run_cat; [exact E1|]. rewrite cmds2. exact E.
Qed.
Lemma run3 : exists vs, r_run (r_new is64 (o_endian o)) ((RFileHeader :: map fst steps1) ++ map fst steps2 ++ map fst steps3) = Ok (vs, p1_r6 _ _ _ _ _ _ P1).
Proof.
  destruct run2 as (v1 & E1). destruct (symbols_run _ _ _ _ _ (p1_locals _ _ _ _ _ _ P1)) as (v2 & E2). destruct (symbols_run _ _ _ _ _ (p1_globals _ _ _ _ _ _ P1)) as (v3 & E3).
  destruct (map_m_run _ name_cmds _ (fun x r y r' H => proj1 (name_run x r y r' H)) _ _ _ (p1_names _ _ _ _ _ _ P1)) as (v4 & E4).
  rewrite app_assoc. eexists. eapply run_cat; [exact E1|]. rewrite cmds3, map_app, <- app_assoc. eapply run_two; [exact (p1_null _ _ _ _ _ _ P1)|]. eapply run_cat; [exact E2|]. eapply run_cat; [exact E3|exact E4].
Qed.
Lemma cmds45 : map fst steps4 ++ map fst steps5 = [RIndex SSymtab; RSymtab SSymtab] ++ (if nd then [RIndex SShndx] else []) ++ [RShndx; RIndex SStrtab; RStrings SStrtab].
Proof. unfold steps5. rewrite map_app. destruct nd; reflexivity. Qed.
Lemma run4 : exists vs, r_run (r_new is64 (o_endian o)) ((RFileHeader :: map fst steps1) ++ map fst steps2 ++ map fst steps3 ++ map fst steps4 ++ map fst steps5) = Ok (vs, p1_r7 _ _ _ _ _ _ P1).
Proof.
  destruct run3 as (v1 & E1). eexists. replace ((RFileHeader :: map fst steps1) ++ map fst steps2 ++ map fst steps3 ++ map fst steps4 ++ map fst steps5) with (((RFileHeader :: map fst steps1) ++ map fst steps2 ++ map fst steps3) ++ (map fst steps4 ++ map fst steps5)) by (rewrite <- !app_assoc; reflexivity).
  eapply run_cat; [exact E1|]. rewrite cmds45. exact (p1_tabs _ _ _ _ _ _ P1).
Qed.
Lemma run_all : exists vs, r_run (r_new is64 (o_endian o)) (RFileHeader :: map fst steps) = Ok (vs, R).
Proof.
  destruct run4 as (v1 & E1). destruct (map_m_run _ (reloc_cmds is_rela) _ (fun x r y r' => reloc_run is_rela x r y r') _ _ _ (p1_relocs _ _ _ _ _ _ P1)) as (v2 & E2).
  eexists. unfold steps. rewrite !map_app.
  replace (RFileHeader :: map fst steps1 ++ map fst steps2 ++ map fst steps3 ++ map fst steps4 ++ map fst steps5 ++ map fst steps6 ++ map fst steps7)
    with (((RFileHeader :: map fst steps1) ++ map fst steps2 ++ map fst steps3 ++ map fst steps4 ++ map fst steps5) ++ map fst steps6 ++ map fst steps7) by (rewrite <- !app_assoc; reflexivity).
  eapply run_cat; [exact E1|]. eapply run_cat; [rewrite cmds6; exact E2|exact (p1_tail _ _ _ _ _ _ P1)].
Qed.

(** * The order of the calls *)
Context (Few : zlen (o_comdats o) + zlen (o_sections o) + zlen (o_symbols o) < 2 ^ 29).
Context (Sok : Forall (fun s => bytes_ok (se_name s) /\ good_align (se_align s)) (o_sections o)).
Context (Yok : Forall (fun y => bytes_ok (sy_name y)) (o_symbols o)).
Notation cs := (RFileHeader :: map fst steps).
(** the kinds of calls in each part *)
Definition plain (c : rcmd) : Prop := match c with RSection | RComdat _ | RAdd _ _ | RRange _ _ | RRelocations _ _ => True | _ => False end.
Lemma plain1 : Forall plain (map fst steps1).
Proof. rewrite cmds1. apply Forall_flat_map. apply Forall_forall. intros x _. repeat constructor. Qed.
Lemma plain2 : Forall plain (map fst steps2).
Proof. rewrite cmds2. apply Forall_flat_map. apply Forall_forall. intros x _. unfold section_cmds. destruct (has_relocs x); repeat constructor. Qed.
Lemma plain6 : Forall plain (map fst steps6).
Proof. rewrite cmds6. apply Forall_flat_map. apply Forall_forall. intros x _. unfold reloc_cmds. destruct (has_relocs x); repeat constructor. Qed.
Definition symbolic (c : rcmd) : Prop := match c with RAdd _ _ | RNullSymbol SSymtab | RSymbol _ => True | _ => False end.
Lemma symbolic3 : Forall symbolic (map fst steps3).
Proof.
  rewrite cmds3. constructor; [exact I|]. apply Forall_app. split; [apply Forall_map, Forall_forall; intros; exact I|]. apply Forall_flat_map, Forall_forall. intros y _. unfold name_cmds. destruct (named_sym y); repeat constructor.
Qed.
Lemma plain_parts l : Forall plain l -> parts_of l = [].
Proof. induction 1 as [|c l H _ IH]; [reflexivity|]. unfold parts_of in *. cbn [flat_map]. rewrite IH. destruct c; cbn in H; try contradiction; reflexivity. Qed.
Lemma symbolic_parts l : Forall symbolic l -> parts_of l = [].
Proof. induction 1 as [|c l H _ IH]; [reflexivity|]. unfold parts_of in *. cbn [flat_map]. rewrite IH. destruct c; cbn in H; try contradiction; reflexivity. Qed.
Lemma parts_all : parts_of cs = [PTable SSymtab; PTable SShndx; PTable SStrtab; PTable SShstrtab; PSections].
Proof.
  unfold steps. rewrite !map_app. change (parts_of (RFileHeader :: ?l)) with (parts_of l).
  assert (A : forall a b, parts_of (a ++ b) = parts_of a ++ parts_of b) by (intros; apply flat_map_app).
  rewrite !A, (plain_parts _ plain1), (plain_parts _ plain2), (plain_parts _ plain6), (symbolic_parts _ symbolic3). unfold steps5. rewrite map_app, A. destruct nd; reflexivity.
Qed.
Lemma locals_len : zlen (locals o) + zlen (globals o) = zlen (o_symbols o).
Proof.
  unfold locals, globals. assert (L : zlen (enumerate (o_symbols o)) = zlen (o_symbols o)) by (rewrite <- (map_snd_enumerate (o_symbols o)) at 2; rewrite zlen_map; reflexivity).
  rewrite <- L. clear. induction (enumerate (o_symbols o)) as [|x l IH]; [reflexivity|]. cbn [filter]. destruct (oy_local (snd x)); cbn [negb]; rewrite !zlen_cons; lia.
Qed.
Lemma flat_len {X Y} (f : X -> list Y) n l : (forall x, zlen (f x) <= n) -> zlen (flat_map f l) <= n * zlen l.
Proof. intro H. induction l as [|x l IH]; [cbn [flat_map]; change (zlen (@nil Y)) with 0; change (zlen (@nil X)) with 0; lia|]. cbn [flat_map]. rewrite zlen_app, zlen_cons. specialize (H x). lia. Qed.
Lemma few_calls : zlen cs < 2 ^ 32.
Proof.
  unfold steps. rewrite zlen_cons, !map_app, !zlen_app, cmds1, cmds2, cmds3, cmds6, zlen_cons, zlen_app, zlen_map, zlen_app, locals_len.
  pose proof (flat_len comdat_cmds 3 (o_comdats o) ltac:(intro; unfold comdat_cmds; zl; lia)) as A1.
  pose proof (flat_len (section_cmds is_rela) 5 (o_sections o) ltac:(intro s; unfold section_cmds; destruct (has_relocs s); vm_compute; discriminate)) as A2.
  pose proof (flat_len name_cmds 1 (o_symbols o) ltac:(intro s; unfold name_cmds; destruct (named_sym s); vm_compute; discriminate)) as A3.
  pose proof (flat_len (reloc_cmds is_rela) 1 (o_sections o) ltac:(intro s; unfold reloc_cmds; destruct (has_relocs s); vm_compute; discriminate)) as A4.
  assert (zlen (map fst steps4) = 2) by reflexivity. assert (zlen (map fst steps5) <= 4) by (unfold steps5; destruct nd; vm_compute; discriminate). assert (zlen (map fst steps7) = 3) by reflexivity.
  pose proof (zlen_nonneg (o_comdats o)). pose proof (zlen_nonneg (o_sections o)). pose proof (zlen_nonneg (o_symbols o)). lia.
Qed.
Lemma unique_split {X} (x : X) a b c d : a ++ x :: b = c ++ x :: d -> ~ In x c -> ~ In x d -> a = c /\ b = d.
Proof.
  revert c. induction a as [|y a IH]; intros [|z c] H N1 N2; cbn [app] in H.
  - split; congruence.
  - exfalso. apply N1. left. congruence.
  - exfalso. apply N2. assert (Q : a ++ x :: b = d) by congruence. rewrite <- Q. apply in_app_iff. right. left. reflexivity.
  - assert (y = z) by congruence. subst. destruct (IH c) as (-> & ->); [congruence| |exact N2|split; reflexivity]. intro I. apply N1. right. exact I.
Qed.
Lemma not_plain (l : list rcmd) c : Forall plain l -> ~ plain c -> ~ In c l.
Proof. intros H N I. rewrite Forall_forall in H. exact (N (H c I)). Qed.
Lemma not_symbolic (l : list rcmd) c : Forall symbolic l -> ~ symbolic c -> ~ In c l.
Proof. intros H N I. rewrite Forall_forall in H. exact (N (H c I)). Qed.
Notation c1 := (map fst steps1). Notation c2 := (map fst steps2). Notation c3 := (map fst steps3). Notation c4 := (map fst steps4). Notation c5 := (map fst steps5). Notation c6 := (map fst steps6). Notation c7 := (map fst steps7).
Lemma cs_eq : cs = (RFileHeader :: c1 ++ c2 ++ c3) ++ (c4 ++ c5) ++ c6 ++ c7.
Proof. unfold steps. rewrite !map_app. cbn [app]. rewrite <- !app_assoc. reflexivity. Qed.
Lemma before c : ~ plain c -> ~ symbolic c -> c <> RFileHeader -> ~ In c (RFileHeader :: c1 ++ c2 ++ c3).
Proof.
  intros N1 N2 N3 [Q|Q]; [congruence|]. rewrite !in_app_iff in Q. destruct Q as [Q|[Q|Q]]; revert Q; [apply not_plain; [apply plain1|exact N1]|apply not_plain; [apply plain2|exact N1]|apply not_symbolic; [apply symbolic3|exact N2]].
Qed.
Lemma in6 c : ~ plain c -> ~ In c c6. Proof. intro N. apply not_plain; [apply plain6|exact N]. Qed.
Lemma sym_plain s l : Forall plain l -> Forall (fun c => symbol_of c <> Some s) l.
Proof. intro H. eapply Forall_impl; [|exact H]. intros c Q. destruct c; cbn in Q; try contradiction; discriminate. Qed.
Lemma symbols_zero s l : Forall plain l -> symbols s l = 0.
Proof. induction 1 as [|c l H _ IH]; [reflexivity|]. unfold symbols in *. cbn [filter]. destruct c; cbn in H; try contradiction; exact IH. Qed.
Lemma symbols_names s : symbols s (flat_map name_cmds (o_symbols o)) = 0.
Proof. apply symbols_zero. apply Forall_flat_map, Forall_forall. intros y _. unfold name_cmds. destruct (named_sym y); repeat constructor. Qed.
Lemma symbols_map l : symbols SSymtab (map (symbol_cmd (pl_secs p)) l) = zlen l.
Proof.
  induction l as [|x l IH]; [reflexivity|]. cbn [map]. unfold symbols in *. cbn [filter]. unfold symbol_cmd at 1. change (slot_beq SSymtab SSymtab) with true. cbn match. rewrite !zlen_cons. f_equal. exact IH.
Qed.
Lemma symbols3 : symbols SSymtab c3 = zlen (o_symbols o).
Proof.
  rewrite cmds3. change (symbols SSymtab (RNullSymbol SSymtab :: ?l)) with (symbols SSymtab l). rewrite symbols_app, symbols_map, symbols_names, zlen_app, locals_len. lia.
Qed.
Lemma ordered : in_order cs.
Proof.
  constructor.
  - constructor; [exact I|]. unfold steps. rewrite !map_app. rewrite !Forall_app. split; [|split; [|split; [|split; [|split; [|split]]]]].
    + rewrite cmds1. apply Forall_flat_map, Forall_forall. intros c _. pose proof (zlen_nonneg (oc_sections c)). repeat constructor; cbn [call_ok]; first [lia|apply bytes_ok_forallb; vm_compute; reflexivity].
    + rewrite cmds2. apply Forall_flat_map. eapply Forall_impl; [|exact Sok]. intros s (B1 & B2). pose proof (zlen_nonneg (se_data s)). unfold section_cmds.
      assert (B3 : bytes_ok (reloc_name is_rela s)). { unfold reloc_name. apply bytes_ok_app. split; [destruct is_rela; apply bytes_ok_forallb; vm_compute; reflexivity|exact B1]. }
      assert (A : forall b, bytes_ok b -> call_ok (RAdd SShstrtab b)) by (intros b Q; split; [left; reflexivity|exact Q]).
      apply Forall_app. split; [constructor; [exact I|]; constructor; [split; [exact H|exact B2]|]; constructor; [apply A; exact B1|constructor]|].
      destruct (has_relocs s); [|constructor]. constructor; [exact I|]. constructor; [apply A; exact B3|constructor].
    + rewrite cmds3. constructor; [left; reflexivity|]. apply Forall_app. split; [apply Forall_map, Forall_forall; intros; exact I|]. apply Forall_flat_map. eapply Forall_impl; [|exact Yok].
      intros y B. unfold name_cmds. destruct (named_sym y); [|constructor]. constructor; [split; [right; left; reflexivity|exact B]|constructor].
    + constructor; [exact I|]. constructor; [left; reflexivity|constructor].
    + assert (T : Forall call_ok [RShndx; RIndex SStrtab; RStrings SStrtab]) by (constructor; [exact I|]; constructor; [exact I|]; constructor; [right; left; reflexivity|constructor]).
      unfold steps5. destruct nd; [constructor; [exact I|exact T]|exact T].
    + rewrite cmds6. apply Forall_flat_map, Forall_forall. intros s _. unfold reloc_cmds. pose proof (zlen_nonneg (se_relocs s)). destruct (has_relocs s); [|constructor]. constructor; [cbn [call_ok]; lia|constructor].
    + constructor; [exact I|]. constructor; [left; reflexivity|]. constructor; [exact I|constructor].
  - exact few_calls.
  - rewrite parts_all. repeat constructor; cbn [In]; intuition discriminate.
  - intros a b E. refine (proj1 (unique_split RFileHeader a b [] (map fst steps) _ (fun F => F) _)); [symmetry; exact E|].
    intro Q. unfold steps in Q. rewrite !map_app, !in_app_iff in Q. destruct Q as [Q|[Q|[Q|[Q|[Q|[Q|Q]]]]]].
    + revert Q. apply not_plain; [apply plain1|exact (fun F => F)].
    + revert Q. apply not_plain; [apply plain2|exact (fun F => F)].
    + revert Q. apply not_symbolic; [apply symbolic3|exact (fun F => F)].
    + cbn in Q. intuition discriminate.
    + unfold steps5 in Q. destruct nd; cbn in Q; intuition discriminate.
    + revert Q. apply not_plain; [apply plain6|exact (fun F => F)].
    + cbn in Q. intuition discriminate.
  - intros a s b E. rewrite cs_eq in E. assert (s = SSymtab).
    { assert (Q : In (RSymtab s) ((RFileHeader :: c1 ++ c2 ++ c3) ++ (c4 ++ c5) ++ c6 ++ c7)) by (rewrite E; apply in_app_iff; right; left; reflexivity).
      rewrite !in_app_iff in Q. destruct Q as [Q|[[Q|Q]|[Q|Q]]].
      - exfalso. revert Q. apply before; [exact (fun F => F)|exact (fun F => F)|discriminate].
      - cbn in Q. destruct Q as [Q|[Q|[]]]; congruence.
      - unfold steps5 in Q. destruct nd; cbn in Q; intuition discriminate.
      - exfalso. revert Q. apply in6. exact (fun F => F).
      - cbn in Q. intuition discriminate. }
    subst s. destruct (unique_split (RSymtab SSymtab) a b ((RFileHeader :: c1 ++ c2 ++ c3) ++ [RIndex SSymtab]) (c5 ++ c6 ++ c7)) as (_ & ->).
    + rewrite <- E. rewrite <- !app_assoc. reflexivity.
    + rewrite in_app_iff. intros [Q|[Q|[]]]; [|discriminate]. revert Q. apply before; [exact (fun F => F)|exact (fun F => F)|discriminate].
    + rewrite !in_app_iff. intros [Q|[Q|Q]]; [unfold steps5 in Q; destruct nd; cbn in Q; intuition discriminate|revert Q; apply in6; exact (fun F => F)|cbn in Q; intuition discriminate].
    + apply Forall_app. split; [unfold steps5; destruct nd; repeat constructor; discriminate|]. apply Forall_app. split; [apply sym_plain, plain6|repeat constructor; discriminate].
  - intros a b E. rewrite cs_eq in E.
    destruct (unique_split RShndx a b ((RFileHeader :: c1 ++ c2 ++ c3) ++ c4 ++ (if nd then [RIndex SShndx] else [])) ([RIndex SStrtab; RStrings SStrtab] ++ c6 ++ c7)) as (-> & ->).
    + rewrite <- E. unfold steps5. rewrite map_app. destruct nd; rewrite <- !app_assoc; reflexivity.
    + rewrite !in_app_iff. intros [Q|[Q|Q]]; [revert Q; apply before; [exact (fun F => F)|exact (fun F => F)|discriminate]|cbn in Q; intuition discriminate|destruct nd; cbn in Q; intuition discriminate].
    + rewrite !in_app_iff. intros [Q|[Q|Q]]; [cbn in Q; intuition discriminate|revert Q; apply in6; exact (fun F => F)|cbn in Q; intuition discriminate].
    + split; [rewrite !in_app_iff; right; left; right; left; reflexivity|]. split.
      * apply Forall_app. split; [repeat constructor; discriminate|]. apply Forall_app. split; [|repeat constructor; discriminate].
        eapply Forall_impl; [|exact plain6]. intros c Q. destruct c; cbn in Q; try contradiction; split; discriminate.
      * rewrite !symbols_app. change (symbols SSymtab (RFileHeader :: ?l)) with (symbols SSymtab l). rewrite !symbols_app, (symbols_zero _ _ plain1), (symbols_zero _ _ plain2), symbols3.
        assert (symbols SSymtab (if nd then [RIndex SShndx] else []) = 0) as -> by (destruct nd; reflexivity). change (symbols SSymtab c4) with 0.
        pose proof (zlen_nonneg (o_comdats o)). pose proof (zlen_nonneg (o_sections o)). lia.
  - intros a b E. rewrite cs_eq in E.
    destruct (unique_split (RStrings SShstrtab) a b ((RFileHeader :: c1 ++ c2 ++ c3) ++ (c4 ++ c5) ++ c6 ++ [RIndex SShstrtab]) [RSectionHeaders]) as (_ & ->).
    + rewrite <- E. rewrite <- !app_assoc. reflexivity.
    + rewrite !in_app_iff. intros [Q|[[Q|Q]|[Q|Q]]]; [revert Q; apply before; [exact (fun F => F)|exact (fun F => F)|discriminate]|cbn in Q; intuition discriminate|unfold steps5 in Q; destruct nd; cbn in Q; intuition discriminate|revert Q; apply in6; exact (fun F => F)|cbn in Q; intuition discriminate].
    + cbn. intuition discriminate.
    + repeat constructor. discriminate.
  - intros s _. rewrite cs_eq, !in_app_iff. right. right. right. right. left. reflexivity.
Qed.
End Steps.
